(** C99: a script that first sets up groups, accounts, packages and units, and then files, changes nothing when it is run again. *)
From Coq Require Import Lia ZifyBool ZifyN ZifyNat.
From stdpp Require Import gmap.
From Verif Require Import Base Utf8 Dict_proofs Codec Spec_Codec Paths Sys Spec_Sys Sys_proofs Dispatcher Client Spec_Session Spec_Remote Remote_run Digits Control Spec_Control Control_proofs
  Walk_proofs Quiet Prop_Control Op Op_proofs Coreutils Files Files_plain Spec_Files Shell_proofs Steps Dir_proofs Dry_proofs Dry_files Remote_examples Files_examples Prop_Files Spec_Tree Tree_proofs Prop_Line Spec_Script Script_proofs Script_line Prop_Script
  System Spec_Commands Commands_proofs Package_proofs Prop_Package Spec_Account Query_proofs Account_proofs Account_run Shadow Prop_Account Spec_Service Prop_Service Spec_Footprint Footprint_proofs Prop_Footprint
  Dry_system Spec_Tasks Prop_Tasks Prop_Again Prop_Settled.
Local Open Scope nat_scope.

(** Programs for accounts, packages and units are none of the coreutils. *)
Definition system_tools : list pystr := [lit "useradd"; lit "usermod"; lit "groupadd"; lit "groupmod"; lit "pacman"; lit "systemctl"].
Lemma not_coreutils rest p s h : head (p_argv p) = Some h -> h ∈ system_tools -> coreutils rest p s = rest p s.
Proof.
  intros Hh Hi. unfold coreutils. destruct (p_argv p) as [|c r]; [discriminate|]. injection Hh as ->.
  assert (H : forall x, x ∈ [lit "mkdir"; lit "touch"; lit "rm"; lit "readlink"; lit "chmod"; lit "chown"; lit "ln"; lit "cp"] -> str_eqb h x = false).
  { intros x Hx. unfold system_tools in Hi. repeat (apply elem_of_cons in Hi as [-> |Hi]; [repeat (apply elem_of_cons in Hx as [-> |Hx]; [vm_compute; reflexivity|]); inversion Hx|]). inversion Hi. }
  assert (H1 : str_eqb h (lit "mkdir") = false) by (apply H; repeat first [apply elem_of_list_here|apply elem_of_list_further]).
  assert (H2 : str_eqb h (lit "touch") = false) by (apply H; repeat first [apply elem_of_list_here|apply elem_of_list_further]).
  assert (H3 : str_eqb h (lit "rm") = false) by (apply H; repeat first [apply elem_of_list_here|apply elem_of_list_further]).
  assert (H4 : str_eqb h (lit "readlink") = false) by (apply H; repeat first [apply elem_of_list_here|apply elem_of_list_further]).
  assert (H5 : str_eqb h (lit "chmod") = false) by (apply H; repeat first [apply elem_of_list_here|apply elem_of_list_further]).
  assert (H6 : str_eqb h (lit "chown") = false) by (apply H; repeat first [apply elem_of_list_here|apply elem_of_list_further]).
  assert (H7 : str_eqb h (lit "ln") = false) by (apply H; repeat first [apply elem_of_list_here|apply elem_of_list_further]).
  assert (H8 : str_eqb h (lit "cp") = false) by (apply H; repeat first [apply elem_of_list_here|apply elem_of_list_further]).
  destruct r as [|x1 [|x2 [|x3 [|x4 [|x5 r]]]]]; rewrite ?H1, ?H2, ?H3, ?H4, ?H5, ?H6, ?H7, ?H8; reflexivity.
Qed.

Lemma play_alike (f g : task -> W opres) : (forall t c, f t c = g t c) -> forall l c, play task f l c = play task g l c.
Proof.
  intros H. induction l as [|t l IH]; intros c; cbn [play]; [reflexivity|]. unfold mbind, W_bind. rewrite H. destruct (g t c) as [[x|e] c1]; [|reflexivity]. rewrite IH. reflexivity.
Qed.
Lemma turns_alike (f g : task -> W opres) P : (forall t c, f t c = g t c) -> forall l c, in_turn task f P l c -> in_turn task g P l c.
Proof. intros H. induction l as [|t l IH]; intros c; cbn [in_turn]; [auto|]. intros [H1 H2]. split; [exact H1|]. intros x c1 E. apply IH, (H2 x). rewrite H. exact E. Qed.
Lemma play_remotely (f : task -> W opres) l : (forall t, t ∈ l -> remotely (f t)) -> remotely (play task f l).
Proof.
  induction l as [|t l IH]; intros H; cbn [play]; [apply remotely_ret|]. apply remotely_bind; [apply H; left|intros x]. apply remotely_bind; [apply IH; intros t' Ht; apply H; right; exact Ht|intros; apply remotely_ret].
Qed.

Section mixed.
  Variable rest : proc -> M xres.
  Variable sha512 : bytes -> bytes.
  Variable want_diff : bool.
  Variable search : bool -> pystr -> pystr -> result bool.
  Variable date : pystr.
  Variable set_order : list pystr -> list pystr.
  Hypothesis Horder : forall l, set_order l ≡ₚ l.
  Variable has : os -> pystr -> Prop.
  Variable value : properties.
  Variable units : list pystr.
  Hypothesis Htrust : trustworthy rest has value units.
  (** The files of the script are not those in which packages and units are recorded. *)
  Hypothesis Hhas : forall s f p, has (set_fs f s) p <-> has s p.
  Hypothesis Hvalue : forall s f user prop u, value (set_fs f s) user prop u = value s user prop u.
  Notation tool := (carry_out (coreutils rest) sha512 set_order NotGiven).
  Notation does := (Prop_Script.does rest sha512 want_diff search date).
  Notation well_formed := (Prop_Script.well_formed rest sha512 want_diff).
  Notation holds := (holds has value).
  Notation sound := (sound rest has units).

  Lemma tool_rest t c : tool t c = carry_out rest sha512 set_order NotGiven t c.
  Proof.
    assert (Hin : forall h, h ∈ system_tools -> forall p s, head (p_argv p) = Some h -> coreutils rest p s = rest p s) by (intros h Hh p s H; eapply not_coreutils; eassumption).
    unfold carry_out. destruct t as [g gid sy|u uid group groups append sy hash home shell comment|packages present opts|unit state en].
    - apply (C85_group sha512 false NotGiven g true gid sy). intros p s [_ (v & _ & H)]. destruct H as [H|[H|[H|[H|H]]]]; apply head_of in H; eapply Hin; try exact H; unfold system_tools; rewrite !elem_of_cons; auto.
    - apply (C85_user sha512 false NotGiven u true uid group groups append sy hash home shell comment).
      intros p s [_ [(o & _ & H)|(o & v & _ & H)]]; apply head_of in H; eapply Hin; try exact H; unfold system_tools; rewrite !elem_of_cons; auto.
    - assert (Ha : forall p s, head (p_argv p) = Some (lit "pacman") -> coreutils rest p s = rest p s) by (apply Hin; unfold system_tools; rewrite !elem_of_cons; auto 8).
      apply same_operation. unfold pacman_package. apply (same_packages false set_order Horder); [intros p _|intros _ _ p _|intros _ _ p _].
      + unfold pacman_has. apply sameW_bind; [|intros; apply sameW_refl]. apply (same_wrun (coreutils rest) rest sha512 (fun argv => head argv = Some (lit "pacman")) Ha). reflexivity.
      + apply (same_sh (coreutils rest) rest sha512 (fun argv => head argv = Some (lit "pacman")) Ha). reflexivity.
      + apply (same_sh (coreutils rest) rest sha512 (fun argv => head argv = Some (lit "pacman")) Ha). reflexivity.
    - apply (C85_service sha512 false search date NotGiven unit state en false). intros p s H. apply (Hin (lit "systemctl")); [unfold system_tools; rewrite !elem_of_cons; auto 8|].
      destruct H as [(prop & _ & H)|[_ (v & H & _)]]; exact (head_of _ _ _ _ H).
  Qed.
  Lemma tools_rest l c : play task tool l c = play task (carry_out rest sha512 set_order NotGiven) l c.
  Proof. apply play_alike, tool_rest. Qed.
  Lemma turns_rest l c : in_turn task tool turn l c -> in_turn task (carry_out rest sha512 set_order NotGiven) turn l c.
  Proof. apply turns_alike, tool_rest. Qed.

  (** Only the state of the host is changed by a step. *)
  Lemma remotely_verdict a x : remotely (verdict a x).
  Proof. unfold verdict. destruct (_ && _); [apply remotely_raise|apply remotely_ret]. Qed.
  Lemma remotely_group g gid sy : remotely (group_body rest sha512 false g true gid sy).
  Proof.
    unfold group_body. apply remotely_bind; [apply remotely_query_group|]. intros [x|]; cbv beta iota.
    - apply remotely_conclude, remotely_wif, remotely_sh'.
    - apply remotely_conclude, remotely_sh'.
  Qed.
  Lemma remotely_edit u uid group groups append hash home shell comment x : remotely (edit_user rest sha512 u uid group groups append hash home shell comment x).
  Proof.
    unfold edit_user. apply remotely_bind; [apply remotely_wif, remotely_sh'|intros _]. apply remotely_bind; [apply remotely_wif, remotely_sh'|intros _].
    apply remotely_bind; [match goal with |- context [match ?l with [] => _ | _ => _ end] => destruct l end; [apply remotely_ret|apply remotely_wif, remotely_sh']|intros _].
    apply remotely_bind; [apply remotely_wif, remotely_sh'|intros _]. apply remotely_bind; [apply remotely_wif, remotely_sh'|intros _]. apply remotely_bind; [apply remotely_wif, remotely_sh'|intros _].
    match goal with |- context [match ?l with None => _ | Some _ => _ end] => destruct l end; [apply remotely_wif, remotely_sh'|apply remotely_ret].
  Qed.
  Lemma remotely_user u uid group groups append sy hash home shell comment : remotely (user_body rest sha512 false u true uid group groups append sy hash home shell comment).
  Proof.
    unfold user_body. apply remotely_bind; [apply remotely_query_user|]. intros [x|]; cbv beta iota.
    - apply remotely_conclude, remotely_edit.
    - apply remotely_conclude, remotely_sh'.
  Qed.
  Lemma tool_remotely t : sound t -> remotely (carry_out rest sha512 set_order NotGiven t).
  Proof.
    destruct Htrust. unfold carry_out. destruct t as [g gid sy|u uid group groups append sy hash home shell comment|packages present opts|unit state en]; cbn [Prop_Tasks.sound]; intros Hs c r c' E.
    - rewrite (operation_plain _ _ _ c (group_plain rest sha512 false g true gid sy)) in E. exact (remotely_bind _ _ (remotely_group g gid sy) (remotely_verdict NotGiven) c r c' E).
    - rewrite (operation_plain _ _ _ c (user_plain rest sha512 false u true uid group groups append sy hash home shell comment)) in E.
      exact (remotely_bind _ _ (remotely_user u uid group groups append sy hash home shell comment) (remotely_verdict NotGiven) c r c' E).
    - destruct Hs as (_ & Hi & Hr). exact (proj1 (C57_pacman rest sha512 set_order Horder has trust_has trust_bounded _ _ _ _ _ _ _ trust_asks Hi Hr E)).
    - destruct Hs as (_ & Hst & _).
      assert (Hv : forall t, state = Some t -> exists v, verb_of t v).
      { intros t ->. destruct Hst as [[= ->]|[= ->]]; eexists; unfold verb_of; rewrite !elem_of_cons; [left|do 3 right; left]; reflexivity. }
      exact (proj1 (C59_partial rest sha512 value trust_bounded _ _ _ _ _ _ _ trust_shows trust_value Hv E)).
  Qed.
  Lemma tools_remotely l : Forall sound l -> remotely (play task (carry_out rest sha512 set_order NotGiven) l).
  Proof. intros H. apply play_remotely. intros t Ht. apply tool_remotely. eapply Forall_forall; eassumption. Qed.
  (** Files do not matter to what the system steps ask for. *)
  Lemma holds_files t s s' : only_files s s' -> holds t s -> holds t s'.
  Proof.
    intros Hf. destruct Htrust. assert (Hu : unaffected (set_fs (o_fs s') s) s') by exact Hf.
    intros H. eapply (holds_still has value trust_has trust_value); [exact Hu|]. revert H.
    destruct t as [g gid sy|u uid group groups append sy hash home shell comment|packages present opts|unit state en]; cbn [Prop_Tasks.holds].
    - exact (fun H => H).
    - apply user_moves; try reflexivity. auto.
    - intros H p Hp. specialize (H p Hp). destruct present; rewrite Hhas; exact H.
    - unfold state_given, enabled_given, running, enabled. rewrite !Hvalue. exact (fun H => H).
  Qed.
  Lemma tidy_files s s' : only_files s s' -> tidy s -> tidy s'.
  Proof. intros ->. exact (fun H => H). Qed.

  (** Full statement: for all scripts of system steps and file steps in any order.  It is false, see below. *)
  Theorem C99_partial l1 l2 c rs1 c1 rs2 c2 reqs :
    Forall sound l1 -> ForallOrdPairs independent l1 -> in_turn task tool turn l1 c -> play task tool l1 c = (Ok rs1, c1) -> tidy (sysof c1) ->
    ready c1 reqs -> healthy c1 -> hash_ok sha512 -> unaliased (sysof c1) -> canonical_base (c_base c1) ->
    Forall (well_formed (sysof c1) (c_base c1) reqs) l2 -> in_turn step does now l2 c1 -> play step does l2 c1 = (Ok rs2, c2) ->
    apart step about (sysof c2) l2 -> (forall st p pl n, st ∈ l2 -> about st p -> sees (sysof c2) p pl n -> N.land (n_mode n) 3072 = 0%N) ->
    (forall t, t ∈ l1 -> holds t (sysof c2)) /\ (ready c2 reqs /\ c_base c2 = c_base c1) /\
    forall c3 r4 c4, ready c3 reqs -> c_base c3 = c_base c1 -> sysof c3 = sysof c2 -> play task tool l1 c3 = (r4, c4) ->
      unaffected (sysof c3) (sysof c4) /\
      forall rs4, r4 = Ok rs4 -> length rs4 = length l1 /\ Forall (fun x => or_success x = true /\ or_changed x = false) rs4 /\
        (healthy c4 -> exists rs5, play step does l2 c4 = (Ok rs5, c4) /\ length rs5 = length l2 /\ Forall (fun x => or_changed x = false) rs5).
  Proof using Horder Htrust Hhas Hvalue.
    intros Hs Hi Ht E1 Htidy Hrd Hh1 Hha Hun Hcb Hwf Hin E2 Hap Hbits. rewrite tools_rest in E1. apply turns_rest in Ht. destruct Hh1 as (_ & Hf1 & Hu1). pose proof Htrust as [T1 T2 T3 T4 T5 T6 T7 T8].
    destruct (script_grants rest sha512 set_order Horder has value units T7 T8 T1 T2 T3 T4 T5 T6 NotGiven l1 Hs Hi c rs1 c1 Ht E1 Htidy) as (_ & _ & G & _).
    destruct (steps_again rest sha512 want_diff search date l2 c1 rs2 c2 reqs Hrd Hf1 Hu1 Hha Hun Hcb Hwf Hin E2) as (S1 & S2 & S3 & S4 & _ & S5). specialize (S5 Hap Hbits).
    assert (G2 : forall t, t ∈ l1 -> holds t (sysof c2)) by (intros t H; eapply holds_files; [exact S2|apply G, H]). split; [exact G2|]. split; [split; [exact S4|rewrite S1; reflexivity]|].
    intros c3 r4 c4 Hrd3 Hb3 Hs3 E3. rewrite tools_rest in E3.
    destruct (script_idle rest sha512 set_order Horder has value units T7 T8 T1 T2 T3 T4 NotGiven l1 Hs c3 r4 c4) as [U1 U2]; [rewrite Hs3; eapply tidy_files; eassumption|rewrite Hs3; exact G2|exact E3|].
    split; [exact U1|]. intros rs4 Hr. destruct (U2 rs4 Hr) as [U3 U4]. split; [exact U3|]. split; [exact U4|]. intros (Hup & Hf4 & _).
    pose proof (tools_remotely l1 Hs _ _ _ E3) as Hset.
    assert (Hs4 : sysof c4 = sysof c2).
    { rewrite <- Hs3. unfold unaffected in U1. rewrite U1, Hf4. rewrite <- Hs3 in S3. destruct (sysof c3); cbn in *. rewrite S3. reflexivity. }
    apply S5.
    - rewrite Hset. destruct Hrd3 as ((d0 & A1 & A2) & A3 & A4 & A5). unfold ready. change (active (set_remote (c_remote c4) c3)) with (active c3). change (c_base (set_remote (c_remote c4) c3)) with (c_base c3).
      change (sysof (set_remote (c_remote c4) c3)) with (sysof c4). rewrite Hs4, <- Hs3. split; [exists d0; split; assumption|]. split; [exact A3|]. split; assumption.
    - rewrite Hset. exact Hb3.
    - rewrite <- Hs4. unfold sysof. destruct (c_remote c4) as [s k]. cbn in *. subst k. reflexivity.
  Qed.
End mixed.
Print Assumptions C99_partial.

(** ** A case that meets the hypotheses: packages, a group, two accounts and a unit (Prop_Tasks), and then files that belong to the accounts *)
Notation ex_tool := (carry_out (coreutils machine) fake_hash (fun l => l) NotGiven).
Notation ex_step := (Prop_Script.does machine fake_hash true Prop_Line.literally Prop_Line.today).
Lemma machine_trusted : trustworthy machine stocked kept [sshd].
Proof. apply (staff_prepared h_a). Qed.
(** the host after the first part *)
Definition hired : os := OS
  [ Account (lit "root") 0 0 [] (lit "/root") (lit "/bin/sh"); Account (lit "alice") 1000 100 [] (lit "/home") (lit "/bin/sh");
    Account bob 1005 2000 (lit "Bob") (lit "/home/bob") (lit "/bin/zsh"); Account carol 1006 2001 (lit "Carol") (lit "/home/carol") (lit "/sbin/nologin") ]
  [ Grent (lit "root") 0 []; Grent (lit "users") 100 []; Grent bob 1001 []; Grent wheel 10 [bob]; Grent audio 20 [bob; carol]; Grent devs 2000 [carol]; Grent carol 2001 [] ]
  [ (lit "root", lit "*"); (bob, lit "$6$x"); (carol, lit "!") ]
  [ (lit "LANG", lit "C"); (lit "pvim", lit "y"); (lit "pgit", lit "y"); (lit "0ActiveState/sshd.service", lit "active"); (lit "0UnitFileState/sshd.service", lit "enabled") ]
  site_fs 0 0 [0%N] [] 200 [].
Definition hired_ctl : ctl := on hired ex_base.
Lemma hired_is : snd (play task ex_tool ex_script office) = hired_ctl.
Proof. vm_compute. reflexivity. Qed.
Lemma hired_ok : os_ok hired.
Proof.
  assert (S : forall x, short x -> str_ok x) by (intros x [H1 H2]; split; [exact H1|unfold small; lia]).
  pose proof site_ok as (_ & _ & _ & _ & _ & Hfs & _).
  unfold os_ok. cbn [hired o_passwd o_group o_shadow o_env o_fs o_uid o_gid o_now o_faults]. parts.
  - each; unfold acct_ok; parts; try (apply S; text); unfold id_ok; cbn; lia.
  - each; unfold grp_ok; parts; try each; try (apply S; text); try small_nat; unfold id_ok; cbn; lia.
  - small_nat.
  - each; apply S; text.
  - each; apply S; text.
  - exact Hfs.
  - unfold id_ok. cbn. lia.
  - unfold id_ok. cbn. lia.
  - unfold in_u64. lia.
  - constructor.
Qed.
Lemma hired_accounts : accounts_ok hired /\ unaliased hired.
Proof. split; [split_and!|split]; try dec; each; (apply word_dec; [text|vm_compute; reflexivity|vm_compute; reflexivity]). Qed.
Lemma hired_root : user_valid hired (lit "root") /\ group_valid hired (lit "root").
Proof. split; (split; [split; [text|dec]|]; eexists; split; [left|left; reflexivity]). Qed.
Lemma hired_ready : ready hired_ctl [].
Proof.
  split; [|split; [split; discriminate|split; [apply hired_accounts|apply hired_ok]]]. exists ex_settled. split; [reflexivity|]. left.
  assert (Hu : denotes_user hired (lit "root") (Account (lit "root") 0 0 [] (lit "/root") (lit "/bin/sh"))) by (split; [left|left; reflexivity]).
  assert (Hg : denotes_group hired (lit "root") (Grent (lit "root") 0 [])) by (split; [left|left; reflexivity]).
  split_and!; try (eexists; split; [eassumption|reflexivity]); try (split; [reflexivity|discriminate]). reflexivity.
Qed.
Lemma hired_feasible o g fm dm : opt_ok (user_valid hired) o -> opt_ok (group_valid hired) g -> match fm with Some _ => octal_below 4096 fm | None => True end -> match dm with Some _ => octal_below 4096 dm | None => True end ->
  feasible (sysof hired_ctl) (c_base hired_ctl) ([] ++ [Settings None None o g fm dm None None]).
Proof.
  intros Ho Hg Hf Hd. destruct hired_root as [Hu1 Hg1].
  unfold feasible, wanted. cbn [app List.map innermost hired_ctl on c_base ex_base s_as_user s_as_group s_owner s_group s_file_mode s_dir_mode s_umask s_cwd opt_ok sysof c_remote r_os].
  split_and!; try assumption.
  - destruct o; [exact Ho|exact Hu1].
  - destruct g; [exact Hg|exact Hg1].
  - destruct fm; [exact Hf|]. apply (octal_below_dec _ _ 384). vm_compute. reflexivity.
  - destruct dm; [exact Hd|]. apply (octal_below_dec _ _ 448). vm_compute. reflexivity.
  - apply (octal_below_dec _ _ 63). vm_compute. reflexivity.
  - split; [text|dec].
  - reflexivity.
  - pose proof (site_feasible None None None (or_introl eq_refl) I I) as (_ & _ & _ & _ & _ & _ & _ & _ & _ & H). exact H.
Qed.
Lemma hired_carol : opt_ok (user_valid hired) (Some carol).
Proof. split; [apply carol_string|]. eexists. split; [right; right; right; left|left; reflexivity]. Qed.
Lemma hired_bob : opt_ok (user_valid hired) (Some bob).
Proof. split; [apply bob_string|]. eexists. split; [right; right; left|left; reflexivity]. Qed.
Lemma hired_devs : opt_ok (group_valid hired) (Some devs).
Proof. split; [split; [text|dec]|]. eexists. split; [do 5 right; left|left; reflexivity]. Qed.
Definition home_steps : list step :=
  [ Directory p_web m755 (Some carol) (Some devs);
    Put (upload_content (coreutils machine) fake_hash false true (inl (blit "hello")) p_page m755 (Some bob) None) p_page (blit "hello") m755 (Some bob) None; Line p_note (lit "x=1") true true ].
Lemma home_formed : Forall (Prop_Script.well_formed machine fake_hash true (sysof hired_ctl) (c_base hired_ctl) []) home_steps.
Proof.
  assert (H755 : octal_below 1024 m755) by (apply (octal_below_dec _ _ 493); vm_compute; reflexivity).
  unfold home_steps. each.
  - split; [split; [text|dec]|]. split; [eexists; reflexivity|]. split; [apply hired_feasible; [exact hired_carol|exact hired_devs|exact I|exact ex_c755]|exact H755].
  - split; [left; eexists; split; [reflexivity|left; reflexivity]|]. split; [unfold small; vm_compute; reflexivity|]. split; [split; [text|dec]|]. split; [eexists; reflexivity|].
    split; [apply hired_feasible; [exact hired_bob|exact I|exact ex_c755|exact I]|exact H755].
  - split; [split; [text|dec]|]. split; [eexists; reflexivity|]. split; [split; [apply (bool_decide_unpack _); vm_compute; exact I|eexists; vm_compute; reflexivity]|].
    apply hired_feasible; exact I.
Qed.
Definition settled_ctl : ctl := snd (play step ex_step home_steps hired_ctl).
Lemma home_spots : forallb (fun x => bool_decide (spot_at (sysof settled_ctl) (fst x) = Some (snd x, 0%N)))
  [(p_web, [lit "web"; lit "old"; lit "srv"]); (p_page, [lit "page"; lit "web"; lit "old"; lit "srv"]); (p_note, [lit "note"; lit "old"; lit "srv"])] = true.
Proof. vm_compute. reflexivity. Qed.
Lemma home_spot p pl n : sees (sysof settled_ctl) p pl n -> p ∈ [p_web; p_page; p_note] -> N.land (n_mode n) 3072 = 0%N /\ (pl, p) ∈ [([lit "web"; lit "old"; lit "srv"], p_web); ([lit "page"; lit "web"; lit "old"; lit "srv"], p_page); ([lit "note"; lit "old"; lit "srv"], p_note)].
Proof.
  intros H Hi. apply spot_seen in H. pose proof home_spots as Hs. cbn [forallb fst snd] in Hs. rewrite !andb_true_iff in Hs. destruct Hs as (H1 & H2 & H3 & _).
  apply bool_decide_eq_true in H1, H2, H3.
  repeat (apply elem_of_cons in Hi as [-> |Hi]); [rewrite H1 in H|rewrite H2 in H|rewrite H3 in H|inversion Hi];
    (assert (Hpl := f_equal (fmap fst) H); assert (Hm := f_equal (fmap snd) H); cbn [fmap option_fmap option_map fst snd] in Hpl, Hm; injection Hpl as <-; split; [congruence|]);
    repeat first [apply elem_of_list_here|apply elem_of_list_further].
Qed.
Example C99_case : let x := play task ex_tool ex_script office in let y := play step ex_step home_steps (snd x) in let z := play task ex_tool ex_script (snd y) in
  trustworthy machine stocked kept [sshd] /\ (forall s f p, stocked (set_fs f s) p <-> stocked s p) /\ (forall s f user prop u, kept (set_fs f s) user prop u = kept s user prop u) /\
  Forall (sound machine stocked [sshd]) ex_script /\ ForallOrdPairs independent ex_script /\ in_turn task ex_tool turn ex_script office /\ x = (Ok (results_in x), snd x) /\ tidy (sysof (snd x)) /\
  ready (snd x) [] /\ healthy (snd x) /\ hash_ok fake_hash /\ unaliased (sysof (snd x)) /\ canonical_base (c_base (snd x)) /\
  Forall (Prop_Script.well_formed machine fake_hash true (sysof (snd x)) (c_base (snd x)) []) home_steps /\ in_turn step ex_step now home_steps (snd x) /\ y = (Ok (results_in y), snd y) /\
  apart step about (sysof (snd y)) home_steps /\ (forall st p pl n, st ∈ home_steps -> about st p -> sees (sysof (snd y)) p pl n -> N.land (n_mode n) 3072 = 0%N) /\
  map or_changed (results_in x) = [true; true; true; true; true] /\ map or_changed (results_in y) = [true; true; true] /\
  o_fs (sysof (snd y)) !! [lit "web"; lit "old"; lit "srv"] = Some (Node KDir 493 1006 2000 200 200) /\
  map or_changed (results_in z) = [false; false; false; false; false] /\ healthy (snd z) /\ map or_changed (results_in (play step ex_step home_steps (snd z))) = [false; false; false].
Proof.
  cbv zeta. split; [exact machine_trusted|]. split; [intros; reflexivity|]. split; [intros; reflexivity|]. split; [exact ex_sound|]. split; [exact ex_independent|].
  split. { eapply turns_alike; [intros t c; symmetry; apply (tool_rest machine fake_hash Prop_Line.literally Prop_Line.today (fun l => l) (fun l => reflexivity l))|]. apply turns_checked. vm_compute. reflexivity. }
  split; [apply ran_is; vm_compute; reflexivity|]. rewrite hired_is. split; [apply tidy_checked; vm_compute; reflexivity|].
  split; [exact hired_ready|]. split; [split_and!; reflexivity|]. split; [exact ex_hash|]. split; [apply hired_accounts|]. split; [exact ex_canonical|]. split; [exact home_formed|].
  split. { split; [exact I|]. intros r1 c1 E1. split; [exact I|]. intros r2 c2 E2. split; [|intros; exact I].
    assert (c1 = snd (ex_step (Directory p_web m755 (Some carol) (Some devs)) hired_ctl)) as -> by (rewrite E1; reflexivity). clear E1.
    match type of E2 with ?f ?c = _ => assert (c2 = snd (f c)) as -> by (rewrite E2; reflexivity) end. clear E2.
    exists None. split; [vm_compute; reflexivity|]. split; [vm_compute; reflexivity|discriminate]. }
  split; [apply ran_is; vm_compute; reflexivity|]. fold settled_ctl.
  assert (Hab : forall st p, st ∈ home_steps -> about st p -> p ∈ [p_web; p_page; p_note]).
  { intros st p Hi Hp. unfold home_steps in Hi. repeat (apply elem_of_cons in Hi as [-> |Hi]); try (inversion Hi; fail); unfold about in Hp; subst p; repeat first [apply elem_of_list_here|apply elem_of_list_further]. }
  split; [|split; [|split; [vm_compute; reflexivity|split; [vm_compute; reflexivity|]]]].
  - assert (Hne : forall p q pl n m, p ∈ [p_web; p_page; p_note] -> q ∈ [p_web; p_page; p_note] -> p <> q -> sees (sysof settled_ctl) p pl n -> ~ sees (sysof settled_ctl) q pl m).
    { intros p q pl n m Hp Hq Hne H1 H2. destruct (home_spot _ _ _ H1 Hp) as [_ K1], (home_spot _ _ _ H2 Hq) as [_ K2]. clear H1 H2 Hp Hq. apply Hne. revert K1 K2. rewrite !elem_of_cons, !elem_of_nil.
      intros [K1|[K1|[K1|[]]]] [K2|[K2|[K2|[]]]]; pose proof (f_equal fst K1) as A1; pose proof (f_equal fst K2) as A2; apply (f_equal snd) in K1, K2; cbn [fst snd] in A1, A2, K1, K2; first [congruence|exfalso; rewrite A1 in A2; vm_compute in A2; discriminate]. }
    repeat (split; [intros st' p q pl n m Hi Hp Hq; cbn [about] in Hp; subst p; repeat (apply elem_of_cons in Hi as [-> |Hi]); try (inversion Hi; fail); cbn [about] in Hq; subst q;
      apply Hne; try (repeat first [apply elem_of_list_here|apply elem_of_list_further]); intros H; vm_compute in H; discriminate|]). exact I.
  - intros st p pl n Hi Hp H. eapply home_spot; [exact H|eapply Hab; eassumption].
  - split; [vm_compute; reflexivity|]. split; [vm_compute; reflexivity|]. split; [split_and!; vm_compute; reflexivity|]. vm_compute. reflexivity.
Qed.

(** Full statement (false): the same when the files come first.  A directory is given to a group, and then the group gets another number:
    the directory does not belong to it any more, and the next run has to hand it over again. *)
Definition late_group : list task := [Group wheel (Some 3000%Z) false].
Definition early_files : list step := [Directory p_web m755 None (Some wheel)].
Theorem C99_refuted : exists l1 l2 c rs1 c1 rs2 c2 rs3 c3,
  Forall (sound machine stocked [sshd]) l1 /\ ForallOrdPairs independent l1 /\ ready c [] /\ healthy c /\ unaliased (sysof c) /\ canonical_base (c_base c) /\
  Forall (Prop_Script.well_formed machine fake_hash true (sysof c) (c_base c) []) l2 /\ in_turn step ex_step now l2 c /\
  play step ex_step l2 c = (Ok rs1, c1) /\ play task ex_tool l1 c1 = (Ok rs2, c2) /\ tidy (sysof c2) /\ play step ex_step l2 c2 = (Ok rs3, c3) /\ map or_changed rs3 = [true].
Proof.
  set (x := play step ex_step early_files hired_ctl). set (y := play task ex_tool late_group (snd x)). set (z := play step ex_step early_files (snd y)).
  exists late_group, early_files, hired_ctl, (results_in x), (snd x), (results_in y), (snd y), (results_in z), (snd z).
  split; [constructor; [split; [split; [text|dec]|vm_compute; reflexivity]|constructor]|]. split; [constructor; [constructor|constructor]|]. split; [exact hired_ready|]. split; [split_and!; reflexivity|].
  split; [apply hired_accounts|]. split; [exact ex_canonical|]. split.
  { unfold early_files. each. split; [split; [text|dec]|]. split; [eexists; reflexivity|]. split; [apply hired_feasible; [exact I| |exact I|exact ex_c755]|apply (octal_below_dec _ _ 493); vm_compute; reflexivity].
    split; [split; [text|dec]|]. eexists. split; [do 3 right; left|left; reflexivity]. }
  split; [split; [exact I|intros; exact I]|]. split; [apply ran_is; vm_compute; reflexivity|]. split; [apply ran_is; vm_compute; reflexivity|]. split; [apply tidy_checked; vm_compute; reflexivity|].
  split; [apply ran_is; vm_compute; reflexivity|]. vm_compute. reflexivity.
Qed.
Print Assumptions C99_refuted.
