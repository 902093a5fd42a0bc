(** A deploy script that is only tried (--dry) tells what it would tell when it is carried out. *)
From Coq Require Import Lia ZifyBool ZifyN ZifyNat.
From stdpp Require Import gmap.
From Verif Require Import Base Utf8 Codec Spec_Codec Codec_proofs Paths Sys Spec_Sys Sys_proofs Dispatcher Client Spec_Remote Remote_run Direct Control Spec_Control Control_proofs Control_settle Prop_Control Op Spec_Op Op_proofs Coreutils Files Walk_proofs Files_plain Spec_Files Shell_proofs Thrift Steps Dir_proofs Transfer Converge Content_proofs Spec_Link Link_walk Link_proofs Remote_examples Files_examples Sound Frugal Spec_Tree Tree_proofs Prop_Files Prop_Content Prop_Link Tree_run Prop_Tree Tree_dry Prop_Tree_again Spec_Script Script_proofs Script_proofs Spec_Script Prop_Script Tree_dry Dry_proofs Dry_files Upward Rerun_proofs Spec_Line Line_text Line_proofs Prop_Line Script_line.
Local Open Scope nat_scope.

(** ** Looking at a path before and after other files were added *)
Lemma walk_err_grows fs fs' f e : grows fs fs' -> e <> oserr ENOENT -> forall budget l cur, walk fs f budget cur l = Err e -> walk fs' f budget cur l = Err e.
Proof.
  intros Hg He. induction budget as [|b IHb]; induction l as [|c r IH]; intros cur H; rewrite walk_unfold in H |- *; try exact H;
    destruct (str_eqb c (lit ".")); try (apply IH; assumption);
    destruct (str_eqb c (lit "..")); try (apply IH; assumption);
    destruct (fs !! (c :: cur)) as [m|] eqn:E;
    try (destruct r; [discriminate|injection H as <-; contradiction]);
    destruct (Hg _ _ E) as (m' & E' & Hs); rewrite E'; unfold shape in Hs;
    destruct (n_kind m) as [x| |t|x] eqn:K; destruct (n_kind m') as [x'| |t'|x'] eqn:K'; try discriminate; try exact H; try (apply IH; assumption).
  injection Hs as ->. destruct r; destruct f; cbn [negb] in H |- *; try exact H; (destruct t; [injection H as <-; contradiction|]); apply IHb; assumption.
Qed.
Lemma resolve_node_err_grows fs fs' cwd p f e : grows fs fs' -> e <> oserr ENOENT -> resolve_node fs cwd p f = Err e -> resolve_node fs' cwd p f = Err e.
Proof.
  intros Hg He. unfold resolve_node, resolve. destruct (has_char nul p); [auto|]. destruct p as [|x p]; [auto|].
  destruct (walk fs f _ _ _) as [q|e'] eqn:E; cbn [mbind]; unfold mbind, result_bind; [|intros [= ->]; rewrite (walk_err_grows _ _ _ _ Hg He _ _ _ E); reflexivity].
  destruct (fs !! q); [discriminate|]. intros [= <-]. contradiction.
Qed.
Lemma missing_before fs fs' p f e x : grows fs fs' -> resolve_node fs' [] p f = Ok x -> resolve_node fs [] p f = Err e -> e = oserr ENOENT.
Proof.
  intros Hg Hx E. assert (D : e = oserr ENOENT \/ e <> oserr ENOENT).
  { destruct (resolve_node_err _ _ _ _ _ E) as [[_ [m ->]]|[_ [-> |[-> | ->]]]]; [right; discriminate|left; reflexivity|right; discriminate..]. }
  destruct D as [D|D]; [exact D|]. rewrite (resolve_node_err_grows _ _ _ _ _ _ Hg D E) in Hx. discriminate.
Qed.
Lemma look_grown fs0 fs fs1 p f x : grows fs0 fs -> grows fs fs1 -> resolve_node fs1 [] p f = Ok x ->
  (forall pl n, resolve_node fs [] p f = Ok (pl, n) -> fs !! pl = fs0 !! pl) ->
  (forall pl n, (forall q m, resolve_node fs0 [] p f <> Ok (q, m)) -> resolve_node fs [] p f = Ok (pl, n) -> fs0 !! pl = None) ->
  resolve_node fs [] p f = resolve_node fs0 [] p f.
Proof.
  intros Hg Hg1 Hx Hun Hnew. destruct (resolve_node fs0 [] p f) as [[pl n]|e] eqn:E0.
  - assert (E1 := E0). apply resolve_node_split in E1 as [_ E1]. destruct (Hg _ _ E1) as (n' & E2 & _). assert (E3 := resolve_node_grows _ _ _ _ _ _ _ _ Hg E0 E2).
    rewrite (Hun _ _ E3) in E2. rewrite E1 in E2. injection E2 as <-. exact E3.
  - rewrite (missing_before _ _ _ _ _ _ (grows_trans _ _ _ Hg Hg1) Hx E0). destruct (resolve_node fs [] p f) as [[pl n]|e'] eqn:E.
    + exfalso. assert (Hn := Hnew pl n ltac:(intros; discriminate) eq_refl). assert (Hu := Hun _ _ eq_refl). apply resolve_node_split in E as [_ E]. rewrite Hu, Hn in E. discriminate.
    + rewrite (missing_before _ _ _ _ _ _ Hg1 Hx E). reflexivity.
Qed.

(** ** Operations that only look *)
Section blind.
  Variable rest : proc -> M xres.
  Variable sha512 : bytes -> bytes.
  Variable want_diff : bool.
  Notation exec := (coreutils rest).
  Hypothesis Hha : hash_ok sha512.
  (** What the body tells depends on nothing but the file at the path and the accounts. *)
  Definition blind (path : pystr) (body : settings -> W opres) : Prop := forall d c c0 res c', healthy c -> fine c0 -> os_ok (sysof c) -> os_ok (sysof c0) ->
    only_files (sysof c0) (sysof c) -> resolve_node (o_fs (sysof c)) [] path false = resolve_node (o_fs (sysof c0)) [] path false ->
    body d c = (Ok res, c') -> body d c0 = (Ok res, c0).
  Lemma stat_blind path c c0 sha : isabs path = true -> only_files (sysof c0) (sysof c) ->
    resolve_node (o_fs (sysof c)) [] path false = resolve_node (o_fs (sysof c0)) [] path false ->
    stat_result sha512 (sysof c) path false sha = stat_result sha512 (sysof c0) path false sha.
  Proof.
    intros Ha Hof Hr. unfold stat_result. rewrite (isabs_cwd_node _ (o_cwd (sysof c)) [] _ _ Ha), (isabs_cwd_node _ (o_cwd (sysof c0)) [] _ _ Ha), Hr.
    destruct (resolve_node (o_fs (sysof c0)) [] path false) as [[pl n]|e]; [|reflexivity].
    unfold statres_of, getpwuid, getgrgid. rewrite (only_files_passwd _ _ Hof), (only_files_group _ _ Hof). reflexivity.
  Qed.
  Lemma conclude_blind i f (m : W unit) c c0 res c' : m c0 = (Ok tt, c0) -> conclude i f m c = (Ok res, c') -> conclude i f m c0 = (Ok res, c0).
  Proof.
    intros Hm. unfold conclude. destruct (py_eq _ _); [intros [= <- _]; reflexivity|]. intros E. apply bind_spec in E as [([] & c1 & _ & E)|(e & _ & [=])]. injection E as <- _.
    unfold mbind, W_bind. rewrite Hm. reflexivity.
  Qed.
  Lemma blind_dir path : isabs path = true -> c_string path -> blind path (dir_body exec sha512 true path true false).
  Proof.
    intros Ha Hp d c c0 res c' Hh Hf0 Hos Hos0 Hof Hr E. assert (Hh0 := proj1 Hf0). unfold dir_body in *. unfold mbind at 1, W_bind at 1 in E. rewrite (stat_fine rest sha512 _ false false c Hh Hos Hha Hp), (stat_blind path c c0 false Ha Hof Hr) in E.
    unfold mbind at 1, W_bind at 1. rewrite (stat_fine rest sha512 _ false false c0 Hh0 Hos0 Hha Hp). destruct (stat_result sha512 (sysof c0) _ false false) as [st|e]; [|discriminate].
    cbv zeta in *. destruct st as [x|]; [destruct (negb _); [injection E as <- _; reflexivity|]|]; (eapply conclude_blind; [reflexivity|exact E]).
  Qed.
  Lemma blind_file path : isabs path = true -> c_string path -> blind path (file_body exec sha512 true path true false).
  Proof.
    intros Ha Hp d c c0 res c' Hh Hf0 Hos Hos0 Hof Hr E. assert (Hh0 := proj1 Hf0). unfold file_body in *. unfold mbind at 1, W_bind at 1 in E. rewrite (stat_fine rest sha512 _ false false c Hh Hos Hha Hp), (stat_blind path c c0 false Ha Hof Hr) in E.
    unfold mbind at 1, W_bind at 1. rewrite (stat_fine rest sha512 _ false false c0 Hh0 Hos0 Hha Hp). destruct (stat_result sha512 (sysof c0) _ false false) as [st|e]; [|discriminate].
    cbv zeta in *. destruct st as [x|]; [destruct (negb _); [injection E as <- _; reflexivity|]|]; (eapply conclude_blind; [reflexivity|exact E]).
  Qed.
  Lemma blind_content content path : isabs path = true -> c_string path -> blind path (content_body exec sha512 true want_diff content path).
  Proof.
    intros Ha Hp d c c0 res c' Hh Hf0 Hos Hos0 Hof Hr E. assert (Hh0 := proj1 Hf0). unfold content_body in *. unfold mbind at 1, W_bind at 1 in E. rewrite (stat_fine rest sha512 _ false true c Hh Hos Hha Hp), (stat_blind path c c0 true Ha Hof Hr) in E.
    unfold mbind at 1, W_bind at 1. rewrite (stat_fine rest sha512 _ false true c0 Hh0 Hos0 Hha Hp). destruct (stat_result sha512 (sysof c0) path false true) as [st|e] eqn:Es; [|discriminate].
    assert (Hw : sighted sha512 true is_file (sysof c0) path st -> content_work exec sha512 true want_diff content path d st c0 = (Ok tt, c0)).
    { intros Hs. unfold content_work. destruct want_diff; [|reflexivity]. destruct (download_or_fine rest sha512 _ c0 st Hh0 Hos0 Ha Hp Hs) as [dd Hd].
      unfold mbind, W_bind. rewrite Hd. reflexivity. }
    unfold stat_result in Es. rewrite (isabs_cwd_node _ _ [] _ _ Ha) in Es.
    cbv zeta in *. destruct (resolve_node (o_fs (sysof c0)) [] path false) as [[pl n]|e] eqn:Er.
    - injection Es as <-. cbn [st_type] in *. destruct (negb (str_eqb (st_type _) (lit "file"))) eqn:Et; [injection E as <- _; reflexivity|]. eapply conclude_blind; [|exact E]. apply Hw.
      right. exists pl, n. split; [exact Er|]. cbn in Et. apply negb_false_iff in Et.
      assert (Hn : node_ok n) by (apply resolve_node_split in Er as [_ Hn]; eapply Hos0; exact Hn).
      assert (Ht : node_type n = lit "file") by (destruct (str_eqb_spec (node_type n) (lit "file")); [assumption|discriminate Et]).
      apply (is_file_type n Hn) in Ht as [y Hy]. split; [exists y; exact Hy|]. unfold content_hash. rewrite Hy. reflexivity.
    - assert (Ee := Er). apply resolve_node_err in Ee as [[Hn _]|[_ Ee]]; [destruct Hp as [_ Hp]; contradiction|].
      assert (e = oserr ENOENT) as -> by (destruct Ee as [-> |[-> | ->]]; [reflexivity|discriminate Es..]). injection Es as <-. eapply conclude_blind; [|exact E]. apply Hw. left. auto.
  Qed.
  Lemma blind_link path target : isabs path = true -> c_string path -> blind path (link_body exec sha512 true path target true false).
  Proof.
    intros Ha Hp d c c0 res c' Hh Hf0 Hos Hos0 Hof Hr E. assert (Hh0 := proj1 Hf0). unfold link_body in *. unfold mbind at 1, W_bind at 1 in E. rewrite (stat_fine rest sha512 _ false false c Hh Hos Hha Hp), (stat_blind path c c0 false Ha Hof Hr) in E.
    unfold mbind at 1, W_bind at 1. rewrite (stat_fine rest sha512 _ false false c0 Hh0 Hos0 Hha Hp). destruct (stat_result sha512 (sysof c0) path false false) as [st|e] eqn:Es; [|discriminate].
    unfold stat_result in Es. rewrite (isabs_cwd_node _ _ [] _ _ Ha) in Es.
    cbv zeta in *. destruct st as [x|]; [|eapply conclude_blind; [reflexivity|exact E]].
    destruct (resolve_node (o_fs (sysof c0)) [] path false) as [[pl n]|e] eqn:Er; [|destruct e; try discriminate Es; destruct (_ =? _)%Z; discriminate Es].
    destruct (negb (str_eqb (st_type x) (lit "link"))) eqn:Et; [injection E as <- _; reflexivity|]. apply negb_false_iff in Et. injection Es as <-.
    assert (Hn : node_ok n) by (apply resolve_node_split in Er as [_ Hn]; eapply Hos0; exact Hn).
    assert (Hk : exists t, n_kind n = KLink t).
    { cbn [st_type statres_of] in Et. destruct (str_eqb_spec (node_type n) (lit "link")) as [Ht|]; [|discriminate Et]. apply (is_link n Hn) in Ht. exact Ht. }
    destruct Hk as [t Hk]. assert (Hsh : short t) by (destruct Hn as [Hn _]; rewrite Hk in Hn; exact Hn).
    apply bind_spec in E as [(z & c1 & E1 & E)|(e & _ & [=])].
    destruct (readlink_step rest sha512 path c _ c1 pl n t Ha E1 Hr Hk Hsh) as (_ & _ & R3 & _).
    unfold mbind at 1, W_bind at 1 in E. rewrite (R3 z eq_refl) in E. cbn [mret W_ret] in E.
    destruct (crun exec sha512 [lit "readlink"; lit "-n"; path] c0) as [z0 c2] eqn:E0.
    destruct (readlink_step rest sha512 path c0 _ c2 pl n t Ha E0 Er Hk Hsh) as (_ & _ & S3 & S4). destruct S4 as [[z0' ->] ->]; [exact Hf0|exact Hp|].
    unfold mbind at 1, W_bind at 1. rewrite E0. unfold mbind at 1, W_bind at 1. rewrite (S3 z0' eq_refl). eapply conclude_blind; [reflexivity|exact E].
  Qed.
  Variable search : bool -> pystr -> pystr -> result bool.
  Variable date : pystr.
  Lemma line_rest_blind path text present regex ws d orig f c c0 res c' :
    line_rest exec sha512 true search date path text present regex ws (inl false) d orig f c = (Ok res, c') ->
    line_rest exec sha512 true search date path text present regex ws (inl false) d orig f c0 = (Ok res, c0).
  Proof.
    unfold line_rest, conclude. destruct (py_eq _ _); [intros [= <- _]; reflexivity|]. unfold line_work, line_write, mbind, W_bind, liftW.
    destruct (edited search text present regex ws orig) as [b|e]; [|discriminate]. cbn. intros [= <- _]. reflexivity.
  Qed.
  Lemma blind_line path text present regex ws : isabs path = true -> c_string path -> blind path (line_body exec sha512 true search date path text present regex ws (inl false)).
  Proof.
    intros Ha Hp d c c0 res c' Hh Hf0 Hos Hos0 Hof Hr E. assert (Hh0 := proj1 Hf0). unfold line_body in *. unfold mbind at 1, W_bind at 1 in E. rewrite (stat_fine rest sha512 _ false false c Hh Hos Hha Hp), (stat_blind path c c0 false Ha Hof Hr) in E.
    unfold mbind at 1, W_bind at 1. rewrite (stat_fine rest sha512 _ false false c0 Hh0 Hos0 Hha Hp). destruct (stat_result sha512 (sysof c0) path false false) as [st|e] eqn:Es; [|discriminate].
    unfold stat_result in Es. rewrite (isabs_cwd_node _ _ [] _ _ Ha) in Es.
    destruct st as [x|]; [|unfold line_cont in *; eapply line_rest_blind; exact E].
    destruct (resolve_node (o_fs (sysof c0)) [] path false) as [[pl n]|e] eqn:Er; [|destruct e; try discriminate Es; destruct (_ =? _)%Z; discriminate Es].
    destruct (negb (str_eqb (st_type x) (lit "file"))) eqn:Et; [injection E as <- _; reflexivity|]. apply negb_false_iff in Et. injection Es as <-.
    assert (Hn : node_ok n) by (apply resolve_node_split in Er as [_ Hn]; eapply Hos0; exact Hn).
    assert (Hk : is_file (n_kind n)).
    { cbn [st_type statres_of] in Et. destruct (str_eqb_spec (node_type n) (lit "file")) as [Ht|]; [|discriminate Et]. apply (is_file_type n Hn) in Ht. exact Ht. }
    destruct Hk as [b Hk]. assert (Hsm : small b) by (destruct Hn as [Hn _]; rewrite Hk in Hn; exact Hn).
    unfold line_cont in *. unfold mbind at 1, W_bind at 1 in E. rewrite (download_fine exec sha512 path c pl n b Hh Ha Hp Hr Hk Hsm) in E.
    unfold mbind at 1, W_bind at 1. rewrite (download_fine exec sha512 path c0 pl n b Hh0 Ha Hp Er Hk Hsm).
    unfold mbind, W_bind, liftW in *. destruct (found_in search text regex ws b) as [f|e]; [|discriminate]. eapply line_rest_blind. exact E.
  Qed.
End blind.

(** ** One operation *)
Section atoms.
  Variable rest : proc -> M xres.
  Variable sha512 : bytes -> bytes.
  Variable want_diff : bool.
  Notation exec := (coreutils rest).
  Hypothesis Hha : hash_ok sha512.
  Variables (c0 : ctl) (reqs : list settings).
  Hypothesis Hready0 : ready c0 reqs.
  Hypothesis Hhealthy0 : healthy c0.
  Hypothesis Hun : unaliased (sysof c0).
  Notation s0 := (sysof c0).
  Notation base := (c_base c0).
  Notation going := (going s0 base reqs).

  (** [real] works on one file only, and [tried] tells from the state at the beginning what [real] tells, if the file is still what it was. *)
  Definition atom (path : pystr) (pre : os -> Prop) (real tried : W opres) : Prop := forall c res c1, going c -> pre (sysof c) -> real c = (Ok res, c1) ->
    c1 = set_remote (c_remote c1) c /\ going c1 /\ grows (o_fs (sysof c)) (o_fs (sysof c1)) /\ (r_link (c_remote c1) = Up -> r_link (c_remote c) = Up) /\
    (exists pl n, sees (sysof c1) path pl n /\ forall q, q <> pl -> o_fs (sysof c1) !! q = o_fs (sysof c) !! q) /\
    (r_link (c_remote c1) = Up -> resolve_node (o_fs (sysof c)) [] path false = resolve_node (o_fs s0) [] path false -> tried c0 = (Ok res, c0)).

  Lemma going_healthy c : going c -> r_link (c_remote c) = Up -> healthy c.
  Proof. intros (_ & Hf & _ & Hof & _) Hl. split; [exact Hl|]. split; [exact Hf|]. rewrite Hof. apply Hhealthy0. Qed.
  Lemma going_feasible c q : going c -> feasible s0 base (reqs ++ [q]) -> feasible (sysof c) (c_base c) (reqs ++ [q]).
  Proof. intros (_ & _ & Hb & Hof & Hg) Hfe. rewrite Hb. eapply feasible_grows; eassumption. Qed.

  Section one.
    Variables (path : pystr) (q : settings) (op dop : O opres) (dbody : settings -> W opres).
    Hypothesis Hdop : yields dop new_op (_ ← check_absolute_path path; script_defaults exec sha512 q dbody).
    Hypothesis Hrem : forall d, remotely (dbody d).
    Hypothesis Hblind : blind path dbody.
    Hypothesis Hpred : predicts op dop.
    Hypothesis Habs : isabs path = true.
    Hypothesis Hfe0 : feasible s0 base (reqs ++ [q]).
    Lemma op_same c res c1 : going c -> r_link (c_remote c) = Up -> resolve_node (o_fs (sysof c)) [] path false = resolve_node (o_fs s0) [] path false ->
      operation NotGiven op c = (Ok res, c1) -> operation NotGiven dop c0 = (Ok res, c0).
    Proof.
      intros Hgo Hl Hst E. assert (Hhl := going_healthy c Hgo Hl). assert (Hfe := going_feasible c q Hgo Hfe0). destruct Hgo as (Hrd & Hfl & Hb & Hof & Hgr).
      destruct (predicts_operation NotGiven _ _ _ _ _ Hpred E) as [v Ed].
      destruct Hrd as ((d0 & A1 & A2) & Hkb & Hac & Hos). destruct Hready0 as ((d1 & B1 & B2) & Hkb0 & Hac0 & Hos0).
      destruct (op_fine exec sha512 NotGiven _ _ _ _ _ _ _ _ _ Hdop Habs Ed A1 A2 Hhl Hos Hha Hac Hfe) as (e & attr & x & e2 & F1 & F2 & F3 & F4 & F5 & F6 & _ & _ & F9).
      destruct (operation NotGiven dop c0) as [r0 c0'] eqn:E0.
      destruct (op_fine exec sha512 NotGiven _ _ _ _ _ _ _ _ _ Hdop Habs E0 B1 B2 Hhealthy0 Hos0 Hha Hac0 Hfe0) as (e' & attr' & y & e2' & G1 & G2 & G3 & G4 & G5 & G6 & _ & _ & G9).
      assert (attr' = attr) as ->.
      { rewrite Hb in F3. apply (settles_files _ _ _ _ _ Hof) in F3. eapply settles_unique; eassumption. }
      assert (x = Ok res) as ->.
      { destruct x as [x|]; cbn in F9; [|discriminate]. destruct F9 as [[[= ->] _]|(_ & _ & [=])]. reflexivity. }
      assert (Hs1 : sysof e = sysof c) by (unfold sysof; rewrite F1; reflexivity). assert (Hs2 : sysof e' = sysof c0) by (unfold sysof; rewrite G1; reflexivity).
      rewrite (Hblind attr e e' res e2) in G5; [|apply F2|apply G2|rewrite Hs1; exact Hos|rewrite Hs2; exact Hos0|rewrite Hs1, Hs2; exact Hof|rewrite Hs1, Hs2; exact Hst|exact F5].
      injection G5 as <- <-.
      assert (Hsu : or_success res = true).
      { rewrite (operation_plain NotGiven _ _ _ Hdop) in Ed. apply verdict_outcome in Ed as (x & _ & Hx). destruct x as [x|]; cbn in Hx; [|discriminate].
        destruct Hx as [[[= <-] Hx]|(_ & _ & [=])]. auto. }
      cbn in G9. destruct G9 as [[-> _]|(Hf & _)]; [|congruence]. f_equal.
      destruct (op_any exec sha512 NotGiven _ _ _ _ _ _ _ _ _ Hdop Hrem E0 B1 B2) as [Hset _]. rewrite Hset, G6, G1. apply set_remote_self.
    Qed.
  End one.

  Section single.
    Variables (path : pystr) (isk : kind -> Prop) (msel : settings -> option pystr).
    Variable Conf : os -> place -> node -> Prop.
    Variable Good : os -> settings -> account -> grent -> place -> node -> Prop.
    Variable Match : os -> settings -> node -> Prop.
    Variable Cap : Prop.
    Variable body : settings -> W opres.
    Variable q : settings.
    Variable op : O opres.
    Hypothesis Hop : yields op new_op (_ ← check_absolute_path path; script_defaults exec sha512 q body).
    Hypothesis Hrem : forall d, remotely (body d).
    Hypothesis Hmsel2 : forall s base reqs attr, settles s base reqs attr -> mode_settles (msel base) (innermost (List.map msel reqs)) (msel attr).
    Hypothesis Hbody : forall attr s c x c' a b,
      unaffected s (sysof c) -> isabs path = true -> c_string path -> os_ok (sysof c) -> honest (sysof c) ->
      accounts_ok s -> accounts_of s attr a b -> msel attr <> None -> body attr c = (x, c') ->
      (unaffected s (sysof c') \/ exists pl n, sits path s (sysof c') pl n /\ Conf s pl n) /\
      (forall res, x = Ok res -> or_success res = true ->
         exists pl n, sits path s (sysof c') pl n /\ Conf s pl n /\ Good s attr a b pl n /\ (or_changed res = false -> unaffected s (sysof c') /\ false = false)) /\
      (fine c -> hash_ok sha512 -> Cap -> octal_below 4096 (msel attr) ->
         (resolve_node (o_fs s) [] path false = Err (oserr ENOENT) /\ creatable s path) \/ (exists pl n, resolve_node (o_fs s) [] path false = Ok (pl, n) /\ isk (n_kind n)) ->
         exists res, x = Ok res /\ or_success res = true /\ fine c' /\
           (or_changed res = false <-> exists pl n, resolve_node (o_fs s) [] path false = Ok (pl, n) /\ Match s attr n /\ false = false)).
    Hypothesis Hconf : forall s pl n, Conf s pl n -> isk (n_kind n) /\ (forall n0, o_fs s !! pl = Some n0 -> shape n = shape n0) /\ (os_ok s -> kind_ok (n_kind n)).
    Hypothesis Hsound : forall d, sound (body d).
    Hypothesis Hfrugal : forall d, frugal (body d).
    Hypothesis Hupward : forall d, upward (body d).
    Hypothesis Hpath : c_string path.
    Hypothesis Habs : isabs path = true.
    Variables (dop : O opres) (dbody : settings -> W opres).
    Hypothesis Hdop : yields dop new_op (_ ← check_absolute_path path; script_defaults exec sha512 q dbody).
    Hypothesis Hdrem : forall d, remotely (dbody d).
    Hypothesis Hblind : blind path dbody.
    Hypothesis Hpred : predicts op dop.
    Hypothesis Hfe0 : feasible s0 base (reqs ++ [q]).
    Lemma single_atom pre : atom path pre (operation NotGiven op) (operation NotGiven dop).
    Proof.
      intros c res c1 Hgo _ E. assert (Hgo' := Hgo). destruct Hgo' as (Hrd & Hfl & Hb & Hof & Hgr).
      destruct (op_states rest sha512 path body q op Hop Hrem Hsound Hfrugal c _ c1 reqs Hrd Hfl E) as (Hset & Hos1 & Hfl1 & Hsu).
      destruct (present_any rest sha512 path false isk msel Conf Good Match Cap body q op Hop Hrem Hmsel2 Hbody NotGiven c _ c1 reqs Hrd (tame_honest _ Hfl) Hpath E) as [_ H].
      destruct (H res eq_refl (Hsu res eq_refl)) as (_ & attr & x & y & pl & n & Hse & Hacc & Hsit & Hc & Hg & _). clear H.
      destruct (Hconf _ _ _ Hc) as (Hk & Hsh & _). assert (Hof1 := sits_only _ _ _ _ _ Hsit). assert (Hg1 := sits_grows _ _ _ _ _ Hsit Hsh).
      assert (Hup : r_link (c_remote c1) = Up -> r_link (c_remote c) = Up) by (eapply (upward_op exec sha512 path q body op Hop Hupward); exact E).
      split; [exact Hset|]. split.
      { split; [eapply ready_step; eassumption|]. split; [exact Hfl1|]. split; [rewrite Hset; exact Hb|]. split; [eapply only_files_trans; eassumption|eapply grows_trans; eassumption]. }
      split; [exact Hg1|]. split; [exact Hup|]. split.
      { exists pl, n. split; [apply Hsit|]. intros p Hp. destruct Hsit as (_ & -> & _). apply lookup_insert_ne. congruence. }
      intros Hl Hr. eapply (op_same path q op dop dbody); eauto.
    Qed.
  End single.
  Lemma directory_atom path mode owner group pre : c_string path -> absolute path -> feasible s0 base (reqs ++ [asking owner group None mode]) ->
    atom path pre (operation NotGiven (directory exec sha512 false path true false mode owner group)) (operation NotGiven (directory exec sha512 true path true false mode owner group)).
  Proof.
    intros Hp Ha Hfe. apply absolute_isabs in Ha.
    apply (single_atom path (fun k => k = KDir) s_dir_mode dir_conf (fun s attr a b pl n => dir_good s attr false a b pl n) (fun s attr n => matching s (s_dir_mode attr) attr n) True (dir_body exec sha512 false path true false) (want owner group None mode) _
      (directory_plain exec sha512 false path true false mode owner group) (fun d => remotely_dir _ _ _ _ _ _ _) dir_msel (fun attr s c x c' a b => dir_body_cap rest sha512 attr s c x c' a b path false)
      dir_conf_facts (fun d => sound_dir _ _ _ _ _ _ _) (fun d => frugal_dir _ _ _ _ _ _ _) (fun d => upward_dir _ _ _ _ _ _ _) Hp Ha _ (dir_body exec sha512 true path true false)
      (directory_plain exec sha512 true path true false mode owner group) (fun d => remotely_dir _ _ _ _ _ _ _) (blind_dir rest sha512 Hha path Ha Hp) (predicts_directory _ _ _ _ _ _ _ _) Hfe).
  Qed.
  Lemma file_atom path mode owner group pre : c_string path -> absolute path -> feasible s0 base (reqs ++ [asking owner group mode None]) ->
    atom path pre (operation NotGiven (file exec sha512 false path true false mode owner group)) (operation NotGiven (file exec sha512 true path true false mode owner group)).
  Proof.
    intros Hp Ha Hfe. apply absolute_isabs in Ha.
    apply (single_atom path is_file s_file_mode file_conf (fun s attr a b pl n => file_good s attr false a b pl n) (fun s attr n => matching s (s_file_mode attr) attr n) True (file_body exec sha512 false path true false) (want owner group mode None) _
      (file_plain exec sha512 false path true false mode owner group) (fun d => remotely_file _ _ _ _ _ _ _) file_msel (fun attr s c x c' a b => file_body_cap rest sha512 attr s c x c' a b path false)
      file_conf_facts (fun d => sound_file _ _ _ _ _ _ _) (fun d => frugal_file _ _ _ _ _ _ _) (fun d => upward_file _ _ _ _ _ _ _) Hp Ha _ (file_body exec sha512 true path true false)
      (file_plain exec sha512 true path true false mode owner group) (fun d => remotely_file _ _ _ _ _ _ _) (blind_file rest sha512 Hha path Ha Hp) (predicts_file _ _ _ _ _ _ _ _) Hfe).
  Qed.
  Lemma remotely_dry_content content path d : remotely (content_body exec sha512 true want_diff content path d).
  Proof.
    unfold content_body. apply remotely_bind; [apply remotely_stat|]. intros st. cbv zeta.
    assert (H : forall i f, remotely (conclude i f (content_work exec sha512 true want_diff content path d st))).
    { intros i f. unfold conclude. destruct (py_eq _ _); [apply remotely_ret|]. apply remotely_bind; [|intros; apply remotely_ret]. unfold content_work.
      apply remotely_bind; [|intros; apply remotely_ret]. destruct want_diff; [|apply remotely_ret]. apply remotely_bind; [apply remotely_download_or|]. intros. apply remotely_ret. }
    destruct st as [x|]; [destruct (negb _); [apply remotely_ret|]|]; apply H.
  Qed.
  Lemma content_atom op dop path content mode owner group pre : small content -> c_string path -> isabs path = true -> feasible s0 base (reqs ++ [want owner group mode None]) ->
    yields op new_op (_ ← check_absolute_path path; script_defaults exec sha512 (want owner group mode None) (content_body exec sha512 false want_diff content path)) ->
    yields dop new_op (_ ← check_absolute_path path; script_defaults exec sha512 (want owner group mode None) (content_body exec sha512 true want_diff content path)) ->
    predicts op dop -> atom path pre (operation NotGiven op) (operation NotGiven dop).
  Proof.
    intros Hsm Hp Ha Hfe Hop Hdop Hpr.
    apply (single_atom path is_file s_file_mode (content_conf content) (content_good sha512 content) (fun s attr n => content_match sha512 content s (s_file_mode attr) attr n) (small content) _ _ _
      Hop (fun d => remotely_content rest sha512 want_diff content path d) file_msel (fun attr s c x c' a b => content_body_cap rest sha512 want_diff content attr s c x c' a b path)
      (fun s pl n => content_facts sha512 content s pl n Hsm) (fun d => sound_content _ _ _ _ _ _ _ Hsm) (fun d => frugal_content _ _ _ _ _ _ _) (fun d => upward_content _ _ _ _ _ _ _) Hp Ha _ _
      Hdop (remotely_dry_content content path) (blind_content rest sha512 want_diff Hha content path Ha Hp) Hpr Hfe).
  Qed.
  Lemma remotely_dry_link path target d : remotely (link_body exec sha512 true path target true false d).
  Proof.
    assert (Hc : forall x f, remotely (conclude (link_report x) f (link_work exec sha512 true path target true false d x))).
    { intros x f. unfold conclude. destruct (py_eq _ _); [apply remotely_ret|]. apply remotely_bind; [apply remotely_ret|intros _; apply remotely_ret]. }
    unfold link_body. apply remotely_bind; [apply remotely_stat|]. intros [st|]; [|apply Hc]. cbv zeta. destruct (negb _); [apply remotely_ret|].
    apply remotely_bind; [apply remotely_crun'|]. intros r. apply remotely_bind; [apply remotely_decoded|]. intros t. apply Hc.
  Qed.
  Lemma link_atom path target owner group (pre : os -> Prop) : (forall s, pre s -> linkable s path target) -> c_string path -> absolute path -> c_string target -> target <> [] ->
    feasible s0 base (reqs ++ [asking owner group None None]) ->
    atom path pre (operation NotGiven (link exec sha512 false path target true false owner group)) (operation NotGiven (link exec sha512 true path target true false owner group)).
  Proof.
    intros Hnow Hp Ha Hct Htg Hfe c res c1 Hgo Hn E. apply absolute_isabs in Ha. specialize (Hnow _ Hn). assert (Hgo' := Hgo). destruct Hgo' as (Hrd & Hfl & Hb & Hof & Hgr).
    assert (Hcl : clear (sysof c) path target).
    { destruct Hnow as [(A1 & A3)|A]; [left|right; exact A]. split; [exact A3|]. apply none_enterable; auto; [apply Hp|]. intros ->. discriminate Ha. }
    destruct (op_states rest sha512 path _ _ _ (link_form rest sha512 path target true false owner group Htg) (fun d => remotely_link rest sha512 _ _ _ _ d) (fun d => sound_link _ _ _ _ _ _ _ _ (proj1 Hct)) (fun d => frugal_link _ _ _ _ _ _ _ _) c _ c1 reqs Hrd Hfl E)
      as (Hset & Hos1 & Hfl1 & Hsu).
    destruct (link_any rest sha512 NotGiven c _ c1 reqs path target false owner group Htg Hcl Hrd (tame_honest _ Hfl) Hp E) as [_ H].
    destruct (H res eq_refl (Hsu res eq_refl)) as (_ & attr & x & y & pl & n & Hse & Hacc & Hsit & Hc & (Hk & Hgo' & _) & _). clear H.
    assert (Hof1 := sits_only _ _ _ _ _ Hsit).
    assert (Hg1 : grows (o_fs (sysof c)) (o_fs (sysof c1))).
    { eapply sits_grows; [exact Hsit|]. intros n0 E0. unfold link_conf in Hc. rewrite E0 in Hc. destruct Hc as (C1 & t & C2 & _).
      destruct Hnow as [(A1 & _)|(pl' & n' & A1 & A2)]; [unfold sees_none in A1; congruence|]. unfold sees in A1. rewrite A1 in C1. injection C1 as -> ->. unfold shape. rewrite Hk, A2. reflexivity. }
    assert (Hup : r_link (c_remote c1) = Up -> r_link (c_remote c) = Up).
    { eapply (upward_op exec sha512 path _ _ _ (link_form rest sha512 path target true false owner group Htg)); [intros; apply upward_link|exact E]. }
    split; [exact Hset|]. split.
    { split; [eapply ready_step; eassumption|]. split; [exact Hfl1|]. split; [rewrite Hset; exact Hb|]. split; [eapply only_files_trans; eassumption|eapply grows_trans; eassumption]. }
    split; [exact Hg1|]. split; [exact Hup|]. split.
    { exists pl, n. split; [apply Hsit|]. intros p Hpl. destruct Hsit as (_ & -> & _). apply lookup_insert_ne. congruence. }
    intros Hl Hr. assert (Hy : yields (link exec sha512 true path target true false owner group) new_op (_ ← check_absolute_path path; script_defaults exec sha512 (want owner group None None) (link_body exec sha512 true path target true false))).
    { assert (H := link_plain exec sha512 true path target true false owner group). destruct target; [contradiction|]. exact H. }
    eapply (op_same path _ _ _ _ Hy (remotely_dry_link path target) (blind_link rest sha512 Hha path target Ha Hp) (predicts_link _ _ _ _ _ _ _ _)); eauto.
  Qed.

  Variable search : bool -> pystr -> pystr -> result bool.
  Variable date : pystr.
  Lemma upward_line dry path text present regex ws attr : upward (line_body exec sha512 dry search date path text present regex ws (inl false) attr).
  Proof.
    unfold line_body. apply upward_bind; [apply upward_stat|]. intros st.
    assert (Hw : forall orig f, upward (line_rest exec sha512 dry search date path text present regex ws (inl false) attr orig f)).
    { intros orig f. unfold line_rest. apply upward_conclude. unfold line_work. apply upward_bind; [apply upward_lift|]. intros b. unfold line_write. destruct dry; [apply upward_ret|]. destruct orig; [|apply upward_upload].
      apply upward_bind; [apply upward_ret|]. intros _. apply upward_upload. }
    assert (Hc : upward (line_cont exec sha512 dry search date path text present regex ws (inl false) attr st)).
    { unfold line_cont. destruct st; [|apply Hw]. apply upward_bind; [apply upward_download|]. intros b. apply upward_bind; [apply upward_lift|]. intros f. apply Hw. }
    destruct st as [x|]; [|exact Hc]. destruct (negb _); [apply upward_ret|exact Hc].
  Qed.
  Lemma line_atom path text present ws (pre : os -> Prop) : (forall s, pre s -> editable s path text present) -> c_string path -> absolute path ->
    feasible s0 base (reqs ++ [no_settings]) ->
    atom path pre (operation NotGiven (line exec sha512 false want_diff search date path text present None ws (inl false))) (operation NotGiven (line exec sha512 true want_diff search date path text present None ws (inl false))).
  Proof.
    intros Hnow Hp Ha Hfe c res c1 Hgo Hn E. apply absolute_isabs in Ha.
    destruct (line_step rest sha512 want_diff search date s0 base reqs c res c1 path text present ws Hgo (Hnow _ Hn) Hp E) as (Hset & Hgo1 & Hg1 & pl & n & b & Hsee1 & Hk1 & _ & Hothers).
    assert (Hup : r_link (c_remote c1) = Up -> r_link (c_remote c) = Up).
    { eapply (upward_op exec sha512 path _ _ _ (line_plain exec sha512 false want_diff search date path text present None ws (inl false))); [intros; apply upward_line|exact E]. }
    split; [exact Hset|]. split; [exact Hgo1|]. split; [exact Hg1|]. split; [exact Hup|]. split; [exists pl, n; split; [exact Hsee1|exact Hothers]|].
    intros Hl Hr. eapply (op_same path _ _ _ _ (line_plain exec sha512 true want_diff search date path text present None ws (inl false)) (fun d => remotely_line exec sha512 true search date path text present None ws (inl false) d)
      (blind_line rest sha512 Hha search date path text present None ws Ha Hp) (predicts_line exec sha512 want_diff search date path text present None ws (inl false)) Ha Hfe c res c1 Hgo (Hup Hl) Hr E).
  Qed.

  (** ** What is tried, step by step *)
  (** The place the path leads to at the end is what it was at the beginning, or was not there at all. *)
  Definition intact (c c' : ctl) (path : pystr) : Prop := forall pl n, sees (sysof c') path pl n ->
    o_fs (sysof c) !! pl = o_fs s0 !! pl /\ ((forall q m, ~ sees s0 path q m) -> o_fs s0 !! pl = None).
  Lemma atom_tried path pre real tried c res c1 c' : atom path pre real tried -> going c -> pre (sysof c) -> real c = (Ok res, c1) -> r_link (c_remote c1) = Up ->
    grows (o_fs (sysof c1)) (o_fs (sysof c')) -> intact c c' path -> tried c0 = (Ok res, c0).
  Proof.
    intros Hat Hgo Hpre E Hl Hg' Hin. destruct (Hat c res c1 Hgo Hpre E) as (_ & _ & Hg & _ & (pl & n & Hs & _) & Ht). apply Ht; [exact Hl|].
    assert (H : forall p k, sees (sysof c) path p k -> exists k', sees (sysof c') path p k').
    { intros p k Hk. destruct (sees_grows _ _ _ _ _ Hg Hk) as (k1 & K1). eapply sees_grows; eassumption. }
    apply (look_grown _ _ (o_fs (sysof c1)) _ _ (pl, n)); [apply Hgo|exact Hg|exact Hs|..].
    - intros p k Hk. destruct (H p k Hk) as (k' & K). apply (Hin p k' K).
    - intros p k Hno Hk. destruct (H p k Hk) as (k' & K). apply (proj2 (Hin p k' K)). exact Hno.
  Qed.
  Lemma atom_intact path pre real tried c res c1 c' path' : atom path pre real tried -> going c -> pre (sysof c) -> real c = (Ok res, c1) -> grows (o_fs (sysof c1)) (o_fs (sysof c')) ->
    intact c c' path' -> (forall pl n m, sees (sysof c') path pl n -> ~ sees (sysof c') path' pl m) -> intact c1 c' path'.
  Proof.
    intros Hat Hgo Hpre E Hg' Hin Hap pl n Hs. destruct (Hat c res c1 Hgo Hpre E) as (_ & _ & Hg & _ & (p & k & Hk & Hout) & _). destruct (Hin pl n Hs) as [H1 H2]. split; [|exact H2].
    rewrite Hout; [exact H1|]. intros ->. destruct (sees_grows _ _ _ _ _ Hg' Hk) as (k' & K). eapply Hap; eassumption.
  Qed.

  (** *** Uploading a directory *)
  Section tree.
    Variables (ns : list pystr) (dm fm owner group : option pystr).
    Hypothesis Hns : Forall file_name ns.
    Hypothesis Hne : ns <> [].
    Hypothesis F1 : feasible s0 base (reqs ++ [want owner group None dm]).
    Hypothesis F2 : feasible s0 base (reqs ++ [want owner group fm None]).
    Notation item_path := (item_path ns).
    Notation item_op := (item_op rest sha512 want_diff ns dm fm owner group).
    Notation dry_op := (dry_op rest sha512 want_diff ns dm fm owner group).
    Notation do_items := (do_items rest sha512 want_diff ns dm fm owner group).
    Notation do_dry := (do_dry rest sha512 want_diff ns dm fm owner group).
    Lemma item_atom it : item_ok ns it -> atom (item_path it) (fun _ => True) (operation NotGiven (item_op it)) (operation NotGiven (dry_op it)).
    Proof.
      intros (I1 & I2 & I3). assert (Ha : isabs (item_path it) = true) by (apply path_of_isabs; destruct ns; [contradiction|discriminate]).
      assert (P1 := item_plain rest sha512 want_diff ns dm fm owner group Hns Hne it I1). assert (P2 := dry_plain rest sha512 want_diff ns dm fm owner group Hns it I1). assert (P3 := item_predicts rest sha512 want_diff ns dm fm owner group it).
      destruct it as [rel|rel b].
      - apply directory_atom; [exact I3|apply absolute_isabs; exact Ha|exact F1].
      - eapply content_atom; try eassumption.
    Qed.
    Lemma items_move l : (forall it, it ∈ l -> item_ok ns it) -> forall o c o' c1, going c -> do_items l o c = (Ok (tt, o'), c1) ->
      c1 = set_remote (c_remote c1) c /\ going c1 /\ grows (o_fs (sysof c)) (o_fs (sysof c1)) /\ (r_link (c_remote c1) = Up -> r_link (c_remote c) = Up).
    Proof.
      induction l as [|it l IH]; intros Hl o c o' c1 Hgo E.
      - injection E as _ <-. split; [symmetry; apply set_remote_self|]. split; [exact Hgo|]. split; [intros p n Hn; exists n; auto|auto].
      - cbn [Tree_run.do_items] in E. apply obind_spec in E as [(res & o1 & c2 & E1 & E)|(e & _ & [=])].
        apply bind_spec in E1 as [(res' & c3 & E1 & E2)|(e & _ & [=])]. injection E2 as -> -> ->.
        apply obind_spec in E as [([] & o2 & c3 & E2 & E)|(e & _ & [=])]. apply (call_spec (CAdd (item_path it) res)) in E2 as [-> _].
        destruct (item_atom it (Hl it (elem_of_list_here _ _)) c res c2 Hgo I E1) as (A1 & A2 & A3 & A4 & _).
        destruct (IH (fun i Hi => Hl i (elem_of_list_further _ _ _ Hi)) o2 c2 o' c1 A2 E) as (B1 & B2 & B3 & B4).
        split; [rewrite B1 at 1; rewrite A1; reflexivity|]. split; [exact B2|]. split; [eapply grows_trans; eassumption|auto].
    Qed.
    Lemma items_tell l : (forall it, it ∈ l -> item_ok ns it) -> forall o c o' c1 c', going c -> do_items l o c = (Ok (tt, o'), c1) -> grows (o_fs (sysof c1)) (o_fs (sysof c')) ->
      (forall path, intact c c' path -> (forall it pl n m, it ∈ l -> sees (sysof c') (item_path it) pl n -> ~ sees (sysof c') path pl m) -> intact c1 c' path) /\
      (r_link (c_remote c1) = Up -> (forall it, it ∈ l -> intact c c' (item_path it)) -> NoDup (List.map rel_of l) ->
       (forall i j pl n m, i ∈ l -> j ∈ l -> rel_of i <> rel_of j -> sees (sysof c') (item_path i) pl n -> ~ sees (sysof c') (item_path j) pl m) ->
       do_dry l o c0 = (Ok (tt, o'), c0)).
    Proof.
      induction l as [|it l IH]; intros Hl o c o' c1 c' Hgo E Hg.
      - injection E as <- <-. split; [auto|reflexivity].
      - cbn [Tree_run.do_items] in E. apply obind_spec in E as [(res & o1 & c2 & E1 & E)|(e & _ & [=])].
        apply bind_spec in E1 as [(res' & c3 & E1 & E2)|(e & _ & [=])]. injection E2 as -> -> ->.
        apply obind_spec in E as [([] & o2 & c3 & E2 & E)|(e & _ & [=])].
        assert (c3 = c2) as -> by (apply (call_spec (CAdd (item_path it) res)) in E2 as [-> _]; reflexivity).
        assert (Hat := item_atom it (Hl it (elem_of_list_here _ _))). destruct (Hat c res c2 Hgo I E1) as (A1 & A2 & A3 & A4 & _).
        assert (Hl' := fun i Hi => Hl i (elem_of_list_further _ _ _ Hi)).
        destruct (items_move l Hl' o2 c2 o' c1 A2 E) as (B1 & B2 & B3 & B4). assert (Hg2 := grows_trans _ _ _ B3 Hg).
        destruct (IH Hl' o2 c2 o' c1 c' A2 E Hg) as [C1 C2]. split.
        + intros path Hin Hap. apply C1; [|intros i pl n m Hi; apply Hap; right; exact Hi]. apply (atom_intact (item_path it) (fun _ => True) _ _ c res c2 c' path Hat Hgo I E1 Hg2 Hin). intros pl n m. apply Hap. left.
        + intros Hup Hin Hnd Hap. cbn [List.map] in Hnd. apply NoDup_cons in Hnd as [Hnd1 Hnd2].
          assert (Hdry : operation NotGiven (dry_op it) c0 = (Ok res, c0)).
          { apply (atom_tried (item_path it) (fun _ => True) _ _ c res c2 c' Hat Hgo I E1 (B4 Hup) Hg2). apply Hin. left. }
          cbn [Tree_dry.do_dry]. rewrite (Op_proofs.obind_ok _ _ _ _ _ _ _ (lift_ok _ o1 _ _ _ Hdry)), (Op_proofs.obind_ok _ _ _ _ _ _ _ (add_elsewhere _ _ _ _ _ _ c0 E2)).
          apply C2; [exact Hup| |exact Hnd2|intros i j pl n m Hi Hj; apply Hap; right; assumption].
          intros i Hi. apply (atom_intact (item_path it) (fun _ => True) _ _ c res c2 c' (item_path i) Hat Hgo I E1 Hg2); [apply Hin; right; exact Hi|]. intros pl n m. apply Hap; [left|right; exact Hi|].
          intros Eq. apply Hnd1. rewrite Eq. apply elem_of_list_fmap. eauto.
    Qed.
  End tree.

  (** *** Steps and scripts *)
  Section steps.
    Variable step : Type.
    Variables (does tries : step -> W opres) (about : step -> pystr -> Prop) (now : step -> os -> Prop).
    Definition block (st : step) : Prop := forall c res c1, going c -> now st (sysof c) -> does st c = (Ok res, c1) ->
      c1 = set_remote (c_remote c1) c /\ going c1 /\ grows (o_fs (sysof c)) (o_fs (sysof c1)) /\ (r_link (c_remote c1) = Up -> r_link (c_remote c) = Up) /\
      forall c', grows (o_fs (sysof c1)) (o_fs (sysof c')) ->
        (forall path, intact c c' path -> (forall p pl n m, about st p -> sees (sysof c') p pl n -> ~ sees (sysof c') path pl m) -> intact c1 c' path) /\
        (r_link (c_remote c1) = Up -> (forall p, about st p -> intact c c' p) -> tries st c0 = (Ok res, c0)).
    Lemma atom_block st path : (forall p, about st p <-> p = path) -> atom path (now st) (does st) (tries st) -> block st.
    Proof.
      intros Hab Hat c res c1 Hgo Hn E. destruct (Hat c res c1 Hgo Hn E) as (A1 & A2 & A3 & A4 & _). split; [exact A1|]. split; [exact A2|]. split; [exact A3|]. split; [exact A4|].
      intros c' Hg. split.
      - intros p Hin Hap. apply (atom_intact path _ _ _ c res c1 c' p Hat Hgo Hn E Hg Hin). intros pl n m. apply Hap. apply Hab. reflexivity.
      - intros Hl Hin. apply (atom_tried path _ _ _ c res c1 c' Hat Hgo Hn E Hl Hg). apply Hin, Hab. reflexivity.
    Qed.
    Lemma tree_block st t src dest ns dm fm owner group :
      does st = operation NotGiven (upload_dir exec sha512 false want_diff (Some t) src dest dm fm owner group) ->
      tries st = operation NotGiven (upload_dir exec sha512 true want_diff (Some t) src dest dm fm owner group) ->
      (forall p, about st p <-> exists rel, sent t rel /\ p = path_of (ns ++ rel)) -> transfer t src dest ns ->
      feasible s0 base (reqs ++ [asking owner group None dm]) -> feasible s0 base (reqs ++ [asking owner group fm None]) -> block st.
    Proof.
      intros Hdo Htr Hab Ht F1 F2 c res c1 Hgo _ E. rewrite Hdo in E. assert (Hgo' := Hgo). destruct Hgo' as (Hrd & Hfl & Hb & Hof & Hgr).
      destruct (tree_items rest sha512 want_diff t src dest ns dm fm owner group NotGiven c _ c1 Ht E) as (x & Ed & Hres & _). destruct (Hres res eq_refl) as (o' & i & f & -> & Hi & Hf & ->).
      assert (Hok := transfer_items t src dest ns Ht). assert (HT := Ht). destruct Ht as (T1 & T2 & T3 & T4 & T5 & T6 & T7 & T8).
      destruct (plan_any rest sha512 want_diff ns dm fm owner group T4 T5 c reqs _ (Op true None None []) _ c1 (plan_chained t) (plan_nodup t T2) Hok Hrd (tame_honest _ Hfl) Ed) as [_ H].
      change (IDir [] :: _) with (plan t) in H. destruct (H o' eq_refl) as ((P & Hinv) & _). clear H.
      assert (Hpl := plan_sees sha512 t src dest ns dm fm owner group c reqs P c1 HT Hinv).
      destruct (items_move ns dm fm owner group T4 T5 F1 F2 (plan t) Hok _ _ _ _ Hgo Ed) as (A1 & A2 & A3 & A4).
      split; [exact A1|]. split; [exact A2|]. split; [exact A3|]. split; [exact A4|]. intros c' Hg.
      assert (Hat : forall it, it ∈ plan t -> about st (item_path ns it)).
      { intros it Hit. apply Hab. exists (rel_of it). split; [apply sent_plan; eauto|reflexivity]. }
      destruct (items_tell ns dm fm owner group T4 T5 F1 F2 (plan t) Hok _ _ _ _ c' Hgo Ed Hg) as [B1 B2]. split.
      - intros path Hin Hap. apply B1; [exact Hin|]. intros it pl n m Hit. apply Hap. auto.
      - intros Hl Hin. rewrite Htr.
        assert (D : do_dry rest sha512 want_diff ns dm fm owner group (plan t) (Op true None None []) c0 = (Ok (tt, o'), c0)).
        { apply B2; [exact Hl|auto|apply plan_nodup; exact T2|].
          assert (Hwhere : forall it pl n, it ∈ plan t -> sees (sysof c') (item_path ns it) pl n -> pl = rev (rel_of it) ++ P).
          { intros it pl n Hit Hs. destruct (Hpl it Hit) as (k & K1 & _). destruct (sees_grows _ _ _ _ _ Hg K1) as (k' & K2). unfold sees in Hs, K2. unfold Tree_run.item_path in Hs. congruence. }
          intros a b pl n m Ha Hb' Hne Hs Hs'. apply Hne. assert (H1 := Hwhere _ _ _ Ha Hs). assert (H2 := Hwhere _ _ _ Hb' Hs'). rewrite H1 in H2. apply app_inv_tail in H2.
          apply (f_equal (@rev _)) in H2. rewrite !rev_involutive in H2. exact H2. }
        unfold operation. unfold mbind at 1, W_bind at 1. rewrite (dry_plan rest sha512 want_diff ns dm fm owner group T4 T5 t src dest T1 T2 T6 T7).
        assert (Hn : (nested true) new_op c0 = (Ok (tt, Op true None None []), c0)) by reflexivity. rewrite (Op_proofs.obind_ok _ _ _ _ _ _ _ Hn), (Op_proofs.obind_ok _ _ _ _ _ _ _ D).
        assert (Hu : unchanged false o' c0 = (Ok (py_eq (VDict i) (VDict f), o'), c0)) by (unfold unchanged; rewrite getO_bind, Hi, Hf; reflexivity).
        assert (Hs : success o' c0 = (Ok (OpRes true (negb (py_eq (VDict i) (VDict f))) i f None, o'), c0)) by (unfold success; rewrite getO_bind, Hi, Hf, (Op_proofs.obind_ok _ _ _ _ _ _ _ Hu); reflexivity).
        rewrite Hs. cbn [fst or_success negb]. rewrite andb_false_r. reflexivity.
    Qed.
    Notation play := (play step).
    Lemma blocks_move l : Forall block l -> forall c rs c1, going c -> in_turn step does now l c -> play does l c = (Ok rs, c1) ->
      going c1 /\ grows (o_fs (sysof c)) (o_fs (sysof c1)) /\ (r_link (c_remote c1) = Up -> r_link (c_remote c) = Up).
    Proof.
      induction 1 as [|st l Hst _ IH]; intros c rs c1 Hgo Hin E.
      - injection E as <- <-. split; [exact Hgo|]. split; [intros p n Hn; exists n; auto|auto].
      - rewrite play_cons in E. apply bind_spec in E as [(res & c2 & E1 & E)|(e & _ & [=])]. apply bind_spec in E as [(rs' & c3 & E2 & E)|(e & _ & [=])]. injection E as <- <-.
        destruct Hin as [Hn Hin]. destruct (Hst c res c2 Hgo Hn E1) as (_ & A2 & A3 & A4 & _). destruct (IH c2 rs' c3 A2 (Hin res c2 E1) E2) as (B1 & B2 & B3).
        split; [exact B1|]. split; [eapply grows_trans; eassumption|auto].
    Qed.
    Lemma blocks_tell l : Forall block l -> forall c rs c1, going c -> in_turn step does now l c -> play does l c = (Ok rs, c1) -> r_link (c_remote c1) = Up ->
      apart step about (sysof c1) l -> (forall st p, st ∈ l -> about st p -> intact c c1 p) -> play tries l c0 = (Ok rs, c0).
    Proof.
      induction 1 as [|st l Hst Hl IH]; intros c rs c1 Hgo Hin E Hup Hap Hint.
      - injection E as <- <-. reflexivity.
      - rewrite play_cons in E. apply bind_spec in E as [(res & c2 & E1 & E)|(e & _ & [=])]. apply bind_spec in E as [(rs' & c3 & E2 & E)|(e & _ & [=])]. injection E as <- <-.
        destruct Hin as [Hn Hin]. destruct (Hst c res c2 Hgo Hn E1) as (_ & A2 & A3 & A4 & A5). destruct (blocks_move l Hl c2 rs' c3 A2 (Hin res c2 E1) E2) as (B1 & B2 & B3).
        destruct (A5 c3 B2) as [A6 A7]. destruct Hap as [Hap1 Hap2]. rewrite play_cons. unfold mbind at 1, W_bind at 1. rewrite (A7 (B3 Hup)) by (intros p Hp; apply (Hint st p); [left|exact Hp]).
        unfold mbind, W_bind. rewrite (IH c2 rs' c3 A2 (Hin res c2 E1) E2 Hup Hap2); [reflexivity|].
        intros st' p Hi Hp. apply A6; [apply (Hint st' p); [right; exact Hi|exact Hp]|]. intros p' pl n m Hp' Hs. eapply Hap1; eassumption.
    Qed.
  End steps.
End atoms.
