(** File operations reach their goal and stay there: from the bodies to the operations. *)
From Coq Require Import Lia ZifyBool ZifyN ZifyNat.
From stdpp Require Import gmap.
From Verif Require Import Base Utf8 Dict_proofs Digits Codec Spec_Codec Codec_proofs Codec_proofs2 Paths Sys Spec_Sys Sys_proofs Dispatcher Client Spec_Session Session_proofs Spec_Remote
  Remote_safe Remote_proofs Remote_upload Remote_run Direct Control Spec_Control Control_proofs Control_settle Quiet Thrift Op Op_proofs Files Coreutils Walk_proofs Spec_Files Shell_proofs Files_plain Steps Dir_proofs.
Local Open Scope nat_scope.

(** ** Modes have one canonical text *)
Lemma value_app base l d a : Digits.value base (l ++ [d]) a = (Digits.value base l a * base + (d - 48))%N.
Proof. unfold Digits.value. rewrite fold_left_app. reflexivity. Qed.
Lemma value_pos base l : (2 <= base)%N -> Forall (is_digit base) l -> (match l with d :: _ => d <> 48%N | [] => False end) -> (0 < Digits.value base l 0)%N.
Proof.
  intros Hb H Hl. destruct l as [|d l]; [contradiction|]. inversion H as [|? ? Hd H']; subst. clear H. induction l as [|e l IH] using rev_ind.
  - unfold Digits.value, is_digit in *. cbn. lia.
  - rewrite app_comm_cons, value_app. apply Forall_app in H' as [H' _]. specialize (IH H'). nia.
Qed.
Lemma value_unique base l l' : (2 <= base)%N -> Forall (is_digit base) l -> Forall (is_digit base) l' -> l <> [] -> l' <> [] ->
  (match l with d :: _ :: _ => d <> 48%N | _ => True end) -> (match l' with d :: _ :: _ => d <> 48%N | _ => True end) ->
  Digits.value base l 0 = Digits.value base l' 0 -> l = l'.
Proof.
  intros Hb. revert l'. induction l as [|d l IH] using rev_ind; intros l' F F' N N' L L' E; [contradiction|].
  destruct l' as [|d' l' _] using rev_ind; [contradiction|]. clear N N'. rewrite !value_app in E. apply Forall_app in F as [F Fd]. apply Forall_app in F' as [F' Fd'].
  inversion Fd as [|? ? Hd _]; subst. inversion Fd' as [|? ? Hd' _]; subst. unfold is_digit in Hd, Hd'.
  assert (Ed : (d - 48 = d' - 48)%N /\ Digits.value base l 0 = Digits.value base l' 0).
  { assert (Q := N.div_mod_unique base (Digits.value base l 0) (Digits.value base l' 0) (d - 48) (d' - 48)). destruct Q as [Q1 Q2]; [lia|lia| |auto]. rewrite (N.mul_comm base), (N.mul_comm base). exact E. }
  destruct Ed as [Ed Ev]. assert (d = d') as -> by lia. f_equal.
  assert (Hz : forall k, Forall (is_digit base) k -> match k ++ [d'] with x :: _ :: _ => x <> 48%N | _ => True end -> k <> [] -> (0 < Digits.value base k 0)%N).
  { intros k Fk Lk Nk. apply value_pos; [lia|exact Fk|]. destruct k as [|x [|y k]]; [contradiction|exact Lk|exact Lk]. }
  destruct l as [|x l]; destruct l' as [|x' l']; [reflexivity| | |].
  - specialize (Hz _ F' L' ltac:(discriminate)). change (Digits.value base [] 0) with 0%N in Ev. lia.
  - specialize (Hz _ F L ltac:(discriminate)). change (Digits.value base [] 0) with 0%N in Ev. lia.
  - apply IH; auto; try discriminate.
    + destruct l; [exact I|exact L].
    + destruct l'; [exact I|exact L'].
Qed.
Lemma octal_digits t : Forall (fun d => (48 <= d < 56)%N) t -> Forall (is_digit 8) t.
Proof. intros H. eapply Forall_impl; [exact H|]. intros x Hx. unfold is_digit. cbn beta in *. lia. Qed.
Lemma octal_text_unique n t : octal_text n t -> t = oct_tail (Z.of_N n).
Proof.
  intros (H1 & H2 & H3 & H4). apply octal_digits in H2. rewrite oct_tail_show. destruct (show_spec 8 n ltac:(lia)) as (S1 & S2 & S3 & S4).
  apply (value_unique 8); auto; [lia|]. rewrite S3. rewrite py_int_digits in H1 by auto. apply (f_equal (default 0%Z)) in H1. cbn in H1. lia.
Qed.

(** ** Ids have one name *)
Lemma find_id {A} (key : A -> N) l x : NoDup (key <$> l) -> x ∈ l -> List.find (fun a => (Z.of_N (key a) =? Z.of_N (key x))%Z) l = Some x.
Proof.
  induction l as [|y l IH]; intros Hnd Hx; [inversion Hx|]. cbn in *. apply NoDup_cons in Hnd as [Hnot Hnd].
  destruct (Z.eqb_spec (Z.of_N (key y)) (Z.of_N (key x))) as [E|E].
  - apply elem_of_cons in Hx as [-> |Hx]; [reflexivity|]. apply N2Z.inj in E. destruct Hnot. rewrite E. apply elem_of_list_fmap. eauto.
  - apply elem_of_cons in Hx as [-> |Hx]; [contradiction|]. auto.
Qed.
Lemma unique_id {A} (key : A -> N) l x y : NoDup (key <$> l) -> x ∈ l -> y ∈ l -> key x = key y -> x = y.
Proof. intros H Hx Hy E. assert (H1 := find_id key l x H Hx). rewrite E, (find_id key l y H Hy) in H1. congruence. Qed.

(** ** Settings are determined *)
Lemma denotes_user_unique s u a b : accounts_ok s -> unaliased s -> denotes_user s u a -> denotes_user s u b -> a = b.
Proof.
  intros (N1 & _) [U1 _] [Ha Da] [Hb Db]. destruct Da as [Da|[Na Da]], Db as [Db|[Nb Db]].
  - apply (unique_key pw_name (o_passwd s)); congruence.
  - destruct (Nb a Ha Da).
  - destruct (Na b Hb Db).
  - apply (unique_id pw_uid (o_passwd s)); auto. rewrite Da in Db. apply (f_equal (default 0%Z)) in Db. cbn in Db. lia.
Qed.
Lemma denotes_group_unique s u a b : accounts_ok s -> unaliased s -> denotes_group s u a -> denotes_group s u b -> a = b.
Proof.
  intros (_ & N1 & _) [_ U1] [Ha Da] [Hb Db]. destruct Da as [Da|[Na Da]], Db as [Db|[Nb Db]].
  - apply (unique_key gr_name (o_group s)); congruence.
  - destruct (Nb a Ha Da).
  - destruct (Na b Hb Db).
  - apply (unique_id gr_gid (o_group s)); auto. rewrite Da in Db. apply (f_equal (default 0%Z)) in Db. cbn in Db. lia.
Qed.
Lemma user_settles_unique s w x y : accounts_ok s -> unaliased s -> user_settles s w x -> user_settles s w y -> x = y.
Proof.
  intros H1 H2. unfold user_settles. destruct w as [u|], x, y; try contradiction; auto. intros (a & Da & ->) (b & Db & ->). rewrite (denotes_user_unique s u a b); auto.
Qed.
Lemma group_settles_unique s w x y : accounts_ok s -> unaliased s -> group_settles s w x -> group_settles s w y -> x = y.
Proof.
  intros H1 H2. unfold group_settles. destruct w as [u|], x, y; try contradiction; auto. intros (a & Da & ->) (b & Db & ->). rewrite (denotes_group_unique s u a b); auto.
Qed.
Lemma mode_settles_unique b w x y : mode_settles b w x -> mode_settles b w y -> x = y.
Proof.
  unfold mode_settles. destruct w as [m|]; [|intros [-> _] [-> _]; reflexivity].
  intros (n & t & V1 & -> & T1) (n' & t' & V2 & -> & T2). apply octal_text_unique in T1, T2. rewrite V1 in V2. injection V2 as E. apply N2Z.inj in E. congruence.
Qed.
Lemma mode_settles_canonical b w x : canonical b -> mode_settles b w x -> exists z, x = Some (oct_tail (Z.of_N z)) /\ means x z.
Proof.
  unfold mode_settles. intros (n & t & -> & Hn) H. assert (exists n t, x = Some t /\ octal_text n t) as (n' & t' & -> & Ht).
  { destruct w as [m|]; [destruct H as (n' & t' & _ & -> & Ht); eauto|]. destruct H as [-> _]. eauto. }
  exists n'. rewrite <- (octal_text_unique _ _ Ht). split; [reflexivity|]. exists t'. split; [reflexivity|apply Ht].
Qed.
Lemma settles_files s s' base reqs d : only_files s s' -> settles s base reqs d <-> settles s' base reqs d.
Proof. intros H. rewrite H. reflexivity. Qed.
Lemma enclosing_files s s' base reqs d : only_files s s' -> enclosing s base reqs d <-> enclosing s' base reqs d.
Proof. intros H. rewrite H. reflexivity. Qed.
Lemma accounts_files s s' : only_files s s' -> accounts_ok s <-> accounts_ok s'.
Proof. intros H. rewrite H. reflexivity. Qed.
Lemma unaliased_files s s' : only_files s s' -> unaliased s <-> unaliased s'.
Proof. intros H. rewrite H. reflexivity. Qed.
Lemma owned_files s s' o g n : only_files s s' -> owned s o g n <-> owned s' o g n.
Proof. intros H. rewrite H. reflexivity. Qed.
Lemma feasible_grows s s' base reqs : only_files s s' -> grows (o_fs s) (o_fs s') -> feasible s base reqs -> feasible s' base reqs.
Proof.
  intros Ho Hg (F1 & F2 & F3 & F4 & F5 & F6 & F7 & F8). rewrite Ho. split_and!; auto. cbn [o_fs o_cwd set_faults set_fs].
  destruct (wanted s_cwd base reqs) as [w|]; [|exact I]. destruct F8 as (W1 & W2 & pl & n & W3 & W4). split; [exact W1|]. split; [exact W2|].
  assert (Hn := W3). apply resolve_node_split in Hn as [_ Hn]. apply Hg in Hn as (n' & Hn & W6). exists pl, n'. split; [eapply resolve_node_grows; eassumption|].
  unfold shape in W6. rewrite W4 in W6. destruct (n_kind n'); congruence.
Qed.
Lemma set_remote_active c r : active (set_remote r c) = active c. Proof. reflexivity. Qed.
Lemma set_remote_base c r : c_base (set_remote r c) = c_base c. Proof. reflexivity. Qed.
Lemma sits_grows path s s' pl n : sits path s s' pl n -> (forall n0, o_fs s !! pl = Some n0 -> shape n = shape n0) -> grows (o_fs s) (o_fs s').
Proof. intros (_ & H & _) Hk. rewrite H. apply grows_insert. exact Hk. Qed.
Lemma sits_os_ok path s s' pl n : os_ok s -> sits path s s' pl n -> node_ok n -> o_faults s' = [] -> os_ok s'.
Proof.
  intros (O1 & O2 & O3 & O4 & O5 & O6 & O7 & O8 & O9 & O10) (H & Hf & _) Hn Hfl. rewrite H. split_and!; auto; cbn [o_fs o_faults set_fs set_faults].
  - intros q m. rewrite Hf. destruct (decide (q = pl)) as [-> |Hq]; [rewrite lookup_insert; intros [= <-]; exact Hn|]. rewrite lookup_insert_ne by congruence. apply O6.
  - rewrite Hfl. constructor.
Qed.

(** The times of a file are those it had, or now. *)
Definition recent (s : os) (pl : place) (n : node) : Prop :=
  (n_mtime n = o_now s \/ exists n0, o_fs s !! pl = Some n0 /\ n_mtime n = n_mtime n0) /\
  (n_ctime n = o_now s \/ exists n0, o_fs s !! pl = Some n0 /\ n_ctime n = n_ctime n0).
Lemma dated_recent s touch pl n : dated s touch pl n -> recent s pl n.
Proof.
  intros [D1 D2]. split; [|exact D2]. destruct (o_fs s !! pl) as [n0|]; [|left; exact D1]. destruct touch; [left; exact D1|right; exists n0; auto].
Qed.
Section present.
  Variable rest : proc -> M xres.
  Variable sha512 : bytes -> bytes.
  Notation exec := (coreutils rest).
  Variables (path : pystr) (touch : bool) (isk : kind -> Prop) (msel : settings -> option pystr).
  Variable Conf : os -> place -> node -> Prop.
  Variable Good : os -> settings -> account -> grent -> place -> node -> Prop.
  (** nothing is left to be done *)
  Variable Match : os -> settings -> node -> Prop.
  (** what else it takes to succeed *)
  Variable Cap : Prop.
  Variable body : settings -> W opres.
  Variable q : settings.
  Variable op : O opres.
  Hypothesis Hop : yields op new_op (_ ← check_absolute_path path; script_defaults exec sha512 q body).
  Hypothesis Hrem : forall d, remotely (body d).
  Hypothesis Hmsel2 : forall s base reqs attr, settles s base reqs attr -> mode_settles (msel base) (innermost (List.map msel reqs)) (msel attr).
  Lemma Hmsel s base reqs attr : settles s base reqs attr -> msel attr <> None.
  Proof. intros H. eapply mode_settles_value. eapply Hmsel2. exact H. Qed.
  Hypothesis Hbody : forall attr s c x c' a b,
    unaffected s (sysof c) -> isabs path = true -> c_string path -> os_ok (sysof c) -> honest (sysof c) ->
    accounts_ok s -> accounts_of s attr a b -> msel attr <> None -> body attr c = (x, c') ->
    (unaffected s (sysof c') \/ exists pl n, sits path s (sysof c') pl n /\ Conf s pl n) /\
    (forall res, x = Ok res -> or_success res = true ->
       exists pl n, sits path s (sysof c') pl n /\ Conf s pl n /\ Good s attr a b pl n /\ (or_changed res = false -> unaffected s (sysof c') /\ touch = false)) /\
    (fine c -> hash_ok sha512 -> Cap -> octal_below 4096 (msel attr) ->
       (resolve_node (o_fs s) [] path false = Err (oserr ENOENT) /\ creatable s path) \/ (exists pl n, resolve_node (o_fs s) [] path false = Ok (pl, n) /\ isk (n_kind n)) ->
       exists res, x = Ok res /\ or_success res = true /\ fine c' /\
         (or_changed res = false <-> exists pl n, resolve_node (o_fs s) [] path false = Ok (pl, n) /\ Match s attr n /\ touch = false)).

  Lemma present_any a c r c' reqs : ready c reqs -> honest (sysof c) -> c_string path -> operation a op c = (r, c') ->
    (unaffected (sysof c) (sysof c') \/ exists pl n, sits path (sysof c) (sysof c') pl n /\ Conf (sysof c) pl n) /\
    (forall res, r = Ok res -> or_success res = true ->
       isabs path = true /\ exists attr x y pl n, settles (sysof c) (c_base c) (reqs ++ [q]) attr /\ accounts_of (sysof c) attr x y /\
         sits path (sysof c) (sysof c') pl n /\ Conf (sysof c) pl n /\ Good (sysof c) attr x y pl n /\ (or_changed res = false -> unaffected (sysof c) (sysof c') /\ touch = false)).
  Proof.
    intros ((d0 & Ha & He) & Hkb & Hac & Hos) Hh Hp E.
    destruct (op_any exec sha512 a path q body op c r c' reqs d0 Hop Hrem E Ha He) as [_ [[Hu [e ->]]|(Hp' & c1 & attr & x & c2 & F1 & F2 & F3 & F4 & F5 & F6)]].
    - split; [left; exact Hu|discriminate].
    - destruct (settles_accounts _ _ _ _ F2 Hkb) as (u & g & Hof).
      assert (Hs : sysof c' = sysof c2) by (unfold sysof; rewrite F5; reflexivity). rewrite Hs.
      destruct (Hbody attr (sysof c) c1 x c2 u g (proj1 F1) Hp' Hp (spends_os_ok _ _ F1 Hos) (spends_honest _ _ F1 Hh) Hac Hof (Hmsel _ _ _ _ F2) F4) as (B1 & B2 & _).
      split; [exact B1|]. intros res -> Hsu. split; [exact Hp'|]. destruct x as [res'|e]; cbn in F6; [|discriminate].
      destruct F6 as [[[= <-] _]|(_ & _ & [=])]. destruct (B2 res eq_refl Hsu) as (pl & n & B3 & B4 & B5 & B6). exists attr, u, g, pl, n. auto 10.
  Qed.
  Lemma present_works a c r c' reqs : ready c reqs -> c_string path -> isabs path = true -> operation a op c = (r, c') ->
    healthy c -> hash_ok sha512 -> Cap -> feasible (sysof c) (c_base c) (reqs ++ [q]) -> (forall attr, octal_below 4096 (s_file_mode attr) -> octal_below 4096 (s_dir_mode attr) -> octal_below 4096 (msel attr)) ->
    (resolve_node (o_fs (sysof c)) [] path false = Err (oserr ENOENT) /\ creatable (sysof c) path) \/ (exists pl n, resolve_node (o_fs (sysof c)) [] path false = Ok (pl, n) /\ isk (n_kind n)) ->
    c' = set_remote (c_remote c') c /\ exists res attr, r = Ok res /\ or_success res = true /\ healthy c' /\ settles (sysof c) (c_base c) (reqs ++ [q]) attr /\ octal_below 4096 (msel attr) /\
      (or_changed res = false <-> exists pl n, resolve_node (o_fs (sysof c)) [] path false = Ok (pl, n) /\ Match (sysof c) attr n /\ touch = false) /\
      exists x y pl n, accounts_of (sysof c) attr x y /\
         sits path (sysof c) (sysof c') pl n /\ Conf (sysof c) pl n /\ Good (sysof c) attr x y pl n /\ (or_changed res = false -> unaffected (sysof c) (sysof c')).
  Proof.
    intros ((d0 & Ha & He) & Hkb & Hac & Hos) Hp Hp' E Hhl Hha Hcap Hfe Hoct Hex.
    destruct (op_any exec sha512 a path q body op c r c' reqs d0 Hop Hrem E Ha He) as [Hset _]. split; [exact Hset|].
    destruct (op_fine exec sha512 a path q body op c r c' reqs d0 Hop Hp' E Ha He Hhl Hos Hha Hac Hfe) as (c1 & attr & x & c2 & F1 & F2 & F3 & F4 & F5 & F6 & F7 & F8 & F9).
    destruct (settles_accounts _ _ _ _ F3 Hkb) as (u & g & Hof).
    assert (Hs1 : sysof c1 = sysof c) by (unfold sysof; rewrite F1; reflexivity). assert (Hs : sysof c' = sysof c2) by (unfold sysof; rewrite F6; reflexivity).
    assert (Hh : honest (sysof c)) by (intros k Hk; destruct Hhl as (_ & Hf & _); rewrite Hf in Hk; inversion Hk).
    destruct (Hbody attr (sysof c) c1 x c2 u g) as (_ & B2 & B3); auto; try (rewrite Hs1; auto); [apply unaffected_refl|eapply Hmsel; exact F3|].
    destruct (B3 F2 Hha Hcap (Hoct _ F7 F8) Hex) as (res & -> & Hsu & (Hh2 & _) & Hch). cbn in F9. destruct F9 as [[-> _]|(Hsu' & _)]; [|congruence].
    destruct (B2 res eq_refl Hsu) as (pl & n & B4 & B5 & B6 & B7).
    exists res, attr. split; [reflexivity|]. split; [exact Hsu|]. split; [unfold healthy in *; rewrite Hs, F6; exact Hh2|]. split; [exact F3|]. split; [auto|]. split; [exact Hch|].
    exists u, g, pl, n. rewrite Hs. split_and!; auto. apply B7.
  Qed.

  Hypothesis Hfields : forall s attr a b pl n, Good s attr a b pl n -> good_owner attr a b n /\ recent s pl n.
  Hypothesis Hfinal : forall s s' attr a b pl n attr2, Good s attr a b pl n -> matching s' (msel attr2) attr2 n -> Match s' attr2 n.
  Hypothesis Hconf : forall s pl n, Conf s pl n -> isk (n_kind n) /\ (forall n0, o_fs s !! pl = Some n0 -> shape n = shape n0) /\ (os_ok s -> kind_ok (n_kind n)).
  Lemma matching_final s s' attr a b n z : only_files s s' -> accounts_ok s -> unaliased s -> accounts_of s attr a b -> good_owner attr a b n ->
    msel attr = Some (oct_tail (Z.of_N z)) -> n_mode n = z -> matching s' (msel attr) attr n.
  Proof.
    intros Ho Hac [U1 U2] (A1 & A2 & A3 & A4) [G1 G2] Hm Hz. unfold matching, seen_mode, seen_owner, seen_group, statres_of, getpwuid, getgrgid.
    cbn [fmap option_fmap option_map st_mode st_owner st_group].
    rewrite (only_files_passwd _ _ Ho), (only_files_group _ _ Ho), G1, G2, (find_id pw_uid _ _ U1 A1), (find_id gr_gid _ _ U2 A2), Hm, Hz, A3, A4. auto.
  Qed.
  Lemma final_ok s attr a b pl n : os_ok s -> Conf s pl n -> Good s attr a b pl n -> accounts_of s attr a b -> (n_mode n < 4096)%N -> node_ok n.
  Proof.
    intros Hos Hc Hg (A1 & A2 & _) Hm. assert (Hos' := Hos). destruct Hos' as (O1 & O2 & _ & _ & _ & O6 & _ & _ & O9 & _). destruct (Hfields _ _ _ _ _ _ Hg) as ((G1 & G2) & D1 & D2). destruct (Hconf _ _ _ Hc) as (_ & _ & Hk).
    rewrite Forall_forall in O1. rewrite Forall_forall in O2. specialize (O1 a A1). specialize (O2 b A2). 
    split_and!.
    - apply Hk. exact Hos.
    - exact Hm.
    - rewrite G1. apply O1.
    - rewrite G2. apply O2.
    - destruct D1 as [-> |(n0 & E & ->)]; [exact O9|apply (O6 _ _ E)].
    - destruct D2 as [-> |(n0 & E & ->)]; [exact O9|apply (O6 _ _ E)].
  Qed.
  Lemma present_again a a2 c r c' r2 c2 reqs : ready c reqs -> c_string path -> isabs path = true -> operation a op c = (r, c') ->
    healthy c -> hash_ok sha512 -> Cap -> feasible (sysof c) (c_base c) (reqs ++ [q]) -> (forall attr, octal_below 4096 (s_file_mode attr) -> octal_below 4096 (s_dir_mode attr) -> octal_below 4096 (msel attr)) ->
    (resolve_node (o_fs (sysof c)) [] path false = Err (oserr ENOENT) /\ creatable (sysof c) path) \/ (exists pl n, resolve_node (o_fs (sysof c)) [] path false = Ok (pl, n) /\ isk (n_kind n)) ->
    unaliased (sysof c) -> canonical (msel (c_base c)) ->
    (forall attr x y pl n z, settles (sysof c) (c_base c) (reqs ++ [q]) attr -> Good (sysof c) attr x y pl n -> sits path (sysof c) (sysof c') pl n -> means (msel attr) z -> n_mode n = z) ->
    operation a2 op c' = (r2, c2) ->
    os_ok (sysof c') /\ ready c' reqs /\ feasible (sysof c') (c_base c') (reqs ++ [q]) /\
    exists res2, r2 = Ok res2 /\ or_success res2 = true /\ (touch = false -> or_changed res2 = false /\ c2 = c').
  Proof.
    intros Hrd Hp Hp' E Hhl Hha Hcap Hfe Hoct Hex Hun Hcan Hst E2.
    destruct (present_works a c r c' reqs Hrd Hp Hp' E Hhl Hha Hcap Hfe Hoct Hex) as (Hset & res & attr & -> & Hsu & Hhl' & Hse & Ho & _ & x & y & pl & n & Hof & Hsit & Hc & Hg & _).
    destruct Hrd as ((d0 & Ha & He) & Hkb & Hac & Hos). destruct (Hfields _ _ _ _ _ _ Hg) as (Hgo & _). destruct (Hconf _ _ _ Hc) as (Hk1 & Hk2 & Hk3).
    assert (Hof' := sits_only _ _ _ _ _ Hsit).
    destruct (mode_settles_canonical _ _ _ Hcan (Hmsel2 _ _ _ _ Hse)) as (z & Z1 & Z2).
    assert (Hz : n_mode n = z) by (eapply Hst; eassumption).
    assert (Hz' : (z < 4096)%N).
    { destruct Ho as (t & z' & Ht & _ & _ & _ & Hv & Hlt). destruct Z2 as (t' & Ht' & Hv'). rewrite Ht in Ht'. injection Ht' as <-. rewrite Hv in Hv'. injection Hv' as Hv'. apply N2Z.inj in Hv'. congruence. }
    assert (Hos' : os_ok (sysof c')).
    { eapply sits_os_ok; [exact Hos|exact Hsit| |apply Hhl']. eapply final_ok; eauto. rewrite Hz. exact Hz'. }
    assert (Hb : c_base c' = c_base c) by (rewrite Hset; reflexivity).
    assert (Hrd' : ready c' reqs).
    { split; [exists d0; split; [rewrite Hset; exact Ha|rewrite Hb; apply (enclosing_files _ _ _ _ _ Hof'); exact He]|]. rewrite Hb. split; [exact Hkb|]. split; [apply (accounts_files _ _ Hof'); exact Hac|exact Hos']. }
    assert (Hfe' : feasible (sysof c') (c_base c') (reqs ++ [q])) by (rewrite Hb; eapply feasible_grows; [exact Hof'|eapply sits_grows; eassumption|exact Hfe]).
    split; [exact Hos'|]. split; [exact Hrd'|]. split; [exact Hfe'|].
    assert (Hr' : resolve_node (o_fs (sysof c')) [] path false = Ok (pl, n)) by apply Hsit.
    destruct (present_works a2 c' r2 c2 reqs Hrd' Hp Hp' E2 Hhl' Hha Hcap Hfe' Hoct) as (Hset2 & res2 & attr2 & -> & Hsu2 & Hhl2 & Hse2 & _ & Hch2 & x2 & y2 & pl2 & n2 & _ & _ & _ & _ & Hun2); [right; eauto|].
    exists res2. split; [reflexivity|]. split; [exact Hsu2|]. intros Ht.
    assert (Hch : or_changed res2 = false).
    { apply Hch2. exists pl, n. split; [exact Hr'|]. split; [|exact Ht].
      assert (Hse' : settles (sysof c) (c_base c) (reqs ++ [q]) attr2) by (rewrite Hb in Hse2; apply (settles_files _ _ _ _ _ Hof') in Hse2; exact Hse2).
      assert (Eo : s_owner attr2 = s_owner attr) by (eapply user_settles_unique; [exact Hac|exact Hun|apply Hse'|apply Hse]).
      assert (Eg : s_group attr2 = s_group attr) by (eapply group_settles_unique; [exact Hac|exact Hun|apply Hse'|apply Hse]).
      assert (Em : msel attr2 = msel attr) by (eapply mode_settles_unique; eapply Hmsel2; eassumption).
      eapply Hfinal; [exact Hg|]. eapply (matching_final (sysof c) (sysof c') attr2 x y n z); auto.
      - destruct Hof as (A1 & A2 & A3 & A4). split_and!; auto; congruence.
      - rewrite Em. exact Z1. }
    split; [exact Hch|]. specialize (Hun2 Hch). rewrite Hset2. destruct Hhl2 as (L2 & Fl2 & _), Hhl' as (L1 & Fl1 & _).
    assert (Hrem2 : c_remote c2 = c_remote c').
    { unfold sysof in *. destruct (c_remote c2) as [s2 l2], (c_remote c') as [s1 l1]. cbn in *. subst. f_equal. rewrite Hun2, Fl2, <- Fl1. unfold set_faults. destruct s1; reflexivity. }
    rewrite Hrem2. apply set_remote_self.
  Qed.
End present.

Section absent.
  Variable rest : proc -> M xres.
  Variable sha512 : bytes -> bytes.
  Notation exec := (coreutils rest).
  Variables (path : pystr) (isk : kind -> Prop).
  Variable Rem : os -> place -> os -> Prop.
  Variable V : place -> node -> Prop.
  Variable body : settings -> W opres.
  Variable q : settings.
  Variable op : O opres.
  Hypothesis Hop : yields op new_op (_ ← check_absolute_path path; script_defaults exec sha512 q body).
  Hypothesis Hrem : forall d, remotely (body d).
  Hypothesis Hbody : forall attr s c x c',
    unaffected s (sysof c) -> isabs path = true -> c_string path -> os_ok (sysof c) -> honest (sysof c) -> body attr c = (x, c') ->
    (unaffected s (sysof c') \/ exists pl n, resolve_node (o_fs s) [] path false = Ok (pl, n) /\ isk (n_kind n) /\ Rem s pl (sysof c')) /\
    (forall res, x = Ok res -> or_success res = true -> missing (sysof c') path /\ (or_changed res = false -> unaffected s (sysof c'))) /\
    (fine c -> hash_ok sha512 ->
       resolve_node (o_fs s) [] path false = Err (oserr ENOENT) \/ (exists pl n, resolve_node (o_fs s) [] path false = Ok (pl, n) /\ isk (n_kind n) /\ V pl n) ->
       exists res, x = Ok res /\ or_success res = true /\ healthy c' /\ (or_changed res = false <-> resolve_node (o_fs s) [] path false = Err (oserr ENOENT))).
  Lemma absent_op a c r c' reqs : ready c reqs -> honest (sysof c) -> c_string path -> operation a op c = (r, c') ->
    (unaffected (sysof c) (sysof c') \/ exists pl n, resolve_node (o_fs (sysof c)) [] path false = Ok (pl, n) /\ isk (n_kind n) /\ Rem (sysof c) pl (sysof c')) /\
    (forall res, r = Ok res -> or_success res = true -> missing (sysof c') path /\ (or_changed res = false -> unaffected (sysof c) (sysof c'))).
  Proof.
    intros ((d0 & Ha & He) & Hkb & Hac & Hos) Hh Hp E.
    destruct (op_any exec sha512 a path q body op c r c' reqs d0 Hop Hrem E Ha He) as [_ [[Hu [e ->]]|(Hp' & c1 & attr & x & c2 & F1 & F2 & F3 & F4 & F5 & F6)]].
    - split; [left; exact Hu|discriminate].
    - assert (Hs : sysof c' = sysof c2) by (unfold sysof; rewrite F5; reflexivity). rewrite Hs.
      destruct (Hbody attr (sysof c) c1 x c2 (proj1 F1) Hp' Hp (spends_os_ok _ _ F1 Hos) (spends_honest _ _ F1 Hh) F4) as (B1 & B2 & _).
      split; [exact B1|]. intros res -> Hsu. destruct x as [res'|e]; cbn in F6; [|discriminate].
      destruct F6 as [[[= <-] _]|(_ & _ & [=])]. apply B2; auto.
  Qed.
  Lemma absent_works a c r c' reqs : ready c reqs -> c_string path -> isabs path = true -> operation a op c = (r, c') ->
    healthy c -> hash_ok sha512 -> feasible (sysof c) (c_base c) (reqs ++ [q]) ->
    resolve_node (o_fs (sysof c)) [] path false = Err (oserr ENOENT) \/ (exists pl n, resolve_node (o_fs (sysof c)) [] path false = Ok (pl, n) /\ isk (n_kind n) /\ V pl n) ->
    c' = set_remote (c_remote c') c /\ exists res, r = Ok res /\ or_success res = true /\ healthy c' /\
      (or_changed res = false <-> resolve_node (o_fs (sysof c)) [] path false = Err (oserr ENOENT)) /\ (or_changed res = false -> c' = c).
  Proof.
    intros ((d0 & Ha & He) & Hkb & Hac & Hos) Hp Hp' E Hhl Hha Hfe Hex.
    destruct (op_any exec sha512 a path q body op c r c' reqs d0 Hop Hrem E Ha He) as [Hset _]. split; [exact Hset|].
    destruct (op_fine exec sha512 a path q body op c r c' reqs d0 Hop Hp' E Ha He Hhl Hos Hha Hac Hfe) as (c1 & attr & x & c2 & F1 & F2 & F3 & F4 & F5 & F6 & F7 & F8 & F9).
    assert (Hs1 : sysof c1 = sysof c) by (unfold sysof; rewrite F1; reflexivity). assert (Hs : sysof c' = sysof c2) by (unfold sysof; rewrite F6; reflexivity).
    assert (Hh : honest (sysof c)) by (intros k Hk; destruct Hhl as (_ & Hf & _); rewrite Hf in Hk; inversion Hk).
    destruct (Hbody attr (sysof c) c1 x c2) as (_ & B2 & B3); auto; try (rewrite Hs1; auto); [apply unaffected_refl|].
    destruct (B3 F2 Hha Hex) as (res & -> & Hsu & Hh2 & Hch). cbn in F9. destruct F9 as [[-> _]|(Hsu' & _)]; [|congruence].
    assert (Hhl' : healthy c') by (unfold healthy in *; rewrite Hs, F6; exact Hh2).
    exists res. split; [reflexivity|]. split; [exact Hsu|]. split; [exact Hhl'|]. split; [exact Hch|].
    intros Hc. destruct (B2 res eq_refl Hsu) as [_ B4]. specialize (B4 Hc). rewrite <- Hs in B4. rewrite Hset.
    destruct Hhl' as (L2 & Fl2 & _), Hhl as (L1 & Fl1 & _).
    assert (Hrem2 : c_remote c' = c_remote c).
    { unfold sysof in *. destruct (c_remote c') as [s2 l2], (c_remote c) as [s1 l1]. cbn in *. clear -B4 Fl1 Fl2 L1 L2. subst. f_equal. rewrite B4, Fl2, <- Fl1. unfold set_faults. destruct s1; reflexivity. }
    rewrite Hrem2. apply set_remote_self.
  Qed.
End absent.

(** ** The instances *)
Lemma dir_msel s base reqs attr : settles s base reqs attr -> mode_settles (s_dir_mode base) (innermost (List.map s_dir_mode reqs)) (s_dir_mode attr).
Proof. intros H. apply H. Qed.
Lemma file_msel s base reqs attr : settles s base reqs attr -> mode_settles (s_file_mode base) (innermost (List.map s_file_mode reqs)) (s_file_mode attr).
Proof. intros H. apply H. Qed.
Lemma dir_conf_facts s pl n : dir_conf s pl n -> n_kind n = KDir /\ (forall n0, o_fs s !! pl = Some n0 -> shape n = shape n0) /\ (os_ok s -> kind_ok (n_kind n)).
Proof.
  intros [H1 H2]. split; [exact H1|]. split; [|rewrite H1; exact (fun _ => I)]. intros n0 Hn. specialize (H2 _ Hn). unfold shape. rewrite H1, H2. reflexivity.
Qed.
Lemma file_conf_facts s pl n : file_conf s pl n -> is_file (n_kind n) /\ (forall n0, o_fs s !! pl = Some n0 -> shape n = shape n0) /\ (os_ok s -> kind_ok (n_kind n)).
Proof.
  unfold file_conf. destruct (o_fs s !! pl) as [n0|] eqn:E.
  - intros [H1 H2]. split; [rewrite H2; exact H1|]. split; [intros n1 [= <-]; unfold shape; rewrite H2; reflexivity|]. intros (_ & _ & _ & _ & _ & O6 & _). rewrite H2. apply (O6 _ _ E).
  - intros H. split; [eexists; exact H|]. split; [discriminate|]. rewrite H. intros _. unfold kind_ok, small. cbn. lia.
Qed.
Lemma dir_fields touch s attr a b pl n : dir_good s attr touch a b pl n -> good_owner attr a b n /\ recent s pl n.
Proof. intros (H1 & _ & H2). apply dated_recent in H2. auto. Qed.
Lemma file_fields touch s attr a b pl n : file_good s attr touch a b pl n -> good_owner attr a b n /\ recent s pl n.
Proof. intros (H1 & _ & H2). apply dated_recent in H2. auto. Qed.
Lemma sits_at path s s' pl n : sits path s s' pl n -> at_path s' path pl n.
Proof. intros (_ & _ & H). apply resolve_node_names. exact H. Qed.
Lemma sits_only_at path s s' pl n : sits path s s' pl n -> only_at pl s s'.
Proof. intros (H1 & H2 & _). split; [exact H1|]. intros q Hq. rewrite H2, lookup_insert_ne by congruence. reflexivity. Qed.
Lemma owned_of s s' attr a b n : only_files s s' -> accounts_of s attr a b -> good_owner attr a b n -> owned s' (s_owner attr) (s_group attr) n.
Proof. intros H (A1 & A2 & A3 & A4) (G1 & G2). rewrite H. exists a, b. auto 10. Qed.
Lemma drop_suid_none z : (z < 1024)%N -> drop_suid z = z.
Proof.
  intros Hz. unfold drop_suid, S_ISUID, S_ISGID. change 2048%N with (2 ^ 11)%N. change 1024%N with (2 ^ 10)%N.
  assert (Hl : forall k, (10 <= k)%N -> N.ldiff z (2 ^ k) = z).
  { intros k Hk. apply N.bits_inj. intros j. rewrite N.ldiff_spec. destruct (N.eq_dec j k) as [-> |Hj].
    - rewrite (N.bits_above_log2 z k); [reflexivity|]. destruct (N.eq_dec z 0) as [-> |Hz0]; [cbn; lia|]. apply N.lt_le_trans with 10%N; [|lia]. apply N.log2_lt_pow2; [lia|]. exact Hz.
    - rewrite N.pow2_bits_false by congruence. apply andb_true_r. }
  rewrite (Hl 11%N) by lia. destruct (negb _); [apply Hl; lia|reflexivity].
Qed.
