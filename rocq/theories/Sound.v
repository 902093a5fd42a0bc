(** File operations leave a system whose values fit into the protocol, however they end. *)
From Coq Require Import Lia ZifyBool ZifyN ZifyNat.
From stdpp Require Import gmap.
From Verif Require Import Base Utf8 Codec Spec_Codec Codec_proofs Paths Sys Spec_Sys Sys_proofs Dispatcher Client Spec_Session Session_proofs Spec_Remote Remote_safe Remote_proofs
  Remote_upload Direct Control Spec_Control Control_proofs Control_settle Quiet Thrift Op Op_proofs Files Coreutils Walk_proofs Spec_Files Shell_proofs Files_plain Steps Dir_proofs.
Local Open Scope nat_scope.

(** ** On the remote *)
Definition kp {A} (m : M A) (P : A -> Prop) : Prop := forall s, os_ok s -> os_ok (m s).2 /\ forall a, fst (m s) = Ok a -> P a.
Lemma kp_pure {A} (a : A) (P : A -> Prop) : P a -> kp (pure a) P.
Proof. intros H s Hs. split; [exact Hs|]. intros b [= <-]. exact H. Qed.
Lemma kp_raise {A} e (P : A -> Prop) : kp (raise e : M A) P.
Proof. intros s Hs. split; [exact Hs|discriminate]. Qed.
Lemma kp_bind {A B} (m : M A) (f : A -> M B) (P : A -> Prop) (Q : B -> Prop) : kp m P -> (forall a, P a -> kp (f a) Q) -> kp (m ≫= f) Q.
Proof.
  intros H1 H2 s Hs. destruct (H1 s Hs) as [H3 H4]. cbv [mbind M_bind bindM]. destruct (m s) as [[a|e] s1]; cbn [snd fst] in *.
  - apply H2; [apply H4; reflexivity|exact H3].
  - split; [exact H3|discriminate].
Qed.
Lemma kp_get {B} (f : os -> M B) (Q : B -> Prop) : (forall s, os_ok s -> kp (f s) Q) -> kp (getM ≫= f) Q.
Proof. intros H s Hs. apply (H s Hs s Hs). Qed.
Lemma kp_syscall {A} (m : M A) P : kp m P -> kp (syscall m) P.
Proof.
  intros H s Hs. unfold syscall, next_fault. assert (F : Forall fault_ok (o_faults s)) by apply Hs.
  destruct (o_faults s) as [|[|n k] fl]; [apply H; assumption| |]; apply Forall_cons in F as [_ F].
  - apply H. apply os_ok_faults; assumption.
  - split; [cbn; apply os_ok_faults; assumption|discriminate].
Qed.
Lemma kp_weaken {A} (m : M A) (P Q : A -> Prop) : kp m P -> (forall a, P a -> Q a) -> kp m Q.
Proof. intros H1 H2 s Hs. destruct (H1 s Hs) as [H3 H4]. auto. Qed.
Definition yes {A} : A -> Prop := fun _ => True.
Lemma kp_any {A} (m : M A) : (forall s, os_ok s -> os_ok (m s).2) -> kp m yes.
Proof. intros H s Hs. split; [auto|]. intros a _. exact I. Qed.
Lemma kp_chdir cwd p : kp (sys_chdir cwd p) yes.
Proof. apply kp_any. apply keeps_chdir. Qed.
Lemma kp_set_id b : kp (set_id b) yes.
Proof. apply kp_any. apply keeps_set_id. Qed.
Lemma kp_isdir p : kp (sys_isdir p) yes.
Proof. apply kp_any. intros s Hs. assert (H := safe_isdir p s Hs). destruct (sys_isdir p s) as [[a|e] s']; apply H. Qed.

Definition id_opt (o : option N) : Prop := opt_ok id_ok o.
Lemma kp_preexec argv stdin umask uid gid cwd cwd1 : id_opt uid -> id_opt gid ->
  kp (preexec argv stdin umask uid gid cwd cwd1) (fun p => p_argv p = argv /\ id_ok (p_uid p) /\ id_ok (p_gid p)).
Proof.
  intros Hu Hg. unfold preexec. apply kp_get. intros s0 Hs0.
  apply kp_bind with yes; [destruct (_ || _)%bool; [apply kp_raise|apply kp_pure; exact I]|intros _ _].
  apply kp_bind with yes; [destruct gid; [apply kp_set_id|apply kp_pure; exact I]|intros _ _].
  apply kp_bind with yes; [destruct uid; [apply kp_set_id|apply kp_pure; exact I]|intros _ _].
  apply kp_bind with yes; [destruct cwd; [apply kp_chdir|apply kp_pure; exact I]|intros cwd2 _]. apply kp_pure. cbn [p_argv p_uid p_gid].
  split; [reflexivity|]. split; [destruct uid; [exact Hu|apply Hs0]|destruct gid; [exact Hg|apply Hs0]].
Qed.
(** The program leaves a sensible system when it is called with these arguments. *)
Definition sane (exec : proc -> M xres) (argv : list pystr) : Prop := forall p s, p_argv p = argv -> id_ok (p_uid p) -> id_ok (p_gid p) -> os_ok s -> os_ok (exec p s).2.
Lemma kp_in_child {A} (m : M A) P : kp m P -> kp (in_child m) P.
Proof.
  intros H s Hs. destruct (H s Hs) as [H1 H2]. unfold in_child. destruct (m s) as [[a|e] s'].
  - split; [exact H1|exact H2].
  - split; [exact H1|discriminate].
Qed.
Lemma kp_spawn exec argv stdin umask uid gid cwd : sane exec argv -> id_opt uid -> id_opt gid -> kp (spawn exec argv stdin umask uid gid cwd) yes.
Proof.
  intros He Hu Hg. unfold spawn. apply kp_get. intros s Hs. destruct argv as [|w ws]; [apply kp_raise|].
  destruct (existsb (has_char nul) (w :: ws)); [apply kp_raise|].
  apply kp_bind with yes; [destruct cwd; [apply kp_chdir|apply kp_pure; exact I]|intros cwd1 _].
  eapply kp_bind; [apply kp_in_child, kp_preexec; assumption|]. intros p (P1 & P2 & P3).
  apply kp_bind with yes; [apply kp_any; intros s1 Hs1; apply He; assumption|]. intros r _. destruct r; [apply kp_pure; exact I|apply kp_raise|apply kp_pure; exact I].
Qed.
Lemma kp_validated {A} f (o : option pystr) (g : os -> pystr -> result A) (k : option A -> M reply) (P : option A -> Prop) :
  P None -> (forall s v a, os_ok s -> o = Some v -> g s v = Ok a -> P (Some a)) -> (forall oa, P oa -> kp (k oa) yes) -> kp (validated_opt f o g k) yes.
Proof.
  intros H0 H1 Hk. destruct o as [v|]; cbn [validated_opt]; [|apply Hk; exact H0]. intros s Hs. unfold validated. destruct (g s v) as [a|e] eqn:E.
  - apply Hk; [|exact Hs]. eapply H1; eauto.
  - destruct e; (split; [exact Hs|intros; exact I]).
Qed.
Lemma user_id_ok s v a : os_ok s -> resolve_user_id s v = Ok a -> id_ok (fst a) /\ id_ok (snd a).
Proof. intros Hs H. destruct a as [u g]. apply resolve_user_id_in in H as (x & [Hx _] & -> & ->). apply (user_ok s x Hs) in Hx as (_ & H1 & H2 & _). auto. Qed.
Lemma group_id_ok s v a : os_ok s -> resolve_group_id s v = Ok a -> id_ok a.
Proof. intros Hs H. apply resolve_group_id_in in H as (x & [Hx _] & ->). apply (group_ok s x Hs) in Hx as (_ & H1 & _). auto. Qed.
Definition ids_ok (o : option (N * N)) : Prop := opt_ok (fun a => id_ok (fst a) /\ id_ok (snd a)) o.
Lemma gid_ok ug g : ids_ok ug -> id_opt g -> id_opt (match g with Some g => Some g | None => snd <$> ug end).
Proof. intros H1 H2. destruct g; [exact H2|]. destruct ug; [apply H1|exact I]. Qed.
Lemma uid_ok ug : ids_ok ug -> id_opt (fst <$> ug).
Proof. destruct ug; [intros [H _]; exact H|exact (fun _ => I)]. Qed.
Lemma kp_run exec command stdin capture user group umask cwd : sane exec command -> kp (handle_run exec command stdin capture user group umask cwd) yes.
Proof.
  intros He. unfold handle_run. apply kp_validated with yes; [exact I|exact (fun _ _ _ _ _ _ => I)|intros m _].
  apply kp_validated with ids_ok; [exact I|intros s v a Hs _ H; eapply user_id_ok; eauto|intros ug Hug].
  apply kp_validated with id_opt; [exact I|intros s v a Hs _ H; eapply group_id_ok; eauto|intros g Hg].
  apply kp_bind with yes.
  { destruct cwd; [|apply kp_pure; exact I]. apply kp_bind with yes; [apply kp_isdir|intros; apply kp_pure; exact I]. }
  intros bad _. destruct bad; [apply kp_any; intros s Hs; exact Hs|].
  intros s Hs. destruct (kp_spawn exec command stdin (default 63%Z m) (fst <$> ug) (match g with Some g => Some g | None => snd <$> ug end) cwd He (uid_ok _ Hug) (gid_ok _ _ Hug Hg) s Hs) as [H _].
  destruct (spawn exec command stdin (default 63%Z m) (fst <$> ug) (match g with Some g => Some g | None => snd <$> ug end) cwd s) as [[[rc out err|e|]|e] s']; cbn [snd] in H.
  - destruct capture; (split; [exact H|intros; exact I]).
  - split; [exact H|discriminate].
  - split; [exact H|intros; exact I].
  - destruct e; (split; [exact H|intros; exact I]).
Qed.

(** *** uploads *)
Lemma kp_open_write p : kp (sys_open_write p) yes.
Proof.
  apply kp_syscall. apply kp_any. intros s Hs. pose proof (now_ok s Hs) as Hnow.
  destruct (resolve _ _ _ _) as [pl|e]; [|exact Hs].
  destruct (o_fs s !! pl) as [n|] eqn:E.
  - pose proof (os_ok_files s Hs _ _ E) as (Hk & Hm & Hu & Hg & _ & _).
    destruct (n_kind n); cbn; auto. apply node_ok_insert; [assumption|]. unfold node_ok; cbn. split_and!; auto. unfold small; cbn; lia.
  - cbn. apply node_ok_insert; [assumption|]. unfold node_ok; cbn.
    assert (id_ok (o_uid s) /\ id_ok (o_gid s)) as [H1 H2] by (split; apply Hs).
    split_and!; auto; [unfold small; cbn; lia|lia|].
    destruct (o_fs s !! parent pl) as [d|] eqn:Ed; [|assumption].
    destruct (negb _); [|assumption]. apply (os_ok_files s Hs _ _ Ed).
Qed.
Lemma kp_write pl c : small c -> kp (sys_write pl c) yes.
Proof. intros Hc. apply kp_any. intros s Hs. assert (H := safe_write pl c Hc s Hs). destruct (sys_write pl c s) as [[a|e] s']; apply H. Qed.
Lemma kp_chmod p m : kp (sys_chmod p m) yes.
Proof.
  unfold sys_chmod. destruct (_ || _)%bool; [apply kp_raise|]. apply kp_syscall. apply kp_any. intros s Hs. pose proof (now_ok s Hs) as Hnow.
  destruct (resolve_node _ _ _ _) as [[pl n]|e] eqn:E; [|exact Hs]. apply resolve_node_names in E as (_ & _ & _ & E).
  pose proof (os_ok_files s Hs _ _ E) as (Hk & Hm' & Hu & Hg & Ht & _). apply node_ok_insert; [assumption|]. unfold node_ok; cbn. split_and!; auto.
  assert (0 <= m mod 4096 < 4096)%Z by (apply Z.mod_pos_bound; lia). lia.
Qed.
Lemma kp_chown p u g : id_ok u -> id_ok g -> kp (sys_chown p u g) yes.
Proof.
  intros Hu Hg. apply kp_syscall. apply kp_any. intros s Hs. pose proof (now_ok s Hs) as Hnow.
  destruct (resolve_node _ _ _ _) as [[pl n]|e] eqn:E; [|exact Hs]. apply resolve_node_names in E as (_ & _ & _ & E).
  pose proof (os_ok_files s Hs _ _ E) as (Hk & Hm' & _ & _ & Ht & _). apply node_ok_insert; [assumption|]. unfold node_ok; cbn. split_and!; auto.
  destruct (n_kind n); try assumption; apply drop_suid_lt; assumption.
Qed.
Lemma kp_upload file content mode owner group : small content -> kp (handle_upload file content mode owner group) yes.
Proof.
  intros Hc. unfold handle_upload. apply kp_validated with yes; [exact I|exact (fun _ _ _ _ _ _ => I)|intros m _].
  apply kp_validated with ids_ok; [exact I|intros s v a Hs _ H; eapply user_id_ok; eauto|intros ug Hug].
  apply kp_validated with id_opt; [exact I|intros s v a Hs _ H; eapply group_id_ok; eauto|intros g Hg].
  apply kp_bind with yes; [apply kp_open_write|intros pl _]. apply kp_bind with yes; [apply kp_write; exact Hc|intros _ _].
  apply kp_bind with yes; [destruct m; [apply kp_chmod|apply kp_pure; exact I]|intros _ _].
  apply kp_bind with yes; [|intros _ _; apply kp_pure; exact I].
  assert (Hz : id_ok 0) by (unfold id_ok; lia). assert (H1 := uid_ok _ Hug). assert (H2 := gid_ok _ _ Hug Hg).
  set (u := fst <$> ug) in *. set (h := match g with Some g => Some g | None => snd <$> ug end) in *. clearbody u h.
  destruct u as [u|], h as [h|]; try apply kp_chown; try assumption. apply kp_pure. exact I.
Qed.

(** ** The commands *)
Lemma lor_lt a b k : (a < 2 ^ k)%N -> (b < 2 ^ k)%N -> (N.lor a b < 2 ^ k)%N.
Proof.
  intros Ha Hb. destruct (decide (N.lor a b = 0%N)) as [-> |Hz]; [apply N.neq_0_lt_0, N.pow_nonzero; lia|].
  apply N.log2_lt_pow2; [lia|]. rewrite N.log2_lor. destruct (decide (a = 0%N)) as [-> |Ha0], (decide (b = 0%N)) as [-> |Hb0].
  - cbn in Hz. congruence.
  - apply N.log2_lt_pow2 in Hb; [|lia]. cbn. lia.
  - apply N.log2_lt_pow2 in Ha; [|lia]. cbn. lia.
  - apply N.log2_lt_pow2 in Ha; [|lia]. apply N.log2_lt_pow2 in Hb; [|lia]. lia.
Qed.
Lemma land_lt a b k : (a < 2 ^ k)%N -> (N.land a b < 2 ^ k)%N.
Proof.
  intros Ha. destruct (decide (N.land a b = 0%N)) as [-> |Hz]; [apply N.neq_0_lt_0, N.pow_nonzero; lia|].
  apply N.log2_lt_pow2; [lia|]. assert (Ha0 : a <> 0%N) by (intros ->; cbn in Hz; congruence). apply N.log2_lt_pow2 in Ha; [|lia].
  pose proof (N.log2_land a b). lia.
Qed.
Lemma new_gid_ok p s pl : os_ok s -> id_ok (p_gid p) -> id_ok (new_gid p s pl).
Proof.
  intros Hs Hg. unfold new_gid. destruct (dir_sgid s pl); [|exact Hg]. destruct (o_fs s !! parent pl) as [d|] eqn:E; [|exact Hg]. apply (os_ok_files s Hs _ _ E).
Qed.
Lemma exits_ok (m : M unit) s : os_ok (m s).2 -> os_ok (exits m s).2.
Proof. unfold exits. destruct (m s) as [[a|e] s']; auto. Qed.
Lemma prints_ok (m : M bytes) s : os_ok (m s).2 -> os_ok (prints m s).2.
Proof. unfold prints. destruct (m s) as [[a|e] s']; auto. Qed.
Lemma sys_ok {A} (m : M A) s : (forall s, os_ok s -> os_ok (m s).2) -> os_ok s -> os_ok (syscall m s).2.
Proof. intros H Hs. apply (kp_syscall m yes (kp_any m H) s Hs). Qed.
Section commands.
  Variable p : proc.
  Hypothesis Hu : id_ok (p_uid p).
  Hypothesis Hg : id_ok (p_gid p).
  Lemma mkdir_ok path s : os_ok s -> os_ok (do_mkdir p path s).2.
  Proof.
    apply sys_ok. clear s. intros s Hs. pose proof (now_ok s Hs) as Hnow. destruct (resolve _ _ _ _) as [pl|e]; [|exact Hs]. destruct (o_fs s !! pl); [exact Hs|].
    cbn [snd]. apply node_ok_insert; [exact Hs|]. unfold node_ok. cbn [n_kind n_mode n_uid n_gid n_mtime n_ctime]. split_and!; auto; [exact I| |apply new_gid_ok; assumption].
    change 4096%N with (2 ^ 12)%N. apply lor_lt; [apply ldiff_lt; reflexivity|]. destruct (dir_sgid s pl); reflexivity.
  Qed.
  Lemma touch_ok follow path s : os_ok s -> os_ok (do_touch p follow path s).2.
  Proof.
    apply sys_ok. clear s. intros s Hs. pose proof (now_ok s Hs) as Hnow. destruct (resolve _ _ _ _) as [pl|e]; [|exact Hs]. destruct (o_fs s !! pl) as [n|] eqn:E.
    - pose proof (os_ok_files s Hs _ _ E) as (Hk & Hm & H1 & H2 & _ & _). cbn [snd]. apply node_ok_insert; [exact Hs|]. split_and!; auto.
    - destruct follow; [|exact Hs]. cbn [snd]. apply node_ok_insert; [exact Hs|]. unfold node_ok. cbn [n_kind n_mode n_uid n_gid n_mtime n_ctime]. split_and!; auto; [unfold kind_ok, small; cbn; lia| |apply new_gid_ok; assumption].
      change 4096%N with (2 ^ 12)%N. apply ldiff_lt. reflexivity.
  Qed.
  Lemma gnu_mode_lt t m : gnu_mode t = Some m -> (m < 4096)%N.
  Proof. unfold gnu_mode. destruct (_ || _); [discriminate|]. destruct (N.ltb_spec (fold_left (fun a d => (a * 8 + (d - 48))%N) t 0%N) 4096); [intros [= <-]; assumption|discriminate]. Qed.
  Lemma chmod_ok t path s : os_ok s -> os_ok (do_chmod p t path s).2.
  Proof.
    unfold do_chmod. destruct (gnu_mode t) as [m|] eqn:Em; [|exact (fun H => H)]. apply gnu_mode_lt in Em. apply sys_ok. clear s. intros s Hs. pose proof (now_ok s Hs) as Hnow.
    destruct (resolve_node _ _ _ _) as [[pl n]|e] eqn:E; [|exact Hs]. apply resolve_node_names in E as (_ & _ & _ & E).
    pose proof (os_ok_files s Hs _ _ E) as (Hk & Hm' & H1 & H2 & Ht & _). cbn [snd]. apply node_ok_insert; [assumption|]. split_and!; auto. cbn [n_mode]. unfold gnu_apply.
    destruct (n_kind n); auto. destruct (_ <? _)%nat; [|exact Em]. change 4096%N with (2 ^ 12)%N in *. apply lor_lt; [exact Em|]. apply land_lt. exact Hm'.
  Qed.
  Lemma gnu_uid_ok s t x : os_ok s -> gnu_uid s t = Some x -> id_ok x.
  Proof.
    intros Hs. unfold gnu_uid. destruct (List.find _ _) as [a|] eqn:E.
    - intros [= <-]. apply List.find_some in E as [E _]. apply elem_of_list_In in E. apply (user_ok s a Hs E).
    - destruct (all_digits t && _) eqn:Ed; [|discriminate]. intros [= <-]. apply andb_prop in Ed as [_ Ed]. unfold id_ok. lia.
  Qed.
  Lemma gnu_gid_ok s t x : os_ok s -> gnu_gid s t = Some x -> id_ok x.
  Proof.
    intros Hs. unfold gnu_gid. destruct (List.find _ _) as [a|] eqn:E.
    - intros [= <-]. apply List.find_some in E as [E _]. apply elem_of_list_In in E. apply (group_ok s a Hs E).
    - destruct (all_digits t && _) eqn:Ed; [|discriminate]. intros [= <-]. apply andb_prop in Ed as [_ Ed]. unfold id_ok. lia.
  Qed.
  Lemma chown_ok follow spec path s : os_ok s -> os_ok (do_chown p follow spec path s).2.
  Proof.
    unfold do_chown. destruct (startswith spec (lit "-")); [exact (fun H => H)|]. apply sys_ok. clear s. intros s Hs. pose proof (now_ok s Hs) as Hnow.
    destruct (gnu_owner s spec) as [[u g]|] eqn:Eo; [|exact Hs].
    assert (Hug : id_ok u /\ id_ok g).
    { unfold gnu_owner in Eo. destruct (cut_at colon spec) as [[[|x xs] [|y ys]]|]; try discriminate. destruct (gnu_uid s (x :: xs)) as [a|] eqn:E1; [|discriminate].
      destruct (gnu_gid s (y :: ys)) as [b|] eqn:E2; [|discriminate]. injection Eo as <- <-. split; [eapply gnu_uid_ok; eauto|eapply gnu_gid_ok; eauto]. }
    destruct Hug as [H1 H2].
    destruct (resolve_node _ _ _ _) as [[pl n]|e] eqn:E; [|exact Hs]. apply resolve_node_names in E as (_ & _ & _ & E).
    pose proof (os_ok_files s Hs _ _ E) as (Hk & Hm' & _ & _ & Ht & _). cbn [snd]. apply node_ok_insert; [assumption|]. split_and!; auto. cbn [n_mode].
    destruct (n_kind n); try assumption; apply drop_suid_lt; assumption.
  Qed.
  Lemma delete_ok s pl : os_ok s -> os_ok (set_fs (delete pl (o_fs s)) s).
  Proof. intros Hs. apply os_ok_fs; [exact Hs|]. intros q n H. apply lookup_delete_Some in H as [_ H]. apply (os_ok_files s Hs _ _ H). Qed.
  Lemma delete_all_ok s l : os_ok s -> os_ok (set_fs (delete_all l (o_fs s)) s).
  Proof.
    intros Hs. apply os_ok_fs; [exact Hs|]. induction l as [|q l IH]; cbn [delete_all foldr]; [apply (os_ok_files s Hs)|].
    intros pl n H. apply lookup_delete_Some in H as [_ H]. eapply IH. exact H.
  Qed.
  Lemma rm_ok path s : os_ok s -> os_ok (do_rm p path s).2.
  Proof.
    apply sys_ok. clear s. intros s Hs. destruct (resolve_node _ _ _ _) as [[pl n]|e]; [|exact Hs]. destruct (n_kind n); try exact Hs; cbn; apply delete_ok; exact Hs.
  Qed.
  Lemma rm_rf_ok path s : os_ok s -> os_ok (do_rm_rf p path s).2.
  Proof.
    intros Hs. unfold do_rm_rf. assert (Hn : os_ok (snd (next_fault s))).
    { unfold next_fault. assert (F : Forall fault_ok (o_faults s)) by apply Hs. destruct (o_faults s) as [|f fl]; [exact Hs|]. apply Forall_cons in F as [_ F]. cbn. apply os_ok_faults; assumption. }
    destruct (next_fault s) as [f s1]. cbn [snd] in Hn. destruct (resolve _ _ _ _) as [pl|e].
    - destruct (str_in _ _ || _); [exact Hn|]. destruct f; cbn; apply delete_all_ok; exact Hn.
    - destruct (bool_decide _); [destruct f|]; exact Hn.
  Qed.
  Lemma ln_ok target path s : short target -> os_ok s -> os_ok (do_ln p target path s).2.
  Proof.
    intros Ht. apply sys_ok. clear s. intros s Hs. pose proof (now_ok s Hs) as Hnow. cbv zeta. set (dest := match resolve_node _ _ _ _ with Ok _ => _ | Err _ => _ end). clearbody dest.
    destruct (resolve _ _ _ _) as [pl|e]; [|exact Hs].
    assert (H : os_ok (set_fs (<[pl := Node (KLink target) 511 (p_uid p) (new_gid p s pl) (o_now s) (o_now s)]> (o_fs s)) s)).
    { apply node_ok_insert; [exact Hs|]. split_and!; auto; [cbn; lia|apply new_gid_ok; assumption]. }
    destruct (n_kind <$> o_fs s !! pl) as [[| | |]|]; assumption.
  Qed.
  Lemma readlink_ok path s : os_ok s -> os_ok (do_readlink p path s).2.
  Proof. apply sys_ok. clear s. intros s Hs. exact Hs. Qed.
  Lemma cp_ok src dst s : os_ok s -> os_ok (do_cp p src dst s).2.
  Proof.
    apply sys_ok. clear s. intros s Hs. pose proof (now_ok s Hs) as Hnow. destruct (resolve_node (o_fs s) (p_cwd p) src false) as [[from n]|e] eqn:E; [|exact Hs].
    apply resolve_node_names in E as (_ & _ & _ & E). pose proof (os_ok_files s Hs _ _ E) as (Hk & Hm' & H1 & H2 & Ht & _).
    cbv zeta. set (d := match resolve_node _ _ dst true with Ok _ => _ | Err _ => _ end). clearbody d. destruct (resolve (o_fs s) (p_cwd p) d true) as [pl|e]; [|exact Hs].
    set (dangling := match o_fs s !! pl with Some _ => false | None => _ end). clearbody dangling. destruct dangling; [exact Hs|].
    assert (H : forall k, kind_ok k -> os_ok (set_fs (<[pl := Node k (n_mode n) (n_uid n) (n_gid n) (n_mtime n) (o_now s)]> (o_fs s)) s)).
    { intros k Kk. apply node_ok_insert; [exact Hs|]. split_and!; auto. }
    assert (Ho : forall m, o_fs s !! pl = Some m -> kind_ok (n_kind m)) by (intros m Hm; apply (os_ok_files s Hs _ _ Hm)).
    destruct (n_kind n) eqn:En; [|exact Hs| |];
      (destruct (o_fs s !! pl) as [m|]; cbn [fmap option_fmap option_map];
       [specialize (Ho m eq_refl); destruct (n_kind m); try exact Hs; (destruct (bool_decide _); [exact Hs|cbn; apply H; assumption])
       |destruct (bool_decide _); [exact Hs|cbn; apply H; assumption]]).
  Qed.
End commands.

(** What can be said of each command that the operations use; [short] arguments are only needed by those that store them. *)
Section sanity.
  Variable rest : proc -> M xres.
  Notation exec := (coreutils rest).
  Ltac command := intros p s Ha Hu Hg Hs; unfold coreutils; rewrite Ha;
    repeat match goal with |- context [str_eqb ?a ?b] => let v := eval vm_compute in (str_eqb a b) in change (str_eqb a b) with v; cbn [andb] end;
    first [apply exits_ok|apply prints_ok].
  Lemma sane_mkdir x : sane exec [lit "mkdir"; lit "--"; x]. Proof. command. apply mkdir_ok; assumption. Qed.
  Lemma sane_touch x : sane exec [lit "touch"; lit "--"; x]. Proof. command. apply touch_ok; assumption. Qed.
  Lemma sane_rm x : sane exec [lit "rm"; lit "--"; x]. Proof. command. apply rm_ok; assumption. Qed.
  Lemma sane_readlink x : sane exec [lit "readlink"; lit "-n"; x]. Proof. command. apply readlink_ok; assumption. Qed.
  Lemma sane_chmod m x : sane exec [lit "chmod"; m; lit "--"; x]. Proof. command. apply chmod_ok; assumption. Qed.
  Lemma sane_chown o x : sane exec [lit "chown"; o; lit "--"; x]. Proof. command. apply chown_ok; assumption. Qed.
  Lemma sane_rm_rf x : sane exec [lit "rm"; lit "-rf"; lit "--"; x]. Proof. command. apply rm_rf_ok; assumption. Qed.
  Lemma sane_ltouch x : sane exec [lit "touch"; lit "--no-dereference"; lit "--"; x]. Proof. command. apply touch_ok; assumption. Qed.
  Lemma sane_ln t x : short t -> sane exec [lit "ln"; lit "-sf"; lit "--"; t; x]. Proof. intros Ht. command. apply ln_ok; assumption. Qed.
  Lemma sane_cp t x : sane exec [lit "cp"; lit "-a"; lit "--"; t; x]. Proof. command. apply cp_ok; assumption. Qed.
  Lemma sane_lchown o x : sane exec [lit "chown"; lit "--no-dereference"; o; lit "--"; x].
  Proof. command. apply chown_ok; assumption. Qed.
End sanity.

(** ** In the controlling process *)
Definition sound {A} (m : W A) : Prop := forall c, os_ok (sysof c) -> os_ok (sysof (m c).2).
Lemma sound_thrifty {A} (m : W A) : thrifty m -> sound m.
Proof. intros H c Hc. eapply spends_os_ok; [|exact Hc]. eapply H. apply surjective_pairing. Qed.
Lemma sound_bind {A B} (m : W A) (f : A -> W B) : sound m -> (forall a, sound (f a)) -> sound (m ≫= f).
Proof.
  intros H1 H2 c Hc. specialize (H1 c Hc). unfold mbind, W_bind. destruct (m c) as [[a|e] c1]; [|exact H1]. apply H2. exact H1.
Qed.
Lemma sound_ret {A} (a : A) : sound (mret a). Proof. intros c Hc. exact Hc. Qed.
Lemma sound_raise {A} e : sound (wraise e : W A). Proof. intros c Hc. exact Hc. Qed.
Lemma sound_lift {A} (x : result A) : sound (liftW x). Proof. intros c Hc. exact Hc. Qed.
Lemma sound_wif b m : sound m -> sound (wif b m).
Proof. intros H. destruct b; [exact H|apply sound_ret]. Qed.
Lemma sound_conclude i f m : sound m -> sound (conclude i f m).
Proof. intros H. unfold conclude. destruct (py_eq _ _); [apply sound_ret|]. apply sound_bind; [exact H|intros; apply sound_ret]. Qed.
Lemma sound_finally {A} (m : W A) f : sound m -> sound f -> sound (wfinally m f).
Proof.
  intros H1 H2 c Hc. specialize (H1 c Hc). unfold wfinally. destruct (m c) as [r c1]. specialize (H2 c1 H1). destruct (f c1) as [[u|e] c2]; exact H2.
Qed.
Section client.
  Variable exec : proc -> M xres.
  Variable sha512 : bytes -> bytes.
  Lemma sound_request q v x v' : (forall s, os_ok s -> os_ok (handle exec sha512 q s).2) -> request exec sha512 q v = (x, v') -> os_ok (r_os v) -> os_ok (r_os v').
  Proof. intros H E Hs. apply request_any_state in E as [-> | ->]; auto. Qed.
  Lemma sound_crun cmd : sane exec cmd -> sound (crun exec sha512 cmd).
  Proof.
    intros He. unfold crun, run. apply sound_bind; [apply sound_thrifty, thrifty_current|]. intros d. intros c Hc. unfold via.
    destruct (conn_run exec sha512 _ _ _ _ _ _ _ _ (c_remote c)) as [r v] eqn:E. unfold sysof. cbn [snd c_remote set_remote].
    unfold conn_run, mbind, C_bind in E. destruct (request exec sha512 _ (c_remote c)) as [[y|e] v1] eqn:Er.
    - apply sound_request in Er; [|intros s Hs; apply (kp_run exec cmd _ _ _ _ _ _ He s Hs)|exact Hc].
      assert (v = v1) as ->; [|exact Er].
      destruct y; cbn in E; try (injection E as _ <-; reflexivity). destruct (negb (_ =? 0)%Z); injection E as _ <-; reflexivity.
    - injection E as _ <-. apply sound_request in Er; [exact Er|intros s Hs; apply (kp_run exec cmd _ _ _ _ _ _ He s Hs)|exact Hc].
  Qed.
  Lemma sound_sh cmd : sane exec cmd -> sound (sh exec sha512 cmd).
  Proof. intros H. unfold sh. apply sound_bind; [apply sound_crun; exact H|intros; apply sound_ret]. Qed.
  Lemma sound_upload file content mode owner group : small content -> sound (upload exec sha512 file content mode owner group).
  Proof.
    intros Hc c Hs. unfold upload, via. destruct (conn_upload exec sha512 _ _ _ _ _ (c_remote c)) as [r v] eqn:E. unfold sysof. cbn [snd c_remote set_remote].
    unfold conn_upload, mbind, C_bind in E. destruct (request exec sha512 _ (c_remote c)) as [[y|e] v1] eqn:Er.
    - apply sound_request in Er; [|intros s Hss; apply (kp_upload file content mode owner group Hc s Hss)|exact Hs].
      assert (v = v1) as ->; [|exact Er]. destruct y; cbn in E; injection E as _ <-; reflexivity.
    - injection E as _ <-. apply sound_request in Er; [exact Er|intros s Hss; apply (kp_upload file content mode owner group Hc s Hss)|exact Hs].
  Qed.
  Lemma sound_defaults {A} q (body : settings -> W A) : (forall d, sound (body d)) -> sound (script_defaults exec sha512 q body).
  Proof.
    intros H c Hc. unfold script_defaults. destruct (c_script c) as [i|]; [|exact Hc]. revert c Hc.
    change (sound (with_defaults exec sha512 i q body)). unfold with_defaults. apply sound_bind; [apply sound_thrifty, thrifty_defaults|]. intros new.
    apply sound_bind; [apply sound_thrifty, thrifty_enter|]. intros d. apply sound_finally; [apply H|]. intros c Hc. exact Hc.
  Qed.
  Lemma sound_operation a f w : yields f new_op w -> sound w -> sound (operation a f).
  Proof.
    intros H Hw c Hc. rewrite (operation_plain a f w c H). revert c Hc. change (sound (w ≫= verdict a)). apply sound_bind; [exact Hw|]. intros r. unfold verdict.
    destruct (_ && _); [apply sound_raise|apply sound_ret].
  Qed.
  Lemma sound_check path : sound (check_absolute_path path).
  Proof. unfold check_absolute_path. destruct path as [|x r]; [apply sound_raise|]. destruct (x =? slash)%N; [apply sound_ret|apply sound_raise]. Qed.
  Lemma sound_stat p follow sha : sound (stat exec sha512 p follow sha). Proof. apply sound_thrifty, thrifty_stat. Qed.
  Lemma sound_chmod_to path m : (forall m, sane exec [lit "chmod"; m; lit "--"; path]) -> sound (chmod_to exec sha512 path m).
  Proof. intros H. unfold chmod_to, arg. destruct m; [|apply sound_raise]. apply sound_bind; [apply sound_crun, H|intros; apply sound_ret]. Qed.
End client.

Section bodies.
  Variable rest : proc -> M xres.
  Variable sha512 : bytes -> bytes.
  Variable dry want_diff : bool.
  Notation exec := (coreutils rest).
  Hint Resolve sane_mkdir sane_touch sane_rm sane_readlink sane_chmod sane_chown sane_rm_rf sane_ltouch sane_cp sane_lchown : core.
  Ltac steps := repeat first [apply sound_sh; solve [auto]|apply sound_chmod_to; solve [auto]|apply sound_wif|apply sound_ret|apply sound_raise|apply sound_bind; [|intros ?]].
  Lemma sound_dir path present touch attr : sound (dir_body exec sha512 dry path present touch attr).
  Proof.
    unfold dir_body. apply sound_bind; [apply sound_stat|]. intros st.
    assert (Hw : sound (dir_work exec sha512 dry path present touch attr st)).
    { unfold dir_work, chown_to. destruct dry; [apply sound_ret|]. destruct present; steps. }
    destruct st as [x|]; [destruct (negb (str_eqb (st_type x) (lit "dir"))); [apply sound_ret|]|]; apply sound_conclude; exact Hw.
  Qed.
  Lemma sound_file path present touch attr : sound (file_body exec sha512 dry path present touch attr).
  Proof.
    unfold file_body. apply sound_bind; [apply sound_stat|]. intros st.
    assert (Hw : sound (file_work exec sha512 dry path present touch attr st)).
    { unfold file_work, chown_to. destruct dry; [apply sound_ret|]. destruct present; steps. }
    destruct st as [x|]; [destruct (negb (str_eqb (st_type x) (lit "file"))); [apply sound_ret|]|]; apply sound_conclude; exact Hw.
  Qed.
  Lemma sound_link path target present touch attr : short target -> sound (link_body exec sha512 dry path target present touch attr).
  Proof.
    intros Ht. unfold link_body. apply sound_bind; [apply sound_stat|]. intros st.
    assert (Hw : forall x, sound (link_work exec sha512 dry path target present touch attr x)).
    { intros x. unfold link_work. destruct dry; [apply sound_ret|]. assert (Hl := sane_ln rest target path Ht). destruct present; steps. }
    destruct st as [x|]; [|apply sound_conclude, Hw]. destruct (negb (str_eqb (st_type x) (lit "link"))); [apply sound_ret|].
    apply sound_bind; [apply sound_crun; auto|]. intros r. apply sound_bind; [|intros t; apply sound_conclude, Hw].
    unfold decoded. destruct (utf8_decode _); [apply sound_ret|apply sound_raise].
  Qed.
  Lemma sound_content content dest attr : small content -> sound (content_body exec sha512 dry want_diff content dest attr).
  Proof.
    intros Hc. unfold content_body. apply sound_bind; [apply sound_stat|]. intros st.
    assert (Hw : sound (content_work exec sha512 dry want_diff content dest attr st)).
    { unfold content_work, chown_to. apply sound_bind.
      - destruct want_diff; [|apply sound_ret]. apply sound_bind; [apply sound_thrifty, thrifty_download_or|intros; apply sound_ret].
      - intros _. destruct dry; [apply sound_ret|]. destruct (_ || _); [apply sound_upload; exact Hc|]. steps. }
    destruct st as [x|]; [destruct (negb (str_eqb (st_type x) (lit "file"))); [apply sound_ret|]|]; apply sound_conclude; exact Hw.
  Qed.
End bodies.
