(** Tame requests are always answered. *)
From Coq Require Import Lia ZifyBool ZifyN ZifyNat.
From stdpp Require Import gmap.
From Verif Require Import Base Utf8 Utf8_proofs Codec Spec_Codec Codec_proofs Codec_proofs2 Paths Sys Spec_Sys Sys_proofs Dispatcher Client
  Spec_Session Session_proofs Spec_Remote.

(** ** Texts *)
Lemma lit_text_ok x : text_ok (lit x).
Proof.
  unfold text_ok, lit. apply Forall_forall. intros c Hc. apply elem_of_list_In, in_map_iff in Hc as (b & <- & _).
  pose proof (N_ascii_bounded b). lia.
Qed.
Lemma text_ok_app a b : text_ok a -> text_ok b -> text_ok (a ++ b).
Proof. apply Forall_app_2. Qed.
Lemma lit_length x : length (lit x) = String.length x.
Proof. unfold lit. rewrite map_length. induction x; cbn; auto. Qed.
Lemma small_of {A} (l : list A) : (4 * N.of_nat (length l) < 2 ^ 63)%N -> small l.
Proof. auto. Qed.
Lemma lit_ok x : (N.of_nat (String.length x) < 2 ^ 32)%N -> str_ok (lit x).
Proof. intros H. split; [apply lit_text_ok|]. unfold small. rewrite lit_length. lia. Qed.
Lemma short_ok s : short s -> str_ok s.
Proof. intros [H1 H2]. split; [assumption|]. unfold small. lia. Qed.
Lemma nil_ok : str_ok [].
Proof. split; [constructor|]. unfold small. cbn. lia. Qed.

Lemma to_digits_spec fuel b n acc : (b <= 10)%N -> (0 < b)%N -> text_ok acc ->
  text_ok (to_digits fuel b n acc) /\ (length (to_digits fuel b n acc) <= fuel + length acc)%nat.
Proof.
  intros Hb Hb0. revert n acc. induction fuel as [|f IH]; intros n acc Ha; cbn [to_digits]; [split; [assumption|lia]|].
  assert (Ha' : text_ok ((48 + n mod b)%N :: acc)).
  { constructor; [|assumption]. pose proof (N.mod_lt n b). lia. }
  destruct (n <? b)%N; [split; [assumption|cbn; lia]|].
  destruct (IH (n / b)%N _ Ha') as [H1 H2]. cbn [length] in H2. split; [assumption|lia].
Qed.
Lemma str_of_N_ok n : id_ok n -> str_ok (str_of_N n).
Proof.
  unfold id_ok, str_of_N, show_N. intros H.
  destruct (to_digits_spec (S (N.size_nat n)) 10 n []) as [H1 H2]; [lia|lia|constructor|].
  split; [assumption|]. unfold small. cbn [length] in H2.
  assert (N.size_nat n <= 32)%nat; [|lia].
  destruct n as [|p]; [cbn; lia|]. change (N.size_nat (N.pos p)) with (Pos.size_nat p).
  assert (N.of_nat (Pos.size_nat p) = N.size (N.pos p)) as E by (cbn; clear; induction p; cbn; lia).
  assert (N.size (N.pos p) <= 32)%N; [|lia].
  rewrite N.size_log2 by lia. assert (N.log2 (N.pos p) < 32)%N; [|lia]. apply N.log2_lt_pow2; lia.
Qed.

Lemma encode_esc_length t b : utf8_encode_esc t = Some b -> (length b <= 4 * length t)%nat.
Proof.
  unfold utf8_encode_esc. revert b. induction t as [|c t IH]; intros b H; cbn [enc_with] in H.
  - injection H as <-. cbn. lia.
  - destruct (enc_cp_esc c) as [x|] eqn:E; cbn in H; [|discriminate].
    destruct (enc_with enc_cp_esc t) as [y|] eqn:E2; cbn in H; [|discriminate]. injection H as <-.
    rewrite app_length. specialize (IH _ eq_refl). cbn [length].
    assert (length x <= 4)%nat; [|lia].
    unfold enc_cp_esc in E. destruct (_ && _)%N in E; [injection E as <-; cbn; lia|].
    apply enc_cp_some in E as [_ E]. lia.
Qed.

(** ** Safe computations *)
Definition oserr_ok (e : exn) : Prop :=
  match e with OSErr n a b => in_i64 n /\ str_ok a /\ str_ok b | _ => False end.
Definition safe {A} (m : M A) (Q : A -> Prop) : Prop := forall s, os_ok s ->
  match m s with
  | (Ok a, s') => Q a /\ os_ok s'
  | (Err e, s') => oserr_ok e /\ os_ok s'
  end.

Lemma safe_pure {A} (a : A) (Q : A -> Prop) : Q a -> safe (pure a) Q.
Proof. intros H s Hs. cbn. auto. Qed.
Lemma safe_raise {A} e (Q : A -> Prop) : oserr_ok e -> safe (raise e : M A) Q.
Proof. intros H s Hs. cbn. auto. Qed.
Lemma safe_bind {A B} (m : M A) (f : A -> M B) P Q : safe m P -> (forall a, P a -> safe (f a) Q) -> safe (m ≫= f) Q.
Proof.
  intros H1 H2 s Hs. specialize (H1 s Hs). cbv [mbind M_bind bindM]. destruct (m s) as [[a|e] s1]; [|assumption].
  destruct H1 as [Ha Hs1]. exact (H2 a Ha s1 Hs1).
Qed.
Lemma safe_getM {B} (f : os -> M B) Q : (forall s, os_ok s -> match f s s with (Ok a, s') => Q a /\ os_ok s' | (Err e, s') => oserr_ok e /\ os_ok s' end) -> safe (getM ≫= f) Q.
Proof. intros H s Hs. exact (H s Hs). Qed.
Lemma os_ok_faults fl s : os_ok s -> Forall fault_ok fl -> os_ok (set_faults fl s).
Proof. unfold os_ok. cbn. tauto. Qed.
Lemma os_ok_fs fs s : os_ok s -> (forall pl n, fs !! pl = Some n -> node_ok n) -> os_ok (set_fs fs s).
Proof. unfold os_ok. cbn. tauto. Qed.
Lemma oserr_ok_n n : in_i64 n -> oserr_ok (oserr n).
Proof. intros H. split_and!; [assumption|apply nil_ok..]. Qed.
Lemma safe_syscall {A} (m : M A) Q : safe m Q -> safe (syscall m) Q.
Proof.
  intros H s Hs. unfold syscall, next_fault. destruct (o_faults s) as [|[|n k] fl] eqn:E; [apply H; assumption| |].
  - apply H. apply os_ok_faults; [assumption|].
    assert (F : Forall fault_ok (o_faults s)) by apply Hs. rewrite E in F. inversion F; assumption.
  - assert (F : Forall fault_ok (o_faults s)) by apply Hs. rewrite E in F. apply Forall_cons in F as [F1 F2].
    split; [apply oserr_ok_n; assumption|apply os_ok_faults; assumption].
Qed.
Ltac small_z := apply oserr_ok_n; split; vm_compute; congruence.
Lemma resolve_node_ok fs cwd p follow : nul ∉ p -> (forall pl n, fs !! pl = Some n -> node_ok n) ->
  match resolve_node fs cwd p follow with Ok (pl, n) => node_ok n | Err e => oserr_ok e end.
Proof.
  intros Hn Hfs. destruct (resolve_node fs cwd p follow) as [[pl n]|e] eqn:E.
  - apply resolve_node_names in E as (_ & _ & _ & E). eauto.
  - apply resolve_node_err in E as [[? _]|[_ [-> |[-> | ->]]]]; [contradiction|small_z..].
Qed.
Lemma resolve_ok fs cwd p follow : nul ∉ p -> match resolve fs cwd p follow with Ok _ => True | Err e => oserr_ok e end.
Proof.
  intros Hn. destruct (resolve fs cwd p follow) as [pl|e] eqn:E; [exact I|].
  apply resolve_err in E as [[? _]|[_ [-> |[-> | ->]]]]; [contradiction|small_z..].
Qed.
Lemma os_ok_files s : os_ok s -> forall pl n, o_fs s !! pl = Some n -> node_ok n.
Proof. intros H. apply H. Qed.

Lemma safe_stat p follow : nul ∉ p -> safe (sys_stat p follow) node_ok.
Proof.
  intros Hp. apply safe_syscall. intros s Hs.
  pose proof (resolve_node_ok (o_fs s) (o_cwd s) p follow Hp (os_ok_files s Hs)) as H.
  destruct (resolve_node _ _ _ _) as [[pl n]|e]; cbn; auto.
Qed.
Lemma safe_isdir p : safe (sys_isdir p) (fun _ => True).
Proof.
  intros s Hs. unfold sys_isdir, sys_stat, syscall, next_fault.
  assert (Hok : forall fl, Forall fault_ok fl -> os_ok (set_faults fl s)) by (intros; apply os_ok_faults; assumption).
  assert (F : Forall fault_ok (o_faults s)) by apply Hs.
  destruct (o_faults s) as [|[|n k] fl]; cbn.
  - destruct (resolve_node _ _ _ _); cbn; auto.
  - apply Forall_cons in F as [_ F]. destruct (resolve_node _ _ _ _); cbn; auto.
  - apply Forall_cons in F as [_ F]. auto.
Qed.
Lemma safe_read p : nul ∉ p -> safe (sys_read p) (fun b => small b).
Proof.
  intros Hp. apply safe_syscall. intros s Hs.
  pose proof (resolve_node_ok (o_fs s) (o_cwd s) p true Hp (os_ok_files s Hs)) as H.
  destruct (resolve_node _ _ _ _) as [[pl n]|e]; cbn; [|auto].
  destruct H as [Hk _]. destruct (n_kind n); cbn in *; split; auto; try small_z. unfold small. cbn. lia.
Qed.
Lemma safe_chdir cwd p : nul ∉ p -> safe (sys_chdir cwd p) (fun _ => True).
Proof.
  intros Hp. apply safe_syscall. intros s Hs.
  pose proof (resolve_node_ok (o_fs s) cwd p true Hp (os_ok_files s Hs)) as H.
  destruct (resolve_node _ _ _ _) as [[pl n]|e]; cbn; [|auto].
  destruct (n_kind n); cbn in *; split; auto; try small_z.
Qed.

Lemma node_ok_insert s pl n : os_ok s -> node_ok n -> os_ok (set_fs (<[pl := n]> (o_fs s)) s).
Proof.
  intros Hs Hn. apply os_ok_fs; [assumption|]. intros pl' n'.
  destruct (decide (pl' = pl)) as [-> |Hne]; [rewrite lookup_insert; congruence|].
  rewrite lookup_insert_ne by congruence. apply (os_ok_files s Hs).
Qed.
Lemma now_ok s : os_ok s -> in_u64 (o_now s).
Proof. intros H. apply H. Qed.
Lemma safe_open_write p : nul ∉ p -> safe (sys_open_write p) (fun _ => True).
Proof.
  intros Hp. apply safe_syscall. intros s Hs.
  pose proof (resolve_ok (o_fs s) (o_cwd s) p true Hp) as H. pose proof (now_ok s Hs) as Hnow.
  destruct (resolve _ _ _ _) as [pl|e]; [|auto].
  destruct (o_fs s !! pl) as [n|] eqn:E.
  - pose proof (os_ok_files s Hs _ _ E) as (Hk & Hm & Hu & Hg & _ & _).
    destruct (n_kind n); cbn; split; auto; try small_z.
    apply node_ok_insert; [assumption|]. unfold node_ok; cbn. split_and!; auto. unfold small; cbn; lia.
  - split; [exact I|]. apply node_ok_insert; [assumption|]. unfold node_ok; cbn.
    assert (id_ok (o_uid s) /\ id_ok (o_gid s)) as [H1 H2] by (split; apply Hs).
    split_and!; auto; [unfold small; cbn; lia|lia|].
    destruct (o_fs s !! parent pl) as [d|] eqn:Ed; [|assumption].
    destruct (negb _); [|assumption]. apply (os_ok_files s Hs _ _ Ed).
Qed.
Lemma ldiff_lt a b k : (a < 2 ^ k)%N -> (N.ldiff a b < 2 ^ k)%N.
Proof.
  intros H. destruct (decide (N.ldiff a b = 0%N)) as [-> |Hz]; [apply N.neq_0_lt_0, N.pow_nonzero; lia|].
  apply N.log2_lt_pow2; [lia|]. destruct (decide (a = 0%N)) as [-> |Ha]; [rewrite N.ldiff_0_l in Hz; congruence|].
  assert (N.log2 a < k)%N by (apply N.log2_lt_pow2; lia).
  apply N.le_lt_trans with (N.log2 a); [|assumption]. apply N.log2_le_mono. apply N.ldiff_le.
  apply N.bits_inj. intros i. rewrite N.ldiff_spec, N.ldiff_spec, N.bits_0. destruct (N.testbit a i), (N.testbit b i); reflexivity.
Qed.
Lemma drop_suid_lt m : (m < 4096)%N -> (drop_suid m < 4096)%N.
Proof.
  intros H. unfold drop_suid. change 4096%N with (2 ^ 12)%N in *.
  destruct (negb _); [apply ldiff_lt|]; apply ldiff_lt; assumption.
Qed.
Lemma safe_write pl c : small c -> safe (sys_write pl c) (fun _ => True).
Proof.
  intros Hc s Hs.
  assert (Hput : forall b s, os_ok s -> small b -> os_ok (match o_fs s !! pl with
               | Some n =>
                   match n_kind n with
                   | KFile _ =>
                       let mode := if (o_uid s =? 0)%N then n_mode n else match b with [] => n_mode n | _ => drop_suid (n_mode n) end in
                       set_fs (<[pl := Node (KFile b) mode (n_uid n) (n_gid n) (o_now s) (o_now s)]> (o_fs s)) s
                   | _ => s
                   end
               | None => s
               end)).
  { clear. intros b s Hs Hb. destruct (o_fs s !! pl) as [n|] eqn:E; [|assumption].
    pose proof (os_ok_files s Hs _ _ E) as (Hk & Hm & Hu & Hg & _ & _). pose proof (now_ok s Hs) as Hnow.
    destruct (n_kind n); try assumption. apply node_ok_insert; [assumption|]. unfold node_ok; cbn. split_and!; auto.
    destruct (_ =? _)%N; [assumption|]. destruct b; [assumption|]. apply drop_suid_lt; assumption. }
  unfold sys_write, next_fault. assert (F : Forall fault_ok (o_faults s)) by apply Hs.
  destruct (o_faults s) as [|[|n k] fl].
  - split; [exact I|]. apply Hput; assumption.
  - apply Forall_cons in F as [_ F]. split; [exact I|]. apply Hput; [apply os_ok_faults; assumption|assumption].
  - apply Forall_cons in F as [F1 F]. split; [apply oserr_ok_n; assumption|].
    apply Hput; [apply os_ok_faults; assumption|]. unfold small in *. rewrite take_length. lia.
Qed.
Lemma safe_chmod p m : nul ∉ p -> c_int m -> safe (sys_chmod p m) (fun _ => True).
Proof.
  intros Hp Hm. unfold sys_chmod, c_int in *. destruct (_ || _)%bool eqn:E; [lia|]. apply safe_syscall. intros s Hs.
  pose proof (resolve_node_ok (o_fs s) (o_cwd s) p true Hp (os_ok_files s Hs)) as H. pose proof (now_ok s Hs) as Hnow.
  destruct (resolve_node _ _ _ _) as [[pl n]|e]; [|auto]. split; [exact I|].
  apply node_ok_insert; [assumption|]. destruct H as (Hk & Hm' & Hu & Hg & Ht & _). unfold node_ok; cbn. split_and!; auto.
  assert (0 <= m mod 4096 < 4096)%Z by (apply Z.mod_pos_bound; lia). lia.
Qed.
Lemma safe_chown p u g : nul ∉ p -> id_ok u -> id_ok g -> safe (sys_chown p u g) (fun _ => True).
Proof.
  intros Hp Hu Hg. apply safe_syscall. intros s Hs.
  pose proof (resolve_node_ok (o_fs s) (o_cwd s) p true Hp (os_ok_files s Hs)) as H. pose proof (now_ok s Hs) as Hnow.
  destruct (resolve_node _ _ _ _) as [[pl n]|e]; [|auto]. split; [exact I|].
  apply node_ok_insert; [assumption|]. destruct H as (Hk & Hm' & _ & _ & Ht & _). unfold node_ok; cbn. split_and!; auto.
  destruct (n_kind n); try assumption; apply drop_suid_lt; assumption.
Qed.

(** ** Replies *)
Definition reply_ok (r : reply) : Prop := match r with Reply raw p => raw = [] /\ packet_ok p | _ => False end.
Lemma safe_answer p : packet_ok p -> safe (answer p) reply_ok.
Proof. intros H. apply safe_pure. split; [reflexivity|assumption]. Qed.

Lemma packet_ok_invalid f m : (N.of_nat (String.length f) < 2 ^ 32)%N -> str_ok m -> packet_ok (PInvalidField (lit f) m).
Proof. intros H1 H2. split; [apply lit_ok; assumption|assumption]. Qed.

Lemma around_ok a v b : short v -> (N.of_nat (String.length a) < 2 ^ 32)%N -> (N.of_nat (String.length b) < 2 ^ 32)%N -> str_ok (lit a ++ v ++ lit b).
Proof.
  intros [H1 H2] Ha Hb. split.
  - apply text_ok_app; [apply lit_text_ok|]. apply text_ok_app; [assumption|apply lit_text_ok].
  - unfold small. rewrite !app_length, !lit_length. lia.
Qed.

Lemma Err_inj {A} (a b : exn) : (Err a : result A) = Err b -> a = b.
Proof. congruence. Qed.
(** errors of the validation functions *)
Lemma resolve_oct_err v e : resolve_oct v = Err e -> short v -> exists m, e = ValueError m /\ str_ok m.
Proof.
  unfold resolve_oct. destruct (py_int 8 v); [discriminate|]. intros <-%Err_inj Hv. eexists. split; [reflexivity|].
  apply around_ok; [assumption|cbn; lia..].
Qed.
Lemma lit_ok' x : (N.of_nat (String.length x) <? 2 ^ 32)%N = true -> str_ok (lit x).
Proof. intros. apply lit_ok. lia. Qed.
Lemma resolve_user_id_err s v e : resolve_user_id s v = Err e -> short v -> exists m, e = ValueError m /\ str_ok m.
Proof.
  intros H Hv. unfold resolve_user_id in H. cbn in H.
  assert (Hm : str_ok (lit "The user with the name '" ++ v ++ lit "' does not exist.")) by (apply around_ok; [assumption|cbn; lia..]).
  destruct (getpwnam s v) as [a|e1] eqn:E1; [discriminate|].
  unfold getpwnam in E1. destruct (has_char nul v).
  { apply Err_inj in E1 as <-. apply Err_inj in H as <-. eexists. split; [reflexivity|]. apply lit_ok'. reflexivity. }
  destruct (List.find _ _); [discriminate|]. apply Err_inj in E1 as <-.
  destruct (py_int 10 v) as [z|]; cbn in H; [|apply Err_inj in H as <-; eauto].
  destruct (getpwuid s z) as [a|e2] eqn:E2; [discriminate|]. apply getpwuid_err in E2 as [-> _]. apply Err_inj in H as <-. eauto.
Qed.
Lemma resolve_group_id_err s v e : resolve_group_id s v = Err e -> short v -> exists m, e = ValueError m /\ str_ok m.
Proof.
  intros H Hv. unfold resolve_group_id in H. cbn in H.
  assert (Hm : str_ok (lit "The group with the name '" ++ v ++ lit "' does not exist.")) by (apply around_ok; [assumption|cbn; lia..]).
  destruct (getgrnam s v) as [a|e1] eqn:E1; [discriminate|].
  unfold getgrnam in E1. destruct (has_char nul v).
  { apply Err_inj in E1 as <-. apply Err_inj in H as <-. eexists. split; [reflexivity|]. apply lit_ok'. reflexivity. }
  destruct (List.find _ _); [discriminate|]. apply Err_inj in E1 as <-.
  destruct (py_int 10 v) as [z|]; cbn in H; [|apply Err_inj in H as <-; eauto].
  destruct (getgrgid s z) as [a|e2] eqn:E2; [discriminate|]. apply getgrgid_err in E2 as [-> _]. apply Err_inj in H as <-. eauto.
Qed.
(** results of the validation functions *)
Lemma user_ok s a : os_ok s -> a ∈ o_passwd s -> acct_ok a.
Proof. intros (H & _) Ha. eapply Forall_forall in H; eassumption. Qed.
Lemma group_ok s a : os_ok s -> a ∈ o_group s -> grp_ok a.
Proof. intros (_ & H & _) Ha. eapply Forall_forall in H; eassumption. Qed.
Lemma resolve_user_id_in s v u g : resolve_user_id s v = Ok (u, g) -> exists a, denotes_user s v a /\ u = pw_uid a /\ g = pw_gid a.
Proof.
  unfold resolve_user_id. cbn. destruct (getpwnam s v) as [a|e1] eqn:E1; cbn.
  - intros [= <- <-]. apply getpwnam_ok in E1 as [H1 H2]. exists a. split; [|auto]. split; auto.
  - apply getpwnam_err in E1 as [(_ & m & ->)|(_ & -> & Hn)]; [discriminate|].
    destruct (py_int 10 v) as [z|] eqn:Ez; [|discriminate].
    destruct (getpwuid s z) as [a|e2] eqn:E2; cbn; [|apply getpwuid_err in E2 as [-> _]; discriminate].
    intros [= <- <-]. apply getpwuid_ok in E2 as [H1 ->]. exists a. split; [|auto]. split; auto.
Qed.
Lemma resolve_group_id_in s v g : resolve_group_id s v = Ok g -> exists a, denotes_group s v a /\ g = gr_gid a.
Proof.
  unfold resolve_group_id. cbn. destruct (getgrnam s v) as [a|e1] eqn:E1; cbn.
  - intros [= <-]. apply getgrnam_ok in E1 as [H1 H2]. exists a. split; [|auto]. split; auto.
  - apply getgrnam_err in E1 as [(_ & m & ->)|(_ & -> & Hn)]; [discriminate|].
    destruct (py_int 10 v) as [z|] eqn:Ez; [|discriminate].
    destruct (getgrgid s z) as [a|e2] eqn:E2; cbn; [|apply getgrgid_err in E2 as [-> _]; discriminate].
    intros [= <-]. apply getgrgid_ok in E2 as [H1 ->]. exists a. split; [|auto]. split; auto.
Qed.

Lemma safe_validated_opt {A} (f : string) o (g : os -> pystr -> result A) k (P : A -> Prop) :
  (N.of_nat (String.length f) < 2 ^ 32)%N -> opt_ok short o ->
  (forall s v e, g s v = Err e -> short v -> exists m, e = ValueError m /\ str_ok m) ->
  (forall s v a, os_ok s -> o = Some v -> g s v = Ok a -> P a) ->
  (forall oa, (opt_ok P oa) -> safe (k oa) reply_ok) ->
  safe (validated_opt f o g k) reply_ok.
Proof.
  intros Hf Ho Hg Hp Hk. destruct o as [v|]; cbn [validated_opt]; [|apply Hk; exact I].
  intros s Hs. unfold validated. destruct (g s v) as [a|e] eqn:E.
  - apply Hk; [|assumption]. cbn. eapply Hp; eauto.
  - destruct (Hg s v e E Ho) as (m & -> & Hm). apply safe_answer; [apply packet_ok_invalid; assumption|assumption].
Qed.

Section safety.
  Variable exec : proc -> M xres.
  Variable sha512 : bytes -> bytes.
  Hypothesis Hexec : exec_ok exec.
  Hypothesis Hhash : hash_ok sha512.

  Lemma set_id_in_child b s e s' : set_id b s = (Err e, s') -> True. Proof. auto. Qed.

  (** what happens in the child is reported as an error packet *)
  Lemma in_child_ok {A} (m : M A) s : (forall s', os_ok s -> (m s).2 = s' -> os_ok s') -> os_ok s ->
    match in_child m s with
    | (Ok a, s') => os_ok s'
    | (Err e, s') => e = SubprocessError (lit "Exception occurred in preexec_fn.") /\ os_ok s'
    end.
  Proof.
    intros H Hs. unfold in_child. specialize (H (m s).2 Hs eq_refl). destruct (m s) as [[a|e] s']; cbn in H; auto.
  Qed.
  Definition keeps {A} (m : M A) : Prop := forall s, os_ok s -> os_ok (m s).2.
  Lemma keeps_bind {A B} (m : M A) (f : A -> M B) : keeps m -> (forall a, keeps (f a)) -> keeps (m ≫= f).
  Proof.
    intros H1 H2 s Hs. specialize (H1 s Hs). cbv [mbind M_bind bindM]. destruct (m s) as [[a|e] s1]; cbn in *; [|assumption].
    apply H2; assumption.
  Qed.
  Lemma keeps_syscall {A} (m : M A) : keeps m -> keeps (syscall m).
  Proof.
    intros H s Hs. unfold syscall, next_fault. assert (F : Forall fault_ok (o_faults s)) by apply Hs.
    destruct (o_faults s) as [|[|n k] fl]; [apply H; assumption| |]; apply Forall_cons in F as [_ F]; cbn;
      [apply H|]; apply os_ok_faults; assumption.
  Qed.
  Lemma keeps_chdir cwd p : keeps (sys_chdir cwd p).
  Proof.
    apply keeps_syscall. intros s Hs. cbn. assumption.
  Qed.
  Lemma keeps_set_id b : keeps (set_id b).
  Proof. apply keeps_syscall. intros s Hs. assumption. Qed.
  Lemma keeps_pure {A} (a : A) : keeps (pure a).
  Proof. intros s Hs. assumption. Qed.
  Lemma keeps_raise {A} e : keeps (raise e : M A).
  Proof. intros s Hs. assumption. Qed.
  Lemma keeps_preexec argv stdin umask uid gid cwd cwd1 : keeps (preexec argv stdin umask uid gid cwd cwd1).
  Proof.
    unfold preexec. apply keeps_bind; [intros s Hs; assumption|intros s0].
    apply keeps_bind; [destruct (_ || _)%bool; [apply keeps_raise|apply keeps_pure]|intros _].
    apply keeps_bind; [destruct gid; [apply keeps_set_id|apply keeps_pure]|intros _].
    apply keeps_bind; [destruct uid; [apply keeps_set_id|apply keeps_pure]|intros _].
    apply keeps_bind; [destruct cwd; [apply keeps_chdir|apply keeps_pure]|intros ?]. apply keeps_pure.
  Qed.

  Definition xres_ok (r : xres) : Prop := match r with XExit rc out err => in_i32 rc /\ small out /\ small err | _ => False end.
  Lemma spawn_ok argv stdin umask uid gid cwd s : os_ok s -> argv <> [] -> Forall c_string argv -> opt_ok (fun p => nul ∉ p) cwd ->
    match spawn exec argv stdin umask uid gid cwd s with
    | (Ok r, s') => xres_ok r /\ os_ok s'
    | (Err (SubprocessError m), s') => str_ok m /\ os_ok s'
    | (Err e, s') => oserr_ok e /\ os_ok s'
    end.
  Proof.
    intros Hs Ha Hargv Hcwd. unfold spawn. rewrite (bind_ok _ _ s s s) by reflexivity.
    destruct argv as [|a0 argv0]; [congruence|]. set (argv := a0 :: argv0) in *.
    destruct (existsb _ argv) eqn:E.
    { apply existsb_exists in E as (x & Hx & Hn). destruct (has_char_spec nul x) as [H|]; [|discriminate].
      eapply Forall_forall in Hargv; [|apply elem_of_list_In; exact Hx]. destruct Hargv. contradiction. }
    set (cd := match cwd with None => pure (o_cwd s) | Some p => sys_chdir (o_cwd s) p end).
    assert (Hcd : safe cd (fun _ => True)).
    { subst cd. destruct cwd; [apply safe_chdir; assumption|apply safe_pure; exact I]. }
    specialize (Hcd s Hs). destruct (cd s) as [[cwd1|e] s1] eqn:E1.
    2:{ rewrite (bind_err _ _ s e s1) by exact E1. destruct Hcd as [He Hs1]. destruct e; try contradiction. auto. }
    rewrite (bind_ok _ _ s cwd1 s1) by exact E1. destruct Hcd as [_ Hs1].
    assert (Hc := in_child_ok (preexec argv stdin umask uid gid cwd cwd1) s1).
    assert (Hk : forall s', os_ok s1 -> (preexec argv stdin umask uid gid cwd cwd1 s1).2 = s' -> os_ok s').
    { intros s' _ <-. apply keeps_preexec; assumption. }
    specialize (Hc Hk Hs1). destruct (in_child _ s1) as [[p|e] s2] eqn:E2.
    2:{ rewrite (bind_err _ _ s1 e s2) by exact E2. destruct Hc as [-> Hs2]. split; [apply lit_ok'; reflexivity|assumption]. }
    rewrite (bind_ok _ _ s1 p s2) by exact E2.
    specialize (Hexec p s2 Hc). destruct (exec p s2) as [[r|e] s3] eqn:E3; [|contradiction].
    rewrite (bind_ok _ _ s2 r s3) by exact E3. destruct r as [rc out err|e|]; try contradiction; cbn.
    - destruct Hexec as (H1 & H2 & H3 & H4). auto.
    - destruct e; try contradiction. destruct Hexec as (H1 & H2 & H3 & H4). cbn. auto.
  Qed.

  Lemma handle_run_ok c i u g m w : tame (PProcessRun c i true u g m w) -> safe (handle_run exec c i true u g m w) reply_ok.
  Proof.
    intros (Hc & Hsc & Hargv & Hi & _ & Hu & Hg & Hm & Hw). unfold handle_run.
    apply safe_validated_opt with (P := fun _ => True); [cbn; lia|assumption|intros; eapply resolve_oct_err; eauto|auto|intros om _].
    apply safe_validated_opt with (P := fun _ => True); [cbn; lia|assumption|intros; eapply resolve_user_id_err; eauto|auto|intros ou _].
    apply safe_validated_opt with (P := fun _ => True); [cbn; lia|assumption|intros; eapply resolve_group_id_err; eauto|auto|intros og _].
    apply safe_bind with (P := fun bad : bool => bad = false -> opt_ok (fun p => nul ∉ p) w).
    { destruct w as [p|]; [|apply safe_pure; intros _; exact I].
      intros s Hs. pose proof (safe_isdir p s Hs) as H. cbv [mbind M_bind bindM].
      destruct (sys_isdir p s) as [[b|e] s'] eqn:E; [|assumption]. split; [|apply H].
      intros Hb. cbn. destruct b; [|discriminate]. intros Hin.
      unfold sys_isdir, sys_stat in E. destruct (syscall _ s) as [[n|e] s2] eqn:E2; [|congruence].
      apply syscall_inv in E2 as (s0 & _ & [(? & [=] & _)|E2]).
      injection E2 as E2 _. destruct (resolve_node (o_fs s0) (o_cwd s0) p true) as [[pl n']|] eqn:E3; [|discriminate].
      apply resolve_node_names in E3 as [? _]. contradiction. }
    intros bad Hbad. destruct bad.
    { apply safe_answer, packet_ok_invalid; [cbn; lia|apply lit_ok'; reflexivity]. }
    intros s Hs. pose proof (spawn_ok c i (default 63%Z om) (fst <$> ou) (match og with Some g => Some g | None => snd <$> ou end) w s Hs Hc Hargv (Hbad eq_refl)) as H.
    destruct (spawn _ _ _ _ _ _ _ s) as [[r|e] s'].
    - destruct H as [Hr Hs']. destruct r; try contradiction. destruct Hr as (H1 & H2 & H3). cbn. auto.
    - destruct e; try (destruct H; contradiction); destruct H as [He Hs'].
      + auto.
      + apply safe_answer; [assumption|assumption].
  Qed.

  Lemma owner_ok s uid : os_ok s -> id_ok uid -> str_ok (match getpwuid s (Z.of_N uid) with Ok pw => pw_name pw | Err _ => str_of_N uid end).
  Proof.
    intros Hs Hu. destruct (getpwuid s (Z.of_N uid)) as [a|e] eqn:E; [|apply str_of_N_ok; assumption].
    apply getpwuid_ok in E as [E _]. apply (user_ok s a Hs E).
  Qed.
  Lemma grp_name_ok s gid : os_ok s -> id_ok gid -> str_ok (match getgrgid s (Z.of_N gid) with Ok pw => gr_name pw | Err _ => str_of_N gid end).
  Proof.
    intros Hs Hu. destruct (getgrgid s (Z.of_N gid)) as [a|e] eqn:E; [|apply str_of_N_ok; assumption].
    apply getgrgid_ok in E as [E _]. apply (group_ok s a Hs E).
  Qed.
  Lemma other_ok t : t ∈ other_types -> str_ok t.
  Proof. intros H. apply elem_of_list_In in H. cbn in H. destruct H as [<-|[<-|[<-|[<-|[<-|[]]]]]]; apply lit_ok'; reflexivity. Qed.
  Lemma type_ok n : node_ok n -> str_ok (node_type n).
  Proof.
    intros [Hk _]. unfold node_type. destruct (n_kind n); try (apply lit_ok'; reflexivity). apply other_ok. exact Hk.
  Qed.
  Lemma size_ok n : node_ok n -> in_u64 (node_size n).
  Proof.
    intros [Hk _]. unfold node_size, in_u64. destruct (n_kind n) as [b| |t|t]; cbn in Hk; try lia.
    - unfold small in Hk. lia.
    - destruct Hk as [_ Hl]. destruct (utf8_encode_esc t) as [b|] eqn:E; [|cbn; lia].
      apply encode_esc_length in E. cbn. lia.
  Qed.

  Lemma handle_stat_ok p f h : c_string p -> safe (handle_stat sha512 p f h) reply_ok.
  Proof.
    intros [_ Hp] s Hs. unfold handle_stat. pose proof (safe_stat p f Hp s Hs) as H.
    destruct (sys_stat p f s) as [[n|e] s'].
    2:{ destruct H as [He Hs']. destruct e; try contradiction. destruct (_ =? _)%Z; [|auto].
        destruct He as (_ & _ & Hb). apply safe_answer; [apply packet_ok_invalid; [cbn; lia|assumption]|assumption]. }
    destruct H as [Hn Hs']. pose proof (type_ok n Hn) as Ht. pose proof (size_ok n Hn) as Hsz.
    destruct Hn as (Hk & Hmo & Hu & Hg & Hmt & Hct).
    pose proof (owner_ok s' _ Hs' Hu) as Ho. pose proof (grp_name_ok s' _ Hs' Hg) as Hgr.
    assert (Hmode : in_u64 (Z.of_N (n_mode n))) by (unfold in_u64; lia).
    set (owner := match getpwuid _ _ with Ok _ => _ | Err _ => _ end) in *.
    set (group := match getgrgid _ _ with Ok _ => _ | Err _ => _ end) in *.
    assert (Hpk : forall hh, opt_ok small hh -> packet_ok (PStatResult (node_type n) (Z.of_N (n_mode n)) owner group (node_size n) (n_mtime n) (n_ctime n) hh)).
    { intros hh Hhh. cbn. tauto. }
    destruct (_ && _).
    - apply (safe_bind (sys_read p) (fun c => answer _) (fun b => small b) reply_ok); [apply safe_read; assumption| |assumption].
      intros c Hc. apply safe_answer, Hpk. apply Hhash.
    - apply safe_answer; [apply Hpk; exact I|assumption].
  Qed.

  Lemma lookup_user_ok s u : os_ok s -> nul ∉ u -> exists o, lookup_user s u = Ok o /\ forall a, o = Some a -> denotes_user s u a /\ acct_ok a.
  Proof.
    intros Hs Hu. unfold lookup_user. destruct (getpwnam s u) as [a|e] eqn:E.
    - eexists. split; [reflexivity|]. intros a' [= <-]. apply getpwnam_ok in E as [E1 E2].
      split; [split; auto|eapply user_ok; eauto].
    - apply getpwnam_err in E as [[? _]|(_ & -> & Hno)]; [contradiction|].
      destruct (py_int 10 u) as [z|] eqn:Ez; [|eexists; split; [reflexivity|discriminate]].
      destruct (getpwuid s z) as [a|e] eqn:E; (eexists; split; [reflexivity|]); [|discriminate].
      intros a' [= <-]. apply getpwuid_ok in E as [E1 ->]. split; [split; auto|eapply user_ok; eauto].
  Qed.
  Lemma lookup_group_ok s u : os_ok s -> nul ∉ u -> exists o, lookup_group s u = Ok o /\ forall a, o = Some a -> denotes_group s u a /\ grp_ok a.
  Proof.
    intros Hs Hu. unfold lookup_group. destruct (getgrnam s u) as [a|e] eqn:E.
    - eexists. split; [reflexivity|]. intros a' [= <-]. apply getgrnam_ok in E as [E1 E2].
      split; [split; auto|eapply group_ok; eauto].
    - apply getgrnam_err in E as [[? _]|(_ & -> & Hno)]; [contradiction|].
      destruct (py_int 10 u) as [z|] eqn:Ez; [|eexists; split; [reflexivity|discriminate]].
      destruct (getgrgid s z) as [a|e] eqn:E; (eexists; split; [reflexivity|]); [|discriminate].
      intros a' [= <-]. apply getgrgid_ok in E as [E1 ->]. split; [split; auto|eapply group_ok; eauto].
  Qed.
  Lemma digits_no_nul fuel b n acc : nul ∉ acc -> nul ∉ to_digits fuel b n acc.
  Proof.
    revert n acc. induction fuel as [|f IH]; intros n acc H; cbn [to_digits]; [assumption|].
    assert (nul ∉ (48 + n mod b)%N :: acc). { apply not_elem_of_cons. split; [unfold nul; lia|assumption]. }
    destruct (_ <? _)%N; auto.
  Qed.
  Lemma str_of_N_no_nul n : nul ∉ str_of_N n.
  Proof. apply digits_no_nul. apply not_elem_of_nil. Qed.

  Lemma handle_resolve_user_ok u : opt_ok c_string u -> safe (handle_resolve_user u) reply_ok.
  Proof.
    intros Hu. unfold handle_resolve_user. apply safe_getM. intros s Hs. 
    set (x := match u with Some u => u | None => str_of_N (o_uid s) end).
    assert (Hx : nul ∉ x). { subst x. destruct u; [apply Hu|apply str_of_N_no_nul]. }
    destruct (lookup_user_ok s x Hs Hx) as (o & E & Ho). cbv [mbind M_bind bindM lift]. rewrite E.
    destruct o as [a|]; apply safe_answer; try assumption; cbn.
    - destruct (Ho a eq_refl) as [_ Ha]. apply Ha.
    - split; apply lit_ok'; reflexivity.
  Qed.
  Lemma handle_resolve_group_ok u : opt_ok c_string u -> safe (handle_resolve_group u) reply_ok.
  Proof.
    intros Hu. unfold handle_resolve_group. apply safe_getM. intros s Hs. 
    set (x := match u with Some u => u | None => str_of_N (o_gid s) end).
    assert (Hx : nul ∉ x). { subst x. destruct u; [apply Hu|apply str_of_N_no_nul]. }
    destruct (lookup_group_ok s x Hs Hx) as (o & E & Ho). cbv [mbind M_bind bindM lift]. rewrite E.
    destruct o as [a|]; apply safe_answer; try assumption; cbn.
    - destruct (Ho a eq_refl) as [_ Ha]. apply Ha.
    - split; apply lit_ok'; reflexivity.
  Qed.
  Lemma handle_query_group_ok u : c_string u -> safe (handle_query_group u) reply_ok.
  Proof.
    intros [_ Hx]. unfold handle_query_group. apply safe_getM. intros s Hs. 
    destruct (lookup_group_ok s u Hs Hx) as (o & E & Ho). cbv [mbind M_bind bindM lift]. rewrite E.
    destruct o as [a|]; apply safe_answer; try assumption; cbn.
    - destruct (Ho a eq_refl) as [_ (H1 & H2 & H3 & H4)]. unfold id_ok in H2. unfold in_i64. split_and!; auto; lia.
    - split; apply lit_ok'; reflexivity.
  Qed.
  Lemma filter_small {A} (f : A -> bool) l : small l -> small (List.filter f l).
  Proof.
    unfold small. intros H. assert (length (List.filter f l) <= length l)%nat; [|lia].
    clear. induction l as [|x l IH]; cbn; [lia|]. destruct (f x); cbn; lia.
  Qed.
  Lemma dget_in {V} k (d : list (pystr * V)) v : dget k d = Some v -> exists k', (k', v) ∈ d.
  Proof.
    induction d as [|[k' v'] d IH]; cbn; [discriminate|]. destruct (str_eqb k k').
    - intros [= <-]. exists k'. left.
    - intros H. destruct (IH H) as [k2 Hk]. exists k2. right. assumption.
  Qed.
  Lemma handle_query_user_ok u h : c_string u -> safe (handle_query_user u h) reply_ok.
  Proof.
    intros [_ Hx]. unfold handle_query_user. apply safe_getM. intros s Hs. 
    destruct (lookup_user_ok s u Hs Hx) as (o & E & Ho). cbv [mbind M_bind bindM lift]. rewrite E.
    destruct o as [a|]; [|apply safe_answer; [split; apply lit_ok'; reflexivity|assumption]].
    destruct (Ho a eq_refl) as [_ (H1 & H2 & H3 & H4 & H5 & H6)].
    assert (K : forall hh, opt_ok str_ok hh -> safe (match getgrgid s (Z.of_N (pw_gid a)) with
          | Ok g => answer (PUserEntry (pw_name a) (Z.of_N (pw_uid a)) (gr_name g) (Z.of_N (pw_gid a))
               (List.map gr_name (List.filter (fun g => str_in (pw_name a) (gr_mem g)) (o_group s))) hh
                              (pw_gecos a) (pw_dir a) (pw_shell a))
          | Err _ => answer (PInvalidField (lit "user") (lit "The user's primary group doesn't exist"))
          end) reply_ok).
    { intros hh Hhh. destruct (getgrgid s _) as [g|] eqn:Eg; apply safe_answer; [|split; apply lit_ok'; reflexivity].
      apply getgrgid_ok in Eg as [Eg _]. pose proof (group_ok s g Hs Eg) as (Hg & _).
      unfold id_ok in H2, H3. cbn. unfold in_i64. split_and!; auto; try lia.
      - unfold small. rewrite map_length. apply filter_small. apply Hs.
      - apply Forall_forall. intros x Hxin. apply elem_of_list_In, in_map_iff in Hxin as (g' & <- & Hg').
        apply filter_In in Hg' as [Hg' _]. apply elem_of_list_In in Hg'. apply (group_ok s g' Hs Hg'). }
    destruct h; [|apply K; [exact I|assumption]].
    unfold getspnam. destruct (_ =? _)%N.
    - destruct (dget (pw_name a) (o_shadow s)) as [hash|] eqn:Eh; unfold Base.from_option.
      + apply K; [|assumption]. cbn. apply dget_in in Eh as [k Hk].
        assert (F : Forall (fun e => str_ok (snd e)) (o_shadow s)) by apply Hs.
        eapply Forall_forall in F; [|exact Hk]. exact F.
      + apply safe_answer; [split; apply lit_ok'; reflexivity|assumption].
    - split; [|assumption]. small_z.
  Qed.
  Lemma handle_getenv_ok k : safe (handle_getenv k) reply_ok.
  Proof.
    unfold handle_getenv. apply safe_getM. intros s Hs. apply safe_answer; [|assumption]. cbn.
    destruct (dget k (o_env s)) as [v|] eqn:E; [|exact I]. cbn. apply dget_in in E as [k' Hk].
    assert (F : Forall (fun e => str_ok (snd e)) (o_env s)) by apply Hs.
    eapply Forall_forall in F; [|exact Hk]. exact F.
  Qed.
  Lemma handle_download_ok p : c_string p -> safe (handle_download p) reply_ok.
  Proof.
    intros [_ Hp] s Hs. unfold handle_download. pose proof (safe_read p Hp s Hs) as H.
    destruct (sys_read p s) as [[n|e] s'].
    - destruct H as [H Hs']. apply safe_answer; assumption.
    - destruct H as [He Hs']. destruct e; try contradiction. destruct (_ =? _)%Z; [|auto].
      destruct He as (_ & _ & Hb). apply safe_answer; [apply packet_ok_invalid; [cbn; lia|assumption]|assumption].
  Qed.
  Lemma handle_upload_ok f c m o g : tame (PUpload f c m o g) -> safe (handle_upload f c m o g) reply_ok.
  Proof.
    intros ([Hsf Hf] & Hc & Hm & Hmr & Ho & Hg). unfold handle_upload.
    apply safe_validated_opt with (P := c_int); [cbn; lia|assumption|intros; eapply resolve_oct_err; eauto| |intros om Hom].
    { intros s v a _ -> E. unfold resolve_oct in E. destruct (py_int 8 v) eqn:Ev; [|discriminate]. injection E as <-. apply Hmr. exact Ev. }
    apply safe_validated_opt with (P := fun p => id_ok (fst p) /\ id_ok (snd p)); [cbn; lia|assumption|intros; eapply resolve_user_id_err; eauto| |intros ou Hou].
    { intros s v [u' g'] Hs _ E. apply resolve_user_id_in in E as (a & [Ha _] & -> & ->).
      pose proof (user_ok s a Hs Ha) as (_ & H1 & H2 & _). auto. }
    apply safe_validated_opt with (P := id_ok); [cbn; lia|assumption|intros; eapply resolve_group_id_err; eauto| |intros og Hog].
    { intros s v g' Hs _ E. apply resolve_group_id_in in E as (a & [Ha _] & ->). pose proof (group_ok s a Hs Ha) as (_ & H1 & _). auto. }
    apply safe_bind with (P := fun _ => True); [apply safe_open_write; assumption|intros pl _].
    apply safe_bind with (P := fun _ => True); [apply safe_write; assumption|intros _ _].
    apply safe_bind with (P := fun _ => True).
    { destruct om; [apply safe_chmod; assumption|apply safe_pure; exact I]. }
    intros _ _. apply safe_bind with (P := fun _ => True); [|intros _ _; apply safe_answer; exact I].
    assert (H0 : id_ok 0) by (unfold id_ok; lia).
    assert (Hchown : forall u g', opt_ok id_ok u -> opt_ok id_ok g' -> safe (sys_chown f (default 0%N u) (default 0%N g')) (fun _ => True)).
    { intros u g' H1 H2. apply safe_chown; [assumption| |]; [destruct u|destruct g']; assumption. }
    destruct ou as [[u' g']|]; cbn [fmap option_fmap option_map fst snd].
    - apply Hchown; [apply Hou|]. destruct og; [apply Hog|apply Hou].
    - destruct og as [g'|]; [apply Hchown; [exact I|apply Hog]|apply safe_pure; exact I].
  Qed.

  Lemma handle_tame q : tame q -> safe (handle exec sha512 q) reply_ok.
  Proof.
    destruct q; cbn [tame handle]; try tauto.
    - intros _. apply safe_answer. exact I.
    - intros H. assert (capture_output = true) as -> by apply H. apply handle_run_ok; assumption.
    - apply handle_stat_ok.
    - apply handle_resolve_user_ok.
    - apply handle_resolve_group_ok.
    - apply handle_upload_ok.
    - apply handle_download_ok.
    - apply handle_query_user_ok.
    - apply handle_query_group_ok.
    - intros _. apply handle_getenv_ok.
  Qed.

  Lemma tame_ok q : tame q -> packet_ok q.
  Proof.
    assert (S : forall o, opt_ok short o -> opt_ok str_ok o) by (intros []; cbn; auto using short_ok).
    assert (C : forall o, opt_ok c_string o -> opt_ok str_ok o) by (intros []; cbn; [intros []; auto using short_ok|auto]).
    assert (C1 : forall x, c_string x -> str_ok x) by (intros x []; auto using short_ok).
    destruct q; cbn [tame packet_ok]; try tauto; auto.
    - intros (_ & H1 & H2 & H3 & _ & H4 & H5 & H6 & H7). split_and!; auto. eapply Forall_impl; [exact H2|auto].
    - intros (H1 & H2 & H3 & _ & H4 & H5). split_and!; auto.
    - intros H. apply short_ok. assumption.
  Qed.
  Lemma tame_good q : tame q -> good_request q.
  Proof.
    intros H. split_and!.
    - destruct q; cbn in *; auto.
    - destruct q; cbn in *; auto. apply H.
    - apply packet_ok_write, tame_ok. assumption.
  Qed.

  Lemma received_answered q r x : received_as (Some q) r x -> answered x.
  Proof. destruct 1; exact I. Qed.
  Lemma call_tame s q x a' s' : os_ok s -> tame q -> call exec sha512 true s q x a' s' -> a' = true /\ os_ok s' /\ answered x.
  Proof.
    intros Hs Hq Hc. pose proof (handle_tame q Hq s Hs) as H.
    inversion Hc as [? ? r ? ? Hh Henc Hr|? ? n a b ? Hh Henc|? ? r ? Hh Henc|? ? n a b ? Hh Henc|? ? ? Hh|? ? e ? Hh Hno|? ? ? Hh|]; subst;
      rewrite Hh in H.
    - split_and!; [reflexivity|apply H|eapply received_answered; exact Hr].
    - split_and!; [reflexivity|apply H|exact I].
    - destruct H as [[_ H] _]. destruct Henc. apply packet_ok_write. assumption.
    - destruct H as [H _]. destruct Henc. apply packet_ok_write. exact H.
    - destruct H as [[] _].
    - destruct H as [H _]. destruct e; try contradiction. edestruct Hno; reflexivity.
    - destruct H as [[] _].
  Qed.
  Lemma calls_tame qs : forall s xs a' s', os_ok s -> Forall tame qs -> calls exec sha512 true s qs xs a' s' ->
    a' = true /\ os_ok s' /\ Forall answered xs.
  Proof.
    induction qs as [|q qs IH]; intros s xs a' s' Hs Hq Hc; inversion Hc; subst; [auto|].
    apply Forall_cons in Hq as [Hq Hqs].
    match goal with H : call _ _ _ _ _ _ _ _ |- _ => destruct (call_tame _ _ _ _ _ Hs Hq H) as (-> & Hs1 & Hx) end.
    match goal with H : calls _ _ _ _ _ _ _ _ |- _ => destruct (IH _ _ _ _ Hs1 Hqs H) as (-> & Hs2 & Hxs) end.
    auto.
  Qed.
End safety.
