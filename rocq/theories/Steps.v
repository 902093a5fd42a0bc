(** Settings and single steps of file operations. *)
From Coq Require Import Lia ZifyBool ZifyN ZifyNat.
From stdpp Require Import gmap.
From Verif Require Import Base Utf8 Dict_proofs Digits Codec Spec_Codec Codec_proofs Codec_proofs2 Paths Sys Spec_Sys Sys_proofs Dispatcher Client Spec_Session Session_proofs Spec_Remote
  Remote_safe Remote_proofs Remote_upload Remote_run Direct Control Spec_Control Control_proofs Control_settle Quiet Thrift Op Files Coreutils Walk_proofs Spec_Files Shell_proofs Files_plain.
Local Open Scope nat_scope.

(** ** Modes *)
Lemma gnu_value t v : gnu_mode t = Some v -> py_int 8 t = Some (Z.of_N v) /\ (v < 4096)%N /\ t <> [] /\ Forall (fun d => (48 <= d < 56)%N) t.
Proof.
  unfold gnu_mode. destruct t as [|d t]; [discriminate|]. cbn [orb]. destruct (forallb _ (d :: t)) eqn:Ef; cbn [negb]; [|discriminate].
  rewrite forallb_forall in Ef. assert (Hd : Forall (fun d => (48 <= d < 56)%N) (d :: t)).
  { apply Forall_forall. intros x Hx. apply elem_of_list_In in Hx. specialize (Ef x Hx). cbn beta in Ef. lia. }
  cbv zeta. destruct (_ <? 4096)%N eqn:El; [|discriminate]. intros [= <-]. split_and!; [|apply N.ltb_lt; exact El|discriminate|exact Hd].
  rewrite py_int_digits; [reflexivity|auto| |discriminate].
  eapply Forall_impl; [exact Hd|]. intros x Hx. unfold is_digit; cbn beta in *; lia.
Qed.
Lemma gnu_octal t z : t <> [] -> Forall (fun d => (48 <= d < 56)%N) t -> py_int 8 t = Some (Z.of_N z) -> (z < 4096)%N -> gnu_mode t = Some z.
Proof.
  intros Hne Hd Hv Hz. unfold gnu_mode. destruct t as [|d t]; [contradiction|]. cbn [orb].
  assert (Ef : forallb (fun c => (48 <=? c) && (c <? 56))%N (d :: t) = true).
  { apply forallb_forall. intros x Hx. rewrite Forall_forall in Hd. apply elem_of_list_In in Hx. specialize (Hd x Hx). cbn in Hd. lia. }
  rewrite Ef. cbn [negb]. cbv zeta. rewrite py_int_digits in Hv; [|auto| |discriminate].
  2:{ eapply Forall_impl; [exact Hd|]. intros x Hx. unfold is_digit; cbn beta in *; lia. }
  assert (Hv' : fold_left (fun a d => a * 8 + (d - 48))%N (d :: t) 0%N = z).
  { apply N2Z.inj. apply (f_equal (default 0%Z)) in Hv. exact Hv. }
  rewrite Hv'. destruct (z <? 4096)%N eqn:E; [reflexivity|lia].
Qed.
Lemma oct_tail_show n : oct_tail (Z.of_N n) = show_N 8 n.
Proof. destruct n; reflexivity. Qed.
Lemma oct_tail_value n : py_int 8 (oct_tail (Z.of_N n)) = Some (Z.of_N n).
Proof. rewrite oct_tail_show. apply py_int_show. auto. Qed.

(** short canonical texts *)
Lemma digits_value_ge l : Forall (fun d => (48 <= d < 56)%N) l -> forall a, (a * 8 ^ N.of_nat (length l) <= fold_left (fun a d => a * 8 + (d - 48)) l a)%N.
Proof.
  induction 1 as [|d l Hd _ IH]; intros a; cbn [fold_left length]; [lia|].
  rewrite Nat2N.inj_succ, N.pow_succ_r by lia. etrans; [|apply IH]. rewrite N.mul_assoc. apply N.mul_le_mono_r. lia.
Qed.
Lemma octal_short n t : octal_text n t -> (n < 4096)%N -> c_string t.
Proof.
  intros (Hv & Hd & Hl & Hne) Hn.
  assert (Hlen : length t <= 4).
  { rewrite py_int_digits in Hv; [|auto|eapply Forall_impl; [exact Hd|intros x Hx; unfold is_digit; cbn beta in *; lia]|exact Hne].
    apply (f_equal (default 0%Z)) in Hv. cbn [default id] in Hv. apply N2Z.inj in Hv. unfold Digits.value in Hv. destruct t as [|d [|e r]]; cbn [length]; try lia.
    cbn [fold_left] in Hv. inversion Hd as [|? ? Hd1 Hd2]; subst. assert (H := digits_value_ge _ Hd2 (0 * 8 + (d - 48))%N). cbn [fold_left] in H.
    destruct (decide (length r < 3)) as [|Hge]; [lia|]. exfalso.
    assert (H8 : (8 ^ 4 <= 8 ^ N.of_nat (length (e :: r)))%N) by (apply N.pow_le_mono_r; cbn [length]; lia).
    change (8 ^ 4)%N with 4096%N in H8. assert (1 <= 0 * 8 + (d - 48))%N by lia. nia. }
  split.
  - split.
    + unfold text_ok. eapply Forall_impl; [exact Hd|]. intros x Hx. cbn beta in *. lia.
    + change (2 ^ 63)%N with 9223372036854775808%N. lia.
  - intros H. rewrite Forall_forall in Hd. apply Hd in H. unfold nul in H. lia.
Qed.

(** ** Accounts *)
Lemma find_unique {A} (key : A -> pystr) l x : NoDup (key <$> l) -> x ∈ l -> List.find (fun a => str_eqb (key a) (key x)) l = Some x.
Proof.
  induction l as [|y l IH]; intros Hnd Hx; [inversion Hx|]. cbn in *. apply NoDup_cons in Hnd as [Hnot Hnd].
  destruct (str_eqb_spec (key y) (key x)) as [E|E].
  - apply elem_of_cons in Hx as [-> |Hx]; [reflexivity|]. destruct Hnot. rewrite E. apply elem_of_list_fmap. eauto.
  - apply elem_of_cons in Hx as [-> |Hx]; [contradiction|]. auto.
Qed.
Lemma unique_key {A} (key : A -> pystr) l x y : NoDup (key <$> l) -> x ∈ l -> y ∈ l -> key x = key y -> x = y.
Proof. intros H Hx Hy E. assert (H1 := find_unique key l x H Hx). rewrite E, (find_unique key l y H Hy) in H1. congruence. Qed.
Lemma cut_word u g : (forall c, c ∈ u -> c <> 58%N) -> cut_at colon (u ++ lit ":" ++ g) = Some (u, g).
Proof.
  induction u as [|c u IH]; intros H; [reflexivity|]. cbn -[lit]. destruct (c =? colon)%N eqn:E.
  - apply N.eqb_eq in E. destruct (H c); [left|exact E].
  - change (u ++ lit ":" ++ g) with (app u (app (lit ":") g)) in IH. rewrite IH; [reflexivity|]. intros c' Hc'. apply H. right. exact Hc'.
Qed.
Lemma gnu_owner_names s a b : accounts_ok s -> a ∈ o_passwd s -> b ∈ o_group s ->
  gnu_owner s (pw_name a ++ lit ":" ++ gr_name b) = Some (pw_uid a, gr_gid b) /\ startswith (pw_name a ++ lit ":" ++ gr_name b) (lit "-") = false.
Proof.
  intros (N1 & N2 & W1 & W2) Ha Hb. rewrite Forall_forall in W1. rewrite Forall_forall in W2. destruct (W1 a Ha) as (_ & Hne & Hc & Hh & _). destruct (W2 b Hb) as (_ & Hne' & _).
  split.
  - unfold gnu_owner. rewrite (cut_word _ _ Hc). destruct (pw_name a) as [|x u] eqn:Eu; [contradiction|]. destruct (gr_name b) as [|y g] eqn:Eg; [contradiction|].
    unfold gnu_uid, gnu_gid. rewrite <- Eu, <- Eg, (find_unique pw_name), (find_unique gr_name) by assumption. reflexivity.
  - destruct (pw_name a) as [|x u]; [contradiction|]. cbn in Hh |- *. destruct (N.eqb_spec x 45) as [-> |]; [congruence|].
    change (lit "-") with [45%N]. cbn [startswith app]. destruct (N.eqb_spec 45 x) as [<- |]; [contradiction|reflexivity].
Qed.
Lemma word_not_number n k : word n -> n <> str_of_N k.
Proof.
  intros (_ & _ & _ & _ & c & Hc & Hd) ->. unfold str_of_N in Hc. destruct (show_spec 10 k) as (H1 & _); [lia|]. rewrite Forall_forall in H1.
  apply H1 in Hc. unfold is_digit in Hc. lia.
Qed.
Lemma seen_user s a k : accounts_ok s -> a ∈ o_passwd s ->
  (match getpwuid s (Z.of_N k) with Ok pw => pw_name pw | Err _ => str_of_N k end) = pw_name a -> k = pw_uid a.
Proof.
  intros (N1 & _ & W1 & _) Ha E. destruct (getpwuid s (Z.of_N k)) as [b|e] eqn:Eb.
  - apply getpwuid_ok in Eb as [Hb Hk]. assert (b = a) as -> by (eapply (unique_key pw_name); eassumption). lia.
  - rewrite Forall_forall in W1. destruct (word_not_number (pw_name a) k (W1 a Ha)). congruence.
Qed.
Lemma seen_grp s a k : accounts_ok s -> a ∈ o_group s ->
  (match getgrgid s (Z.of_N k) with Ok pw => gr_name pw | Err _ => str_of_N k end) = gr_name a -> k = gr_gid a.
Proof.
  intros (_ & N1 & _ & W1) Ha E. destruct (getgrgid s (Z.of_N k)) as [b|e] eqn:Eb.
  - apply getgrgid_ok in Eb as [Hb Hk]. assert (b = a) as -> by (eapply (unique_key gr_name); eassumption). lia.
  - rewrite Forall_forall in W1. destruct (word_not_number (gr_name a) k (W1 a Ha)). congruence.
Qed.

(** the account of a setting *)
Definition accounts_of (s : os) (attr : settings) (a : account) (b : grent) : Prop :=
  a ∈ o_passwd s /\ b ∈ o_group s /\ s_owner attr = Some (pw_name a) /\ s_group attr = Some (gr_name b).
Lemma innermost_app {A} (l1 l2 : list (option A)) : innermost (l1 ++ l2) = match innermost l2 with Some y => Some y | None => innermost l1 end.
Proof. induction l1 as [|x l1 IH]; cbn; [destruct (innermost l2); reflexivity|]. rewrite IH. destruct (innermost l2); reflexivity. Qed.
Lemma wanted_snoc {A} (f : settings -> option A) base reqs q : wanted f base (reqs ++ [q]) = match f q with Some y => Some y | None => wanted f base reqs end.
Proof. unfold wanted. rewrite map_app, app_comm_cons, innermost_app. cbn. reflexivity. Qed.
Lemma wanted_base {A} (f : settings -> option A) base reqs : f base <> None -> wanted f base reqs <> None.
Proof. unfold wanted. cbn. intros H. destruct (innermost (List.map f reqs)); [discriminate|exact H]. Qed.
Lemma settles_accounts s base reqs attr : settles s base reqs attr -> known_base base -> exists a b, accounts_of s attr a b.
Proof.
  intros (_ & _ & H3 & H4 & _) [K1 K2]. apply (wanted_base s_owner base reqs) in K1. apply (wanted_base s_group base reqs) in K2.
  destruct (wanted s_owner base reqs); [|contradiction]. destruct (wanted s_group base reqs); [|contradiction].
  unfold user_settles in H3. unfold group_settles in H4. destruct (s_owner attr) as [u|] eqn:Eu; [|contradiction]. destruct (s_group attr) as [g|] eqn:Eg; [|contradiction].
  destruct H3 as (a & [Ha _] & ->). destruct H4 as (b & [Hb _] & ->). exists a, b. split_and!; auto.
Qed.
Lemma mode_settles_value base want got : mode_settles base want got -> got <> None.
Proof. unfold mode_settles. destruct want as [m|]; [intros (n & t & _ & -> & _)|intros [-> H]]; [discriminate|exact H]. Qed.

(** ** Settings that can be used *)
Lemma octal_valid b t : octal_below b (Some t) -> mode_valid t.
Proof. intros (t' & z & [= <-] & _ & _ & _ & H & _). exists z. exact H. Qed.
Lemma octal_cstring b t : octal_below b (Some t) -> c_string t.
Proof.
  intros (t' & z & [= <-] & _ & H & Hs & _). split; [exact Hs|]. intros Hn. rewrite Forall_forall in H. apply H in Hn. unfold nul in Hn. lia.
Qed.
(** the mode that results *)
Lemma mode_usable base want got b : mode_settles base want got -> octal_below b (match want with Some m => Some m | None => base end) -> (b <= 4096)%N ->
  octal_below b got.
Proof.
  intros H (t & z & Ht & Hne & Hd & Hs & Hv & Hz) Hb. unfold mode_settles in H. destruct want as [m|].
  - injection Ht as ->. destruct H as (n & t' & Hn & -> & Ho). rewrite Hv in Hn. injection Hn as Hn. apply N2Z.inj in Hn as <-.
    destruct (octal_short _ _ Ho) as [Hs' _]; [lia|]. destruct Ho as (O1 & O2 & _ & O3). exists t', z. split_and!; auto.
  - destruct H as [-> _]. exists t, z. split_and!; auto.
Qed.
Lemma wanted_split {A} (f : settings -> option A) base reqs : wanted f base reqs = match innermost (List.map f reqs) with Some m => Some m | None => f base end.
Proof. reflexivity. Qed.
Lemma user_name_valid s a : accounts_ok s -> a ∈ o_passwd s -> user_valid s (pw_name a).
Proof.
  intros (_ & _ & W & _) Ha. rewrite Forall_forall in W. destruct (W a Ha) as [[Hc _] _]. split; [exact Hc|]. exists a. split; [exact Ha|auto].
Qed.
Lemma group_name_valid s a : accounts_ok s -> a ∈ o_group s -> group_valid s (gr_name a).
Proof.
  intros (_ & _ & _ & W) Ha. rewrite Forall_forall in W. destruct (W a Ha) as [[Hc _] _]. split; [exact Hc|]. exists a. split; [exact Ha|auto].
Qed.
Lemma user_usable s want got : accounts_ok s -> user_settles s want got -> opt_ok (user_valid s) got.
Proof.
  intros Hs. unfold user_settles. destruct want, got; try contradiction; cbn; auto. intros (a & [Ha _] & ->). apply user_name_valid; assumption.
Qed.
Lemma group_usable s want got : accounts_ok s -> group_settles s want got -> opt_ok (group_valid s) got.
Proof.
  intros Hs. unfold group_settles. destruct want, got; try contradiction; cbn; auto. intros (a & [Ha _] & ->). apply group_name_valid; assumption.
Qed.
Lemma feasible_runnable s base reqs attr : accounts_ok s -> settles s base reqs attr -> feasible s base reqs ->
  runnable s attr /\ octal_below 4096 (s_file_mode attr) /\ octal_below 4096 (s_dir_mode attr).
Proof.
  intros Hs (S1 & S2 & S3 & S4 & S5 & S6 & S7 & S8) (F1 & F2 & F3 & F4 & F5 & F6 & F7 & F8).
  rewrite wanted_split in F5, F6, F7. apply (user_usable _ _ _ Hs) in S1. apply (group_usable _ _ _ Hs) in S2.
  assert (M5 := mode_usable _ _ _ _ S5 F5 ltac:(lia)). assert (M6 := mode_usable _ _ _ _ S6 F6 ltac:(lia)). assert (M7 := mode_usable _ _ _ _ S7 F7 ltac:(lia)).
  split; [|split; assumption]. split; [exact S1|]. split; [exact S2|]. split.
  - destruct M7 as (t & z & -> & _ & _ & Ht & Hv & Hz). cbn. split; [exact Ht|]. exists (Z.of_N z). split; [exact Hv|]. unfold c_int. lia.
  - rewrite S8. destruct (wanted s_cwd base reqs) as [w|]; [|exact I]. destruct F8 as (W1 & W2 & pl & n & W3 & W4). split; [exact W1|]. split; [exact W2|].
    exists pl, n. split; [|exact W4]. eapply resolve_node_follow; [exact W3|]. intros t. congruence.
Qed.
Lemma inner_user s base reqs d0 q (f : settings -> option pystr) : accounts_ok s ->
  user_settles s (wanted f base reqs) (f d0) \/ (reqs = [] /\ f d0 = None) -> opt_ok (user_valid s) (wanted f base (reqs ++ [q])) ->
  opt_ok (user_valid s) (innermost [f base; f d0; f q]).
Proof.
  intros Hs H. rewrite wanted_snoc. cbn. destruct (f q) as [u|]; [auto|]. destruct H as [H|[-> H]].
  - assert (H' := user_usable _ _ _ Hs H). intros _. unfold user_settles in H. destruct (f d0); [exact H'|].
    rewrite wanted_split in H. destruct (innermost _); [contradiction|]. destruct (f base); [contradiction|exact I].
  - rewrite H. cbn. auto.
Qed.
Lemma inner_group s base reqs d0 q (f : settings -> option pystr) : accounts_ok s ->
  group_settles s (wanted f base reqs) (f d0) \/ (reqs = [] /\ f d0 = None) -> opt_ok (group_valid s) (wanted f base (reqs ++ [q])) ->
  opt_ok (group_valid s) (innermost [f base; f d0; f q]).
Proof.
  intros Hs H. rewrite wanted_snoc. cbn. destruct (f q) as [u|]; [auto|]. destruct H as [H|[-> H]].
  - assert (H' := group_usable _ _ _ Hs H). intros _. unfold group_settles in H. destruct (f d0); [exact H'|].
    rewrite wanted_split in H. destruct (innermost _); [contradiction|]. destruct (f base); [contradiction|exact I].
  - rewrite H. cbn. auto.
Qed.
Lemma inner_mode b base reqs d0 q (f : settings -> option pystr) : (b <= 4096)%N ->
  mode_settles (f base) (innermost (List.map f reqs)) (f d0) \/ (reqs = [] /\ f d0 = None) -> octal_below b (wanted f base (reqs ++ [q])) ->
  exists m, innermost [f base; f d0; f q] = Some m /\ mode_valid m.
Proof.
  intros Hb H. rewrite wanted_snoc. cbn. destruct (f q) as [u|]; [intros Hu; exists u; split; [reflexivity|eapply octal_valid; exact Hu]|].
  destruct H as [H|[-> H]]; intros Ho.
  - change (octal_below b (match innermost (List.map f reqs) with Some m => Some m | None => f base end)) in Ho. assert (Ho' := mode_usable _ _ _ _ H Ho Hb). destruct Ho' as (t & z & E & Ho'). rewrite E. exists t. split; [reflexivity|].
    exists z. apply Ho'.
  - rewrite H. cbn in Ho. destruct Ho as (t & z & E & Ho). unfold wanted in E; cbn in E. rewrite E. exists t. split; [reflexivity|]. exists z. apply Ho.
Qed.
Lemma feasible_valid s base reqs d0 q : accounts_ok s -> enclosing s base reqs d0 -> feasible s base (reqs ++ [q]) -> request_valid s base d0 q.
Proof.
  intros Hs He (F1 & F2 & F3 & F4 & F5 & F6 & F7 & F8). unfold request_valid.
  split; [eapply inner_user; [exact Hs| |exact F1]; destruct He as [He|[-> ->]]; [left; apply He|right; auto]|].
  split; [eapply inner_group; [exact Hs| |exact F2]; destruct He as [He|[-> ->]]; [left; apply He|right; auto]|].
  split; [eapply inner_user; [exact Hs| |exact F3]; destruct He as [He|[-> ->]]; [left; apply He|right; auto]|].
  split; [eapply inner_group; [exact Hs| |exact F4]; destruct He as [He|[-> ->]]; [left; apply He|right; auto]|].
  split; [eapply inner_mode; [| |exact F5]; [lia|destruct He as [He|[-> ->]]; [left; apply He|right; auto]]|].
  split; [eapply inner_mode; [| |exact F6]; [lia|destruct He as [He|[-> ->]]; [left; apply He|right; auto]]|].
  split; [eapply inner_mode; [| |exact F7]; [lia|destruct He as [He|[-> ->]]; [left; apply He|right; auto]]|].
  assert (Hin : innermost [s_cwd base; s_cwd d0; s_cwd q] = wanted s_cwd base (reqs ++ [q])).
  { rewrite wanted_snoc. cbn. destruct (s_cwd q); [reflexivity|]. destruct He as [(_ & _ & _ & _ & _ & _ & _ & He)|[-> ->]].
    - rewrite He, wanted_split. destruct (innermost _); [reflexivity|]. destruct (s_cwd base); reflexivity.
    - reflexivity. }
  rewrite Hin. destruct (wanted s_cwd base (reqs ++ [q])) as [w|]; [|exact I]. destruct F8 as (W1 & _ & pl & n & W3 & W4). right.
  split; [exact W1|]. eauto.
Qed.

(** ** Inside of the block of an operation *)
(** programs that only use the connection *)
Definition remotely {A} (m : W A) : Prop := forall c r c', m c = (r, c') -> c' = set_remote (c_remote c') c.
Lemma remotely_id {A} (m : W A) : (forall c, snd (m c) = c) -> remotely m.
Proof. intros H c r c' E. specialize (H c). rewrite E in H. cbn in H. subst. symmetry. apply set_remote_self. Qed.
Lemma remotely_ret {A} (a : A) : remotely (mret a). Proof. apply remotely_id. reflexivity. Qed.
Lemma remotely_raise {A} e : remotely (wraise e : W A). Proof. apply remotely_id. reflexivity. Qed.
Lemma remotely_via {A} (m : C A) : remotely (via m).
Proof. intros c r c' E. unfold via in E. destruct (m (c_remote c)). injection E as <- <-. reflexivity. Qed.
Lemma set_remote_twice v v' c : set_remote v (set_remote v' c) = set_remote v c. Proof. reflexivity. Qed.
Lemma remotely_bind {A B} (m : W A) (f : A -> W B) : remotely m -> (forall a, remotely (f a)) -> remotely (m ≫= f).
Proof.
  intros H1 H2 c r c' E. apply bind_spec in E as [(a & c1 & E1 & E2)|(e & E & ->)].
  - rewrite (H2 a _ _ _ E2). rewrite (H1 _ _ _ E1). reflexivity.
  - apply (H1 _ _ _ E).
Qed.
Lemma remotely_try {A} (m : W A) h : remotely m -> (forall e, remotely (h e)) -> remotely (wtry m h).
Proof.
  intros H1 H2 c r c' E. unfold wtry in E. destruct (m c) as [[a|e] c1] eqn:E1.
  - injection E as <- <-. apply (H1 _ _ _ E1).
  - rewrite (H2 e _ _ _ E). rewrite (H1 _ _ _ E1). reflexivity.
Qed.
Lemma remotely_get : remotely getW. Proof. apply remotely_id. reflexivity. Qed.
Lemma remotely_lift {A} (x : result A) : remotely (liftW x). Proof. apply remotely_id. reflexivity. Qed.
Lemma remotely_current_of i : remotely (current_of i).
Proof. apply remotely_id. intros c. unfold current_of. destruct (c_scripts c !! i) as [w|]; [destruct (sw_defaults w)|]; reflexivity. Qed.
Lemma remotely_current : remotely current_defaults.
Proof.
  apply remotely_id. intros c. unfold current_defaults, current_of. destruct (c_script c) as [i|]; [|reflexivity].
  destruct (c_scripts c !! i) as [w|]; [destruct (sw_defaults w)|]; reflexivity.
Qed.
Lemma active_remote v c : active (set_remote v c) = active c. Proof. reflexivity. Qed.
Lemma script_of_active c d : active c = Some d -> exists i w, c_script c = Some i /\ c_scripts c !! i = Some w.
Proof.
  unfold active. destruct (c_script c) as [i|]; [|discriminate]. cbn. destruct (c_scripts c !! i) as [w|] eqn:E; [|discriminate]. eauto.
Qed.
Section block.
  Variable exec : proc -> M xres.
  Variable sha512 : bytes -> bytes.
  Lemma remotely_resolved f o : (forall x, remotely (f x)) -> remotely (resolved f o).
  Proof. intros H. destruct o; cbn; [|apply remotely_ret]. apply remotely_bind; [apply H|]. intros. apply remotely_ret. Qed.
  Lemma remotely_check_mask m : remotely (check_mask m).
  Proof. unfold check_mask. destruct m as [m|]; [destruct (py_int 8 m)|]; first [apply remotely_ret|apply remotely_raise]. Qed.
  Lemma remotely_resolve_defaults q : remotely (resolve_defaults exec sha512 q).
  Proof.
    unfold resolve_defaults. apply remotely_bind; [apply remotely_get|]. intros c. destruct (c_script c); [|apply remotely_raise].
    apply remotely_bind; [apply remotely_current|]. intros cur.
    repeat (apply remotely_bind; [apply remotely_resolved; intros; apply remotely_via|intros]).
    repeat (apply remotely_bind; [apply remotely_check_mask|intros]).
    apply remotely_bind; [|intros; apply remotely_ret].
    destruct (s_cwd (overlay cur q)) as [[|x d]|]; try apply remotely_ret.
    apply remotely_bind; [apply remotely_via|]. intros [st|]; [|apply remotely_raise].
    destruct (str_eqb (st_type st) (lit "dir")); first [apply remotely_ret|apply remotely_raise].
  Qed.
  Lemma remotely_defaults i q : remotely (defaults i q).
  Proof.
    unfold defaults. repeat (apply remotely_bind; [apply remotely_lift|intros]). apply remotely_bind; [apply remotely_get|]. intros.
    apply remotely_bind; [apply remotely_current_of|]. intros. apply remotely_ret.
  Qed.
  Lemma remotely_block {A} q (body : settings -> W A) : (forall d, remotely (body d)) -> remotely (script_defaults exec sha512 q body).
  Proof.
    intros Hb c r c' E. unfold script_defaults in E. destruct (c_script c) as [i|]; [|injection E as <- <-; symmetry; apply set_remote_self].
    unfold with_defaults in E. apply bind_spec in E as [(new & c0 & E0 & E)|(e & E & ->)]; [|eapply remotely_defaults; exact E].
    apply remotely_defaults in E0. apply bind_spec in E as [(d & c1 & E1 & E)|(e & E & ->)].
    - apply enter_spec in E1 as (res & c2 & E1 & _ & ->). apply remotely_resolve_defaults in E1.
      apply finally_spec in E as (r1 & c3 & E2 & [(u & E3 & ->)|(e & E3 & ->)]); [|discriminate].
      apply Hb in E2. unfold exit_defaults, on_script, modW in E3. injection E3 as <- <-.
      rewrite E2, E1, E0. cbn. rewrite list_alter_compose || idtac. unfold set_scripts, set_remote. cbn. f_equal.
      rewrite <- list_alter_compose. apply list_eq. intros k. destruct (decide (k = i)) as [-> |Hne].
      + rewrite list_lookup_alter. destruct (c_scripts c !! i) as [[ds fl]|]; reflexivity.
      + rewrite list_lookup_alter_ne by congruence. reflexivity.
    - unfold enter_defaults in E. apply bind_spec in E as [(res & c2 & _ & E)|(e' & E & [= <-])]; [discriminate|].
      apply remotely_resolve_defaults in E. rewrite E, E0. reflexivity.
  Qed.

  Lemma block_any {A} q (body : settings -> W A) c r c' reqs d0 :
    script_defaults exec sha512 q body c = (r, c') -> active c = Some d0 -> enclosing (sysof c) (c_base c) reqs d0 ->
    (unaffected (sysof c) (sysof c') /\ exists e, r = Err e) \/
    exists c1 attr c2, spends (sysof c) (sysof c1) /\ settles (sysof c) (c_base c) (reqs ++ [q]) attr /\ active c1 = Some attr /\
      body attr c1 = (r, c2) /\ c_remote c' = c_remote c2.
  Proof.
    intros E Ha Henc. unfold script_defaults in E. destruct (script_of_active _ _ Ha) as (i & w & Hi & Hw). rewrite Hi in E.
    apply with_quiet_fail in E as [(e & -> & H)|(new & c0 & d & c1 & r1 & c2 & E0 & E1 & E2 & E3 & ->)]; [left; split; [exact H|eauto]|]. right.
    destruct (enter_settles exec sha512 i q c new c0 d c1 reqs d0 E0 E1 Hi Ha Henc) as (res & F1 & F2 & -> & F3 & _).
    exists c1, res, c2. split_and!; auto; [eapply spends_trans; [eapply thrifty_defaults; exact E0|eapply thrifty_enter; exact E1]|]. unfold exit_defaults, on_script, modW in E3. injection E3 as <-. reflexivity.
  Qed.
  Lemma block_fine {A} q (body : settings -> W A) c r c' reqs d0 :
    script_defaults exec sha512 q body c = (r, c') -> active c = Some d0 -> enclosing (sysof c) (c_base c) reqs d0 ->
    healthy c -> os_ok (sysof c) -> hash_ok sha512 -> accounts_ok (sysof c) -> feasible (sysof c) (c_base c) (reqs ++ [q]) ->
    exists c1 attr c2, c_remote c1 = c_remote c /\ fine c1 /\ settles (sysof c) (c_base c) (reqs ++ [q]) attr /\ active c1 = Some attr /\
      body attr c1 = (r, c2) /\ c_remote c' = c_remote c2 /\ octal_below 4096 (s_file_mode attr) /\ octal_below 4096 (s_dir_mode attr).
  Proof.
    intros E Ha Henc (Hl & Hfl & Hu) Hos Hh Hac Hfe. unfold script_defaults in E. destruct (script_of_active _ _ Ha) as (i & w & Hi & Hw). rewrite Hi in E.
    assert (Hr : c_remote c = Remote (sysof c) Up) by (unfold sysof; destruct (c_remote c) as [s l]; cbn in *; congruence).
    destruct (enter_works exec sha512 i q c d0 (sysof c) Hr Hos Hh Hfl Hi Ha) as (new & d & c1 & E0 & E1 & E4); [apply feasible_valid with (reqs := reqs); assumption|].
    destruct (enter_settles exec sha512 i q c new c d c1 reqs d0 E0 E1 Hi Ha Henc) as (res & F1 & F2 & -> & F3 & _).
    unfold with_defaults in E. rewrite (bind_works _ _ _ _ _ E0), (bind_works _ _ _ _ _ E1) in E.
    apply finally_spec in E as (r1 & c3 & E2 & [(u & E3 & ->)|(e & E3 & ->)]); [|discriminate].
    destruct (feasible_runnable _ _ _ _ Hac F2 Hfe) as (R1 & R2 & R3).
    exists c1, res, c3. split_and!; auto.
    - split; [|exists res; split; [exact F1|]].
      + unfold healthy, sysof. rewrite E4. auto.
      + unfold sysof. rewrite E4. exact R1.
    - unfold exit_defaults, on_script, modW in E3. injection E3 as _ <-. reflexivity.
  Qed.
End block.

(** ** Steps *)
Lemma grows_same (s s' : os) : unaffected s s' -> grows (o_fs s) (o_fs s').
Proof. intros H. rewrite (unaffected_fs _ _ H). apply grows_refl. Qed.
Lemma kind_shape n n' : n_kind n' = n_kind n -> shape n' = shape n.
Proof. unfold shape. intros ->. reflexivity. Qed.
Lemma runnable_grows s s' d : only_files s s' -> grows (o_fs s) (o_fs s') -> runnable s d -> runnable s' d.
Proof.
  intros Ho Hg (R1 & R2 & R3 & R4). unfold runnable, denotes_user, denotes_group.
  rewrite (only_files_passwd _ _ Ho), (only_files_group _ _ Ho), (only_files_cwd _ _ Ho).
  split; [exact R1|]. split; [exact R2|]. split; [exact R3|].
  destruct (s_cwd d) as [w|]; [|exact I]. destruct R4 as (W1 & W2 & pl & n & W3 & W4). split; [exact W1|]. split; [exact W2|].
  assert (Hn := W3). apply resolve_node_split in Hn as [_ Hn]. destruct (Hg _ _ Hn) as (n' & Hn' & Hs). exists pl, n'.
  split; [eapply resolve_node_grows; eassumption|]. unfold shape in Hs. rewrite W4 in Hs. destruct (n_kind n'); congruence.
Qed.
Lemma fine_next c c' : fine c -> c' = set_remote (c_remote c') c -> r_link (c_remote c') = Up -> o_faults (sysof c') = [] ->
  only_files (sysof c) (sysof c') -> grows (o_fs (sysof c)) (o_fs (sysof c')) -> fine c'.
Proof.
  intros ((_ & _ & H3) & d & Ha & Hr) Hc Hl Hf Ho Hg. split.
  - split_and!; auto. rewrite (only_files_uid _ _ Ho). exact H3.
  - exists d. split; [rewrite Hc; exact Ha|]. eapply runnable_grows; eassumption.
Qed.
Lemma syscall_calm {A} (f : M A) s : o_faults s = [] -> syscall f s = f s.
Proof. intros H. unfold syscall, next_fault. rewrite H. reflexivity. Qed.
Lemma c_string_app a b : c_string a -> c_string b -> (32 * N.of_nat (length a) + 32 * N.of_nat (length b) < 2 ^ 63)%N -> c_string (a ++ b).
Proof.
  intros [[A1 A2] A3] [[B1 B2] B3] H. split; [split|].
  - apply Forall_app. auto.
  - rewrite app_length. lia.
  - intros Hn. apply elem_of_app in Hn as [Hn|Hn]; contradiction.
Qed.

Definition stepped (path : pystr) (s0 : os) (pl : place) (n : node) (Q : node -> Prop) (V : Prop) (c : ctl) (r : result unit) (c' : ctl) : Prop :=
  c' = set_remote (c_remote c') c /\
  (exists n', sits path s0 (sysof c') pl n' /\ n_kind n' = n_kind n /\ (r = Ok tt -> Q n')) /\
  (fine c -> V -> r = Ok tt /\ fine c').
Lemma stepped_none path s0 pl n c : sits path s0 (sysof c) pl n -> stepped path s0 pl n (fun n' => n' = n) True c (Ok tt) c.
Proof. intros H. split; [symmetry; apply set_remote_self|]. split; [exists n; auto|auto]. Qed.
Lemma stepped_wif path s0 pl n (b : bool) w (Q : node -> Prop) (V : Prop) c r c' : sits path s0 (sysof c) pl n -> wif b w c = (r, c') ->
  (b = true -> w c = (r, c') -> stepped path s0 pl n Q V c r c') ->
  stepped path s0 pl n (fun n' => if b then Q n' else n' = n) (b = true -> V) c r c'.
Proof.
  intros Hs E H. unfold wif in E. destruct b.
  - destruct (H eq_refl E) as (H1 & H2 & H3). split; [exact H1|]. split; [exact H2|]. auto.
  - injection E as <- <-. apply (stepped_none) in Hs. destruct Hs as (H1 & H2 & H3). split; [exact H1|]. split; [exact H2|]. auto.
Qed.
Lemma stepped_bind path s0 pl n (w1 w2 : W unit) (Q1 : node -> Prop) (Q2 : node -> node -> Prop) (V1 V2 : Prop) c r c' :
  (forall r c', w1 c = (r, c') -> stepped path s0 pl n Q1 V1 c r c') ->
  (forall n1 c1 r c', Q1 n1 -> c1 = set_remote (c_remote c1) c -> sits path s0 (sysof c1) pl n1 -> n_kind n1 = n_kind n -> w2 c1 = (r, c') ->
     stepped path s0 pl n1 (Q2 n1) V2 c1 r c') ->
  (_ ← w1; w2) c = (r, c') -> stepped path s0 pl n (fun n' => exists n1, Q1 n1 /\ n_kind n1 = n_kind n /\ Q2 n1 n') (V1 /\ V2) c r c'.
Proof.
  intros H1 H2 E. apply bind_spec in E as [([] & c1 & E1 & E2)|(e & E & ->)].
  - destruct (H1 _ _ E1) as (A1 & (n1 & A2 & A3 & A4) & A5). destruct (H2 n1 _ _ _ (A4 eq_refl) A1 A2 A3 E2) as (B1 & (n2 & B2 & B3 & B4) & B5).
    split; [rewrite B1, A1; reflexivity|]. split.
    + exists n2. split; [exact B2|]. split; [congruence|]. intros Hr. exists n1. auto.
    + intros Hf [V1' V2']. destruct (A5 Hf V1') as [_ Hf']. apply B5; assumption.
  - destruct (H1 _ _ E) as (A1 & (n1 & A2 & A3 & A4) & A5). split; [exact A1|]. split.
    + exists n1. split; [exact A2|]. split; [exact A3|]. discriminate.
    + intros Hf [V1' V2']. destruct (A5 Hf V1') as [[=] _].
Qed.
Section steps.
  Variable rest : proc -> M xres.
  Variable sha512 : bytes -> bytes.
  Notation exec := (coreutils rest).
  Notation sh := (Files.sh exec sha512).

  Ltac dispatch := intros p Hp; unfold coreutils; rewrite Hp; reflexivity.
  Lemma run_mkdir path : forall p, p_argv p = [lit "mkdir"; lit "--"; path] -> exec p = exits (do_mkdir p path). Proof. dispatch. Qed.
  Lemma run_touch path : forall p, p_argv p = [lit "touch"; lit "--"; path] -> exec p = exits (do_touch p true path). Proof. dispatch. Qed.
  Lemma run_rm path : forall p, p_argv p = [lit "rm"; lit "--"; path] -> exec p = exits (do_rm p path). Proof. dispatch. Qed.
  Lemma run_chmod m path : forall p, p_argv p = [lit "chmod"; m; lit "--"; path] -> exec p = exits (do_chmod p m path). Proof. dispatch. Qed.
  Lemma run_chown o path : forall p, p_argv p = [lit "chown"; o; lit "--"; path] -> exec p = exits (do_chown p true o path). Proof. dispatch. Qed.
  Lemma run_rm_rf path : forall p, p_argv p = [lit "rm"; lit "-rf"; lit "--"; path] -> exec p = exits (do_rm_rf p path). Proof. dispatch. Qed.
  Lemma run_touch_link path : forall p, p_argv p = [lit "touch"; lit "--no-dereference"; lit "--"; path] -> exec p = exits (do_touch p false path). Proof. dispatch. Qed.
  Lemma run_ln t path : forall p, p_argv p = [lit "ln"; lit "-sf"; lit "--"; t; path] -> exec p = exits (do_ln p t path). Proof. dispatch. Qed.
  Lemma run_chown_link o path : forall p, p_argv p = [lit "chown"; lit "--no-dereference"; o; lit "--"; path] -> exec p = exits (do_chown p false o path). Proof. dispatch. Qed.

  Lemma sh_step cmd m path s0 pl n (Q : node -> Prop) (V : Prop) c r c' :
    (forall p, p_argv p = cmd -> exec p = exits (m p)) -> sh cmd c = (r, c') -> sits path s0 (sysof c) pl n ->
    (forall p s1 y s', unaffected (sysof c) s1 -> m p s1 = (y, s') ->
       match y with Ok _ => exists n', Q n' /\ n_kind n' = n_kind n /\ sits path s0 s' pl n' | Err _ => unaffected (sysof c) s' end) ->
    (fine c -> V -> cmd <> [] /\ small cmd /\ Forall c_string cmd /\ forall p, exists s', m p (sysof c) = (Ok tt, s') /\ o_faults s' = []) ->
    stepped path s0 pl n Q V c r c'.
  Proof.
    intros Hm E Hat Hstep Hok. destruct (sh_any exec sha512 cmd m c r c' Hm E) as [H1 H2]. split; [exact H1|]. split.
    - destruct H2 as [[H2 [e ->]]|(p & s1 & y & F1 & F2 & F3 & F4)].
      + exists n. split; [eapply sits_unaffected; eassumption|]. split; [reflexivity|discriminate].
      + specialize (Hstep _ _ _ _ F2 F3). destruct y as [a|e].
        * destruct Hstep as (n' & Q1 & Q2 & Q3). exists n'. auto.
        * assert (exists e', r = Err e') as [e' ->] by (destruct F4; assumption). exists n. split; [eapply sits_unaffected; eassumption|]. split; [reflexivity|discriminate].
    - intros Hf HV. destruct (Hok Hf HV) as (C1 & C2 & C3 & C4).
      destruct (sh_fine exec sha512 cmd m c r c' Hm E Hf C1 C2 C3) as (p & y & F1 & F2 & F3 & F4). destruct (C4 p) as (s' & G1 & G2).
      rewrite F2 in G1. injection G1 as -> <-. split; [exact F4|]. assert (Hst := Hstep p _ _ _ (unaffected_refl _) F2). cbn in Hst.
      destruct Hst as (n' & _ & K & S1 & S2 & _). destruct Hat as (T1 & T2 & T3).
      assert (Ho : only_files (sysof c) (sysof c')).
      { unfold only_files in *. rewrite S1, T1. reflexivity. }
      apply (fine_next c); auto. rewrite T2, S2. intros q x Hx. destruct (decide (q = pl)) as [-> |Hne].
      + rewrite lookup_insert in Hx |- *. injection Hx as <-. exists n'. split; [reflexivity|apply kind_shape; exact K].
      + rewrite lookup_insert_ne in Hx |- * by congruence. eauto.
  Qed.

  Lemma c_string_cmd (x : string) : Forall (fun c => c < 128 /\ c <> 0)%N (lit x) -> (16 * N.of_nat (length (lit x)) < 2 ^ 63)%N -> c_string (lit x).
  Proof.
    intros H1 H2. split; [split; [|exact H2]|].
    - unfold text_ok. eapply Forall_impl; [exact H1|]. cbn. intros a Ha. lia.
    - intros Hn. rewrite Forall_forall in H1. apply H1 in Hn. unfold nul in Hn. lia.
  Qed.
End steps.
Ltac word_ok := apply c_string_cmd; [repeat constructor; vm_compute; first [reflexivity|discriminate]|vm_compute; reflexivity].
Ltac words := repeat (apply Forall_cons; split; [first [assumption|word_ok]|]); try apply Forall_nil; auto.
Section steps2.
  Variable rest : proc -> M xres.
  Variable sha512 : bytes -> bytes.
  Notation exec := (coreutils rest).
  Notation sh := (Files.sh exec sha512).

  Lemma chmod_step path m c r c' s0 pl n : isabs path = true -> c_string path -> (forall t, n_kind n <> KLink t) ->
    chmod_to exec sha512 path m c = (r, c') -> sits path s0 (sysof c) pl n ->
    stepped path s0 pl n (fun n' => exists t v, m = Some t /\ gnu_mode t = Some v /\ n' = chmoded (o_now (sysof c)) t v n) (octal_below 4096 m) c r c'.
  Proof.
    intros Ha Hp Hk E Hs. unfold chmod_to, arg in E. destruct m as [t|].
    2:{ injection E as <- <-. split; [symmetry; apply set_remote_self|]. split; [exists n; split_and!; auto; discriminate|].
        intros _ (t & z & [=] & _). }
    refine (sh_step rest sha512 _ (fun p => do_chmod p t path) path s0 pl n _ _ c r c' (run_chmod rest t path) E Hs _ _).
    - intros p s1 y s' Hu Em. assert (H := do_chmod_at p t path s0 (sysof c) s1 y s' pl n Hs Ha Hk Hu Em). destruct y as [u|e]; [|exact H].
      destruct H as (v & Hv & H). eexists. split; [exists t, v; eauto|]. split; [reflexivity|exact H].
    - intros ((_ & Hfl & _) & _) Ho. assert (Hct := octal_cstring _ _ Ho). destruct Ho as (t' & z & [= <-] & O1 & O2 & O3 & O4 & O5).
      split; [discriminate|]. split; [reflexivity|]. split; [words|]. intros p. unfold do_chmod. rewrite (gnu_octal _ _ O1 O2 O4 O5).
      rewrite syscall_calm by exact Hfl. rewrite (sits_follow _ _ _ _ _ _ _ Hs Ha Hk). eexists. split; [reflexivity|exact Hfl].
  Qed.
  Lemma owner_spec_of attr s a b : accounts_of s attr a b -> owner_spec attr = pw_name a ++ lit ":" ++ gr_name b.
  Proof. intros (_ & _ & H1 & H2). unfold owner_spec. rewrite H1, H2. reflexivity. Qed.
  Lemma owner_spec_cstring attr s a b : accounts_ok s -> accounts_of s attr a b -> c_string (owner_spec attr).
  Proof.
    intros (_ & _ & W1 & W2) Hof. rewrite (owner_spec_of _ _ _ _ Hof). destruct Hof as (Ha & Hb & _).
    rewrite Forall_forall in W1. rewrite Forall_forall in W2. destruct (W1 a Ha) as [[C1 L1] _]. destruct (W2 b Hb) as [[C2 L2] _].
    change (2 ^ 32)%N with 4294967296%N in *. assert (Hcolon : length (lit ":") = 1) by reflexivity.
    assert (H63 : (2 ^ 63)%N = 9223372036854775808%N) by reflexivity.
    apply c_string_app; [exact C1|apply c_string_app; [word_ok|exact C2|]|]; rewrite ?app_length, ?Hcolon, H63; lia.
  Qed.
  Lemma chown_step path attr c r c' s0 pl n a b : isabs path = true -> c_string path -> (forall t, n_kind n <> KLink t) ->
    accounts_ok (sysof c) -> accounts_of (sysof c) attr a b ->
    chown_to exec sha512 path attr c = (r, c') -> sits path s0 (sysof c) pl n ->
    stepped path s0 pl n (fun n' => n' = chowned (o_now (sysof c)) (pw_uid a) (gr_gid b) n) True c r c'.
  Proof.
    intros Ha Hp Hk Hac Hof E Hs. assert (Hcs := owner_spec_cstring _ _ _ _ Hac Hof). unfold chown_to in E. assert (Hspec := owner_spec_of _ _ _ _ Hof). destruct Hof as (A1 & A2 & _).
    destruct (gnu_owner_names _ _ _ Hac A1 A2) as [G1 G2]. rewrite <- Hspec in G1, G2.
    refine (sh_step rest sha512 _ (fun p => do_chown p true (owner_spec attr) path) path s0 pl n _ _ c r c' (run_chown rest _ path) E Hs _ _).
    - intros p s1 y s' Hu Em. assert (H := do_chown_at p _ path s0 (sysof c) s1 y s' pl n Hs Ha Hk Hu Em). destruct y as [u|e]; [|exact H].
      destruct H as (u' & g' & Hv & H). rewrite G1 in Hv. injection Hv as <- <-. eexists. split; [reflexivity|]. split; [reflexivity|exact H].
    - intros ((_ & Hfl & _) & _) _.
      split; [discriminate|]. split; [reflexivity|]. split; [words|]. intros p. unfold do_chown. rewrite G2.
      rewrite syscall_calm by exact Hfl. rewrite G1, (sits_follow _ _ _ _ _ _ _ Hs Ha Hk). eexists. split; [reflexivity|exact Hfl].
  Qed.
  Lemma lchown_step path attr c r c' s0 pl n a b : isabs path = true -> c_string path ->
    accounts_ok (sysof c) -> accounts_of (sysof c) attr a b ->
    sh [lit "chown"; lit "--no-dereference"; owner_spec attr; lit "--"; path] c = (r, c') -> sits path s0 (sysof c) pl n ->
    stepped path s0 pl n (fun n' => n' = chowned (o_now (sysof c)) (pw_uid a) (gr_gid b) n) True c r c'.
  Proof.
    intros Ha Hp Hac Hof E Hs. assert (Hcs := owner_spec_cstring _ _ _ _ Hac Hof). assert (Hspec := owner_spec_of _ _ _ _ Hof). destruct Hof as (A1 & A2 & _).
    destruct (gnu_owner_names _ _ _ Hac A1 A2) as [G1 G2]. rewrite <- Hspec in G1, G2.
    refine (sh_step rest sha512 _ (fun p => do_chown p false (owner_spec attr) path) path s0 pl n _ _ c r c' (run_chown_link rest _ path) E Hs _ _).
    - intros p s1 y s' Hu Em. assert (H := do_lchown_at p _ path s0 (sysof c) s1 y s' pl n Hs Ha Hu Em). destruct y as [u|e]; [|exact H].
      destruct H as (u' & g' & Hv & H). rewrite G1 in Hv. injection Hv as <- <-. eexists. split; [reflexivity|]. split; [reflexivity|exact H].
    - intros ((_ & Hfl & _) & _) _.
      split; [discriminate|]. split; [reflexivity|]. split; [words|]. intros p. unfold do_chown. rewrite G2.
      rewrite syscall_calm by exact Hfl. rewrite G1, (sits_nofollow _ _ _ _ _ _ Hs Ha). eexists. split; [reflexivity|exact Hfl].
  Qed.
  Lemma touch_step path c r c' s0 pl n : isabs path = true -> c_string path -> (forall t, n_kind n <> KLink t) ->
    sh [lit "touch"; lit "--"; path] c = (r, c') -> sits path s0 (sysof c) pl n ->
    stepped path s0 pl n (fun n' => n' = touched (o_now (sysof c)) n) True c r c'.
  Proof.
    intros Ha Hp Hk E Hs.
    refine (sh_step rest sha512 _ (fun p => do_touch p true path) path s0 pl n _ _ c r c' (run_touch rest path) E Hs _ _).
    - intros p s1 y s' Hu Em. assert (H := do_touch_at p true path s0 (sysof c) s1 y s' pl n Hs Ha (fun _ => Hk) Hu Em). destruct y as [u|e]; [|exact H].
      eexists. split; [reflexivity|]. split; [reflexivity|exact H].
    - intros ((_ & Hfl & _) & _) _.
      split; [discriminate|]. split; [reflexivity|]. split; [words|]. intros p. unfold do_touch.
      rewrite syscall_calm by exact Hfl. assert (Hr := sits_follow _ _ _ _ _ (p_cwd p) true Hs Ha Hk). apply resolve_node_split in Hr as [Hr1 Hr2].
      rewrite Hr1, Hr2. eexists. split; [reflexivity|exact Hfl].
  Qed.
  Lemma ltouch_step path c r c' s0 pl n : isabs path = true -> c_string path ->
    sh [lit "touch"; lit "--no-dereference"; lit "--"; path] c = (r, c') -> sits path s0 (sysof c) pl n ->
    stepped path s0 pl n (fun n' => n' = touched (o_now (sysof c)) n) True c r c'.
  Proof.
    intros Ha Hp E Hs.
    refine (sh_step rest sha512 _ (fun p => do_touch p false path) path s0 pl n _ _ c r c' (run_touch_link rest path) E Hs _ _).
    - intros p s1 y s' Hu Em. assert (H := do_touch_at p false path s0 (sysof c) s1 y s' pl n Hs Ha ltac:(discriminate) Hu Em). destruct y as [u|e]; [|exact H].
      eexists. split; [reflexivity|]. split; [reflexivity|exact H].
    - intros ((_ & Hfl & _) & _) _.
      split; [discriminate|]. split; [reflexivity|]. split; [words|]. intros p. unfold do_touch.
      rewrite syscall_calm by exact Hfl. assert (Hr := sits_nofollow _ _ _ _ _ (p_cwd p) Hs Ha). apply resolve_node_split in Hr as [Hr1 Hr2].
      rewrite Hr1, Hr2. eexists. split; [reflexivity|exact Hfl].
  Qed.

  (** creating *)
  Definition created (path : pystr) (Q : place -> node -> Prop) (V : Prop) (c : ctl) (r : result unit) (c' : ctl) : Prop :=
    c' = set_remote (c_remote c') c /\
    ((unaffected (sysof c) (sysof c') /\ exists e, r = Err e) \/
     ((r = Ok tt \/ exists e, r = Err e) /\ exists pl n, o_fs (sysof c) !! pl = None /\ sits path (sysof c) (sysof c') pl n /\ Q pl n)) /\
    (fine c -> V -> r = Ok tt /\ fine c').
  Lemma sh_create cmd m path (Q : place -> node -> Prop) (V : Prop) c r c' :
    (forall p, p_argv p = cmd -> exec p = exits (m p)) -> sh cmd c = (r, c') ->
    (forall p s1 y s', unaffected (sysof c) s1 -> m p s1 = (y, s') ->
       match y with Ok _ => exists pl n, o_fs (sysof c) !! pl = None /\ sits path (sysof c) s' pl n /\ Q pl n | Err _ => unaffected (sysof c) s' end) ->
    (fine c -> V -> cmd <> [] /\ small cmd /\ Forall c_string cmd /\ forall p, exists s', m p (sysof c) = (Ok tt, s') /\ o_faults s' = []) ->
    created path Q V c r c'.
  Proof.
    intros Hm E Hstep Hok. destruct (sh_any exec sha512 cmd m c r c' Hm E) as [H1 H2]. split; [exact H1|]. split.
    - destruct H2 as [H2|(p & s1 & y & F1 & F2 & F3 & F4)]; [left; exact H2|].
      specialize (Hstep _ _ _ _ F2 F3). destruct y as [a|e]; [right; auto|left; split; [exact Hstep|destruct F4; assumption]].
    - intros Hf HV. destruct (Hok Hf HV) as (C1 & C2 & C3 & C4).
      destruct (sh_fine exec sha512 cmd m c r c' Hm E Hf C1 C2 C3) as (p & y & F1 & F2 & F3 & F4). destruct (C4 p) as (s' & G1 & G2).
      rewrite F2 in G1. injection G1 as -> <-. split; [exact F4|]. assert (Hst := Hstep p _ _ _ (unaffected_refl _) F2). cbn in Hst.
      destruct Hst as (pl & n' & K & (S1 & S2 & _) & _). apply (fine_next c); auto. rewrite S2. apply grows_insert. intros m' Hm'. congruence.
  Qed.
  Lemma walk_into fs f pl x : plain_name x -> fs !! (x :: pl) = None \/ f = false -> forall budget l cur n, walk fs true budget cur l = Ok pl -> fs !! pl = Some n -> n_kind n = KDir ->
    walk fs f budget cur (l ++ [x]) = Ok (x :: pl).
  Proof.
    intros [Hx1 Hx2] Hno. induction budget as [|b IHb]; induction l as [|c r IH]; intros cur n H Hn Hk; cbn [app]; rewrite walk_unfold in H |- *.
    1,3: injection H as ->; (destruct (str_eqb_spec x (lit ".")); [contradiction|]); (destruct (str_eqb_spec x (lit "..")); [contradiction|]);
      (destruct Hno as [-> | ->]; [reflexivity|]); (destruct (fs !! (x :: pl)) as [m|]; [destruct (n_kind m)|]; cbn; rewrite ?walk_unfold; reflexivity).
    all: destruct (str_eqb c (lit ".")); [eapply IH; eassumption|]; destruct (str_eqb c (lit "..")); [eapply IH; eassumption|].
    all: destruct (fs !! (c :: cur)) as [m|] eqn:Em; [|destruct r; [injection H as <-; congruence|discriminate]].
    all: destruct (n_kind m) as [bb| |t|t] eqn:Ek; try (destruct r; [injection H as <-; congruence|discriminate]); try (eapply IH; eassumption).
    - destruct r; cbn in H; discriminate.
    - assert (Hcond : match r ++ [x] with [] => negb f | _ => false end = false) by (destruct r; reflexivity). rewrite Hcond.
      assert (H' : match t with [] => Err (oserr ENOENT) | _ => walk fs true b (if isabs t then [] else cur) (comps t ++ r) end = Ok pl) by (destruct r; exact H).
      destruct t as [|t0 t]; [discriminate|]. rewrite app_assoc. eapply IHb; eassumption.
  Qed.
  Lemma split_no_char c x : (c ∉ x) -> split_char c x = [x].
  Proof.
    induction x as [|d x IH]; intros H; [reflexivity|]. cbn. destruct (N.eqb_spec d c) as [-> |]; [destruct H; left|].
    rewrite IH; [reflexivity|]. intros Hin. apply H. right. exact Hin.
  Qed.
  Lemma ends_no_slash d x : (slash ∉ x) -> x <> [] -> endswith (d ++ slash :: x) (lit "/") = false.
  Proof.
    intros Hx Hne. unfold endswith. rewrite rev_app_distr. cbn [rev]. change (rev (lit "/")) with [slash].
    destruct (rev x) as [|y r] eqn:E; [apply (f_equal (@rev _)) in E; rewrite rev_involutive in E; contradiction|].
    cbn [app startswith]. destruct (N.eqb_spec slash y) as [<- |]; [|reflexivity]. destruct Hx. apply elem_of_list_In, in_rev. rewrite E. left. reflexivity.
  Qed.
  Lemma comps_snoc d x : (slash ∉ x) -> x <> [] -> endswith d (lit "/") = false -> comps (d ++ slash :: x) = comps d ++ [x].
  Proof.
    intros Hx Hne Hd. unfold comps. rewrite split_char_app, (split_no_char slash x Hx), List.filter_app, (ends_no_slash _ _ Hx Hne), Hd. cbn [List.filter].
    destruct x as [|y x]; [contradiction|]. destruct (List.filter _ (split_char slash d)); reflexivity.
  Qed.
  (** a path that can be created resolves *)
  Lemma creatable_resolve s path : creatable s path -> resolve_node (o_fs s) [] path false = Err (oserr ENOENT) ->
    exists pl, o_fs s !! pl = None /\ isabs path = true /\ rstrip_slash path = path /\ forall f, resolve (o_fs s) [] path f = Ok pl.
  Proof.
    intros (d & x & pl & n & -> & (X1 & X2 & X3 & X4) & Hk & Hd) Hno.
    assert (Habs : isabs (d ++ slash :: x) = true).
    { destruct Hd as [[-> _]|[[r ->] _]]; unfold isabs; change (lit "/") with [slash]; cbn; [destruct x; reflexivity|destruct r; reflexivity]. }
    assert (Hnil : d ++ slash :: x <> []) by (destruct d; discriminate).
    assert (Hw : forall f, o_fs s !! (x :: pl) = None \/ f = false -> resolve (o_fs s) [] (d ++ slash :: x) f = Ok (x :: pl)).
    { intros f Hx. unfold resolve.
      assert (Hd' : has_char nul (d ++ slash :: x) = false).
      { destruct (has_char_spec nul (d ++ slash :: x)) as [Hin|]; [|reflexivity]. exfalso. apply elem_of_app in Hin as [Hin|Hin].
        - destruct Hd as [[-> _]|(_ & _ & Hd)]; [inversion Hin|]. apply resolve_node_split in Hd as [Hd _]. unfold resolve in Hd.
          destruct (has_char_spec nul d); [discriminate|contradiction].
        - apply elem_of_cons in Hin as [Hin|Hin]; [discriminate|contradiction]. }
      rewrite Hd'. destruct (d ++ slash :: x) as [|y l] eqn:El; [contradiction|]. rewrite <- El in *. rewrite Habs.
      assert (Hend : endswith d (lit "/") = false) by (destruct Hd as [[-> _]|(_ & Hd & _)]; [reflexivity|exact Hd]).
      rewrite (comps_snoc _ _ X2 X1 Hend).
      destruct Hd as [(-> & -> & Hn)|([rr ->] & _ & Hd)].
      - cbn. exact (walk_into (o_fs s) f [] x X4 Hx max_links [] [] n eq_refl Hn Hk).
      - apply resolve_node_split in Hd as [Hd Hn]. unfold resolve in Hd. destruct (has_char nul (slash :: rr)); [discriminate|].
        assert (Hia : isabs (slash :: rr) = true) by (destruct rr; reflexivity). rewrite Hia in Hd.
        eapply walk_into; eassumption. }
    destruct (o_fs s !! (x :: pl)) as [m|] eqn:Em.
    - exfalso. assert (Hok : resolve_node (o_fs s) [] (d ++ slash :: x) false = Ok (x :: pl, m)) by (apply resolve_node_split; auto). congruence.
    - exists (x :: pl). split_and!; auto. assert (Hl := rstrip_split (d ++ slash :: x)). destruct Hl as [k Hl].
      destruct k as [|k]; [rewrite app_nil_r in Hl; congruence|].
      assert (Hend := ends_no_slash d x X2 X1). rewrite Hl in Hend. unfold endswith in Hend. rewrite rev_app_distr in Hend.
      replace (repeat slash (S k)) with (repeat slash k ++ [slash]) in Hend by (rewrite <- repeat_cons; reflexivity).
      rewrite rev_app_distr in Hend. change (rev (lit "/")) with [slash] in Hend. cbn in Hend.
      destruct (rev (repeat slash k) ++ rev (rstrip_slash (d ++ slash :: x))); discriminate.
  Qed.

  Lemma mkdir_create path c r c' : isabs path = true -> c_string path -> resolve_node (o_fs (sysof c)) [] path false = Err (oserr ENOENT) ->
    sh [lit "mkdir"; lit "--"; path] c = (r, c') ->
    created path (fun pl n => exists p, n = new_dir p (sysof c) pl) (creatable (sysof c) path) c r c'.
  Proof.
    intros Ha Hp Hno E. destruct Hp as [Hs Hz].
    refine (sh_create _ (fun p => do_mkdir p path) path _ _ c r c' (run_mkdir rest path) E _ _).
    - intros p s1 y s' Hu Em. assert (H := do_mkdir_at p path (sysof c) s1 y s' Ha Hz Hu Em). destruct y as [u|e]; [|exact H].
      destruct H as (pl & H1 & H2). exists pl, (new_dir p (sysof c) pl). split_and!; eauto.
    - intros ((_ & Hfl & _) & _) Hcr. assert (c_string path) by (split; assumption).
      split; [discriminate|]. split; [reflexivity|]. split; [words|]. intros p. unfold do_mkdir.
      rewrite syscall_calm by exact Hfl. destruct (creatable_resolve _ _ Hcr Hno) as (pl & H1 & H2 & H3 & H4). rewrite H3, (isabs_cwd _ _ [] _ _ Ha), H4, H1.
      eexists. split; [reflexivity|exact Hfl].
  Qed.
  Lemma touch_create path c r c' : isabs path = true -> c_string path -> resolve_node (o_fs (sysof c)) [] path false = Err (oserr ENOENT) ->
    sh [lit "touch"; lit "--"; path] c = (r, c') ->
    created path (fun pl n => exists p, n = new_file p (sysof c) pl) (creatable (sysof c) path) c r c'.
  Proof.
    intros Ha Hp Hno E.
    refine (sh_create _ (fun p => do_touch p true path) path _ _ c r c' (run_touch rest path) E _ _).
    - intros p s1 y s' Hu Em. assert (H := do_touch_new p path (sysof c) s1 y s' Ha Hno Hu Em). destruct y as [u|e]; [|exact H].
      destruct H as (pl & H1 & H2). exists pl, (new_file p (sysof c) pl). split_and!; eauto.
    - intros ((_ & Hfl & _) & _) Hcr.
      split; [discriminate|]. split; [reflexivity|]. split; [words|]. intros p. unfold do_touch.
      rewrite syscall_calm by exact Hfl. destruct (creatable_resolve _ _ Hcr Hno) as (pl & H1 & H2 & H3 & H4). rewrite (isabs_cwd _ _ [] _ _ Ha), H4, H1.
      eexists. split; [reflexivity|exact Hfl].
  Qed.
  Lemma rm_rf_any path c r c' : isabs path = true -> sh [lit "rm"; lit "-rf"; lit "--"; path] c = (r, c') ->
    c' = set_remote (c_remote c') c /\
    match resolve (o_fs (sysof c)) [] path false with
    | Err _ => unaffected (sysof c) (sysof c')
    | Ok pl => only_removed pl (sysof c) (sysof c') /\ (r = Ok tt -> forall q, pl `suffix_of` q -> o_fs (sysof c') !! q = None)
    end.
  Proof.
    intros Ha E. destruct (sh_any exec sha512 _ _ c r c' (run_rm_rf rest path) E) as [H1 H2]. split; [exact H1|].
    destruct H2 as [[H2 [e ->]]|(p & s1 & y & F1 & F2 & F3 & F4)].
    - destruct (resolve _ [] path false); [|exact H2]. split; [|discriminate]. split; [apply unaffected_only; exact H2|].
      intros q. left. rewrite (unaffected_fs _ _ H2). reflexivity.
    - assert (H := do_rm_rf_at p path (sysof c) s1 y (sysof c') Ha F2 F3). destruct (resolve _ [] path false); [|exact H].
      destruct H as (G1 & G2 & G3). split; [split; assumption|]. intros Hr. apply G3. destruct y as [[]|e]; [reflexivity|]. assert (exists e', r = Err e') as [e' ->] by (destruct F4; assumption). discriminate.
  Qed.
  Lemma rm_rf_fine path c r c' pl n : isabs path = true -> c_string path -> sh [lit "rm"; lit "-rf"; lit "--"; path] c = (r, c') ->
    fine c -> resolve_node (o_fs (sysof c)) [] path false = Ok (pl, n) -> pl <> [] -> basename path <> lit "." -> basename path <> lit ".." ->
    r = Ok tt /\ healthy c'.
  Proof.
    intros Ha Hp E Hf Hr Hpl Hb1 Hb2. apply resolve_node_split in Hr as [Hr Hn].
    destruct (sh_fine exec sha512 _ _ c r c' (run_rm_rf rest path) E Hf) as (p & y & F1 & F2 & F3 & F4); [discriminate|reflexivity|words|].
    destruct Hf as ((_ & Hfl & Huid) & _). unfold do_rm_rf, next_fault in F2. rewrite Hfl in F2. rewrite (isabs_cwd _ _ [] _ _ Ha), Hr in F2.
    assert (Hbn : str_in (basename path) [lit "."; lit ".."] || match pl with [] => true | _ => false end = false).
    { unfold str_in. cbn. destruct (str_eqb_spec (basename path) (lit ".")); [contradiction|]. destruct (str_eqb_spec (basename path) (lit "..")); [contradiction|].
      destruct pl; [contradiction|reflexivity]. }
    rewrite Hbn in F2. injection F2 as <- Hs. split; [exact F4|]. split; [exact F3|]. rewrite <- Hs. split; assumption.
  Qed.
  Lemma rm_any path c r c' : isabs path = true -> sh [lit "rm"; lit "--"; path] c = (r, c') ->
    c' = set_remote (c_remote c') c /\
    ((unaffected (sysof c) (sysof c') /\ exists e, r = Err e) \/
     exists pl n, (r = Ok tt \/ exists e, r = Err e) /\ resolve_node (o_fs (sysof c)) [] path false = Ok (pl, n) /\ only_files (sysof c) (sysof c') /\ o_fs (sysof c') = delete pl (o_fs (sysof c))).
  Proof.
    intros Ha E. destruct (sh_any exec sha512 _ _ c r c' (run_rm rest path) E) as [H1 H2]. split; [exact H1|].
    destruct H2 as [H2|(p & s1 & y & F1 & F2 & F3 & F4)]; [left; exact H2|].
    assert (H := do_rm_at p path (sysof c) s1 y (sysof c') Ha F2 F3). destruct y as [u|e].
    - destruct H as (pl & n & G1 & _ & G2 & G3). right. exists pl, n. auto.
    - left. split; [exact H|destruct F4; assumption].
  Qed.
  Lemma rm_fine path c r c' pl n : isabs path = true -> c_string path -> sh [lit "rm"; lit "--"; path] c = (r, c') ->
    fine c -> resolve_node (o_fs (sysof c)) [] path false = Ok (pl, n) -> n_kind n <> KDir -> r = Ok tt /\ healthy c'.
  Proof.
    intros Ha Hp E Hf Hr Hk.
    destruct (sh_fine exec sha512 _ _ c r c' (run_rm rest path) E Hf) as (p & y & F1 & F2 & F3 & F4); [discriminate|reflexivity|words|].
    destruct Hf as ((_ & Hfl & Huid) & _). unfold do_rm in F2. rewrite syscall_calm in F2 by exact Hfl. rewrite (isabs_cwd_node _ _ [] _ _ Ha), Hr in F2.
    destruct (n_kind n) eqn:K; [| contradiction| |]; injection F2 as <- Hs; (split; [exact F4|]); (split; [exact F3|]); rewrite <- Hs; split; assumption.
  Qed.

  (** looking *)
  Lemma stat_any path f sha c x c' : stat exec sha512 path f sha c = (x, c') -> isabs path = true -> short path ->
    c' = set_remote (c_remote c') c /\ unaffected (sysof c) (sysof c') /\
    (os_ok (sysof c) -> honest (sysof c) ->
     match x with
     | Ok (Some st) => exists pl n, resolve_node (o_fs (sysof c)) [] path f = Ok (pl, n) /\ st = statres_of (sysof c) n (content_hash sha512 n sha)
     | Ok None => resolve_node (o_fs (sysof c)) [] path f = Err (oserr ENOENT)
     | Err _ => True
     end).
  Proof.
    intros E Ha Hp. unfold stat, via in E. destruct (conn_stat exec sha512 path f sha (c_remote c)) as [y v] eqn:Es. injection E as <- <-.
    split; [reflexivity|]. assert (H := stat_conn exec sha512 _ _ _ _ _ _ Es). destruct H as [H1 H2]. split; [exact H1|]. intros Hos Hh.
    rewrite (isabs_cwd_node _ _ (o_cwd (sysof c)) _ _ Ha). destruct y as [[st|]|e]; [|destruct H2 as [H2|H2]|exact I].
    - apply H2. exact Hos.
    - destruct H2. apply packet_ok_write. cbn. apply short_ok. assumption.
    - apply H2. exact Hh.
  Qed.
  Lemma stat_fine path f sha c : healthy c -> os_ok (sysof c) -> hash_ok sha512 -> c_string path ->
    stat exec sha512 path f sha c = (stat_result sha512 (sysof c) path f sha, c).
  Proof.
    intros (Hl & Hf & _) Hos Hh Hp. unfold stat, via. assert (Hr : c_remote c = Remote (sysof c) Up) by (unfold sysof; destruct (c_remote c) as [s l]; cbn in *; congruence).
    rewrite Hr, (stat_direct exec sha512 (sysof c) path f sha Hos Hh Hp Hf). rewrite <- Hr, set_remote_self. reflexivity.
  Qed.
End steps2.
