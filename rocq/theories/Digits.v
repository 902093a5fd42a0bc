(** Numbers as text: [show_N] is inverse to [py_int]. *)
From Coq Require Import Lia ZifyBool ZifyN ZifyNat.
From Verif Require Import Base.

Definition is_digit (base : N) (d : N) : Prop := (48 <= d < 48 + base)%N.
Definition value (base : N) (l : pystr) (a : N) : N := fold_left (fun a d => a * base + (d - 48))%N l a.

Lemma parse_value base l : (base <= 10)%N -> Forall (is_digit base) l -> forall a us, (l <> [] \/ us = false) ->
  parse_digits base l a us = Some (value base l a).
Proof.
  intros Hb H. induction H as [|d l Hd Hl IH]; intros a us Hus; cbn.
  - destruct Hus as [Hus| ->]; [congruence|reflexivity].
  - unfold is_digit in Hd. destruct (d =? 95)%N eqn:E; [lia|].
    assert (digit_val d = Some (d - 48)%N) as ->.
    { unfold digit_val. destruct ((48 <=? d)%N && (d <=? 57)%N) eqn:E2; [reflexivity|lia]. }
    destruct (d - 48 <? base)%N eqn:E3; [|lia]. apply IH. right. reflexivity.
Qed.
Lemma to_digits_spec base : (2 <= base <= 10)%N -> forall fuel n acc, (n < base ^ N.of_nat fuel)%N -> fuel <> O ->
  exists ds, to_digits fuel base n acc = ds ++ acc /\ Forall (is_digit base) ds /\ ds <> [] /\
    (forall a, value base ds a = a * base ^ N.of_nat (length ds) + n)%N /\ match ds with d :: _ :: _ => d <> 48%N | _ => True end /\
    (head ds = Some 48%N -> n = 0%N).
Proof.
  intros Hb. induction fuel as [|f IH]; [congruence|]. intros n acc Hn _. cbn [to_digits].
  assert (Hm : (n mod base < base)%N) by (apply N.mod_lt; lia).
  destruct (n <? base)%N eqn:E.
  - exists [(48 + n mod base)%N]. split_and!; auto; try discriminate.
    + constructor; [unfold is_digit; lia|constructor].
    + intros a. unfold value. cbn [fold_left length]. rewrite N.mod_small by lia. change (N.of_nat 1) with 1%N. rewrite N.pow_1_r. lia.
    + cbn. intros [= H]. rewrite N.mod_small in H by lia. lia.
  - assert (Hdiv : (n / base < base ^ N.of_nat f)%N).
    { apply N.div_lt_upper_bound; [lia|]. rewrite Nat2N.inj_succ, N.pow_succ_r' in Hn. lia. }
    destruct f as [|f]; [cbn in Hdiv; pose proof (N.div_str_pos n base); lia|].
    destruct (IH (n / base)%N ((48 + n mod base)%N :: acc) Hdiv ltac:(discriminate)) as (ds & E1 & Hds & Hne & Hv & Hlead & Hz).
    exists (ds ++ [(48 + n mod base)%N]). rewrite E1, <- app_assoc. split_and!; auto.
    + apply Forall_app. split; [assumption|]. constructor; [unfold is_digit; lia|constructor].
    + destruct ds; discriminate.
    + intros a. unfold value. rewrite fold_left_app. fold (value base ds a). rewrite Hv. cbn [fold_left].
      rewrite app_length. cbn [length]. rewrite Nat.add_1_r, Nat2N.inj_succ, N.pow_succ_r'.
      pose proof (N.div_mod n base). nia.
    + destruct ds as [|d1 ds]; [congruence|]. cbn. destruct ds as [|d2 ds].
      * cbn. intros ->. cbn in Hz. specialize (Hz eq_refl). pose proof (N.div_str_pos n base). lia.
      * exact Hlead.
    + destruct ds as [|d1 ds]; [congruence|]. cbn in *. intros H. specialize (Hz H). pose proof (N.div_str_pos n base). lia.
Qed.
Lemma show_spec base n : (2 <= base <= 10)%N ->
  Forall (is_digit base) (show_N base n) /\ show_N base n <> [] /\ value base (show_N base n) 0 = n /\
  match show_N base n with d :: _ :: _ => d <> 48%N | _ => True end.
Proof.
  intros Hb. unfold show_N. destruct (to_digits_spec base Hb (S (N.size_nat n)) n []) as (ds & E & H1 & H2 & H3 & H4 & _); [|discriminate|].
  - assert (H : (n < 2 ^ N.of_nat (N.size_nat n))%N).
    { destruct n as [|p]; [cbn; lia|]. cbn [N.size_nat]. 
      assert (Hp : N.of_nat (Pos.size_nat p) = Npos (Pos.size p)) by (induction p; cbn; try rewrite ?Nat2N.inj_succ, ?IHp; reflexivity || lia).
      rewrite Hp. apply (N.size_gt (Npos p)). }
    eapply N.lt_le_trans; [exact H|]. rewrite Nat2N.inj_succ.
    transitivity (2 ^ N.succ (N.of_nat (N.size_nat n)))%N; [apply N.pow_le_mono_r; lia|apply N.pow_le_mono_l; lia].
  - rewrite E, app_nil_r. split_and!; auto. rewrite H3. lia.
Qed.

Lemma digit_not_space base d : (base <= 10)%N -> is_digit base d -> is_space d = false.
Proof. unfold is_digit, is_space. lia. Qed.
Lemma lstrip_id c l : is_space c = false -> lstrip (c :: l) = c :: l.
Proof. cbn. intros ->. reflexivity. Qed.
Lemma strip_digits base l : (base <= 10)%N -> Forall (is_digit base) l -> strip l = l.
Proof.
  intros Hb H. unfold strip, rstrip. destruct l as [|c l]; [reflexivity|]. inversion H as [|? ? Hc Hl]; subst.
  rewrite lstrip_id by (eapply digit_not_space; eassumption).
  assert (Hr : Forall (is_digit base) (rev (c :: l))) by (apply Forall_rev; assumption).
  destruct (rev (c :: l)) as [|d r] eqn:E; [apply (f_equal length) in E; rewrite rev_length in E; discriminate|].
  inversion Hr; subst. rewrite lstrip_id by (eapply digit_not_space; eassumption).
  rewrite <- E. apply rev_involutive.
Qed.
Lemma py_int_digits base l : (base = 8 \/ base = 10)%N -> Forall (is_digit base) l -> l <> [] ->
  py_int base l = Some (Z.of_N (value base l 0)).
Proof.
  intros Hb H Hne. assert (Hb' : (base <= 10)%N) by lia. unfold py_int. rewrite (strip_digits base) by assumption.
  destruct l as [|c l]; [congruence|]. inversion H as [|? ? Hc Hl]; subst. unfold is_digit in Hc.
  destruct (c =? 45)%N eqn:E1; [lia|]. destruct (c =? 43)%N eqn:E2; [lia|].
  assert (Hp : strip_oct_prefix base (c :: l) = c :: l).
  { unfold strip_oct_prefix. destruct l as [|d l]; [reflexivity|]. inversion Hl as [|? ? Hd _]; subst. unfold is_digit in Hd.
    destruct ((base =? 8)%N && (c =? 48)%N && ((d =? 111)%N || (d =? 79)%N)) eqn:E3; [lia|reflexivity]. }
  rewrite Hp, parse_value; auto.
Qed.
Theorem py_int_show base n : (base = 8 \/ base = 10)%N -> py_int base (show_N base n) = Some (Z.of_N n).
Proof.
  intros Hb. destruct (show_spec base n) as (H1 & H2 & H3 & _); [lia|]. rewrite py_int_digits by assumption. rewrite H3. reflexivity.
Qed.
Lemma show_inj base a b : (base = 8 \/ base = 10)%N -> show_N base a = show_N base b -> a = b.
Proof.
  intros Hb E. pose proof (py_int_show base a Hb) as H. rewrite E, (py_int_show base b Hb) in H. injection H. lia.
Qed.
(** negative modes *)
Lemma py_int_letter n : py_int 8 (111%N :: show_N 8 n) = None.
Proof.
  destruct (show_spec 8 n ltac:(lia)) as (H1 & H2 & _ & _). unfold py_int.
  assert (Hs : strip (111%N :: show_N 8 n) = 111%N :: show_N 8 n).
  { unfold strip, rstrip. rewrite lstrip_id by reflexivity.
    cbn [rev]. assert (Hr : Forall (is_digit 8) (rev (show_N 8 n))) by (apply Forall_rev; assumption).
    destruct (rev (show_N 8 n)) as [|d r] eqn:E; [apply (f_equal length) in E; rewrite rev_length in E; destruct (show_N 8 n); [congruence|discriminate]|].
    cbn [app]. inversion Hr; subst. rewrite lstrip_id by (eapply digit_not_space; [|eassumption]; lia).
    change (d :: r ++ [111%N]) with ((d :: r) ++ [111%N]). rewrite <- E, rev_app_distr, rev_involutive. reflexivity. }
  rewrite Hs. clear Hs. destruct (show_N 8 n) as [|d r]; [congruence|]. reflexivity.
Qed.
