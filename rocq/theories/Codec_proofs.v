(** Lemmas about the wire format. *)
From Coq Require Import Lia ZifyBool ZifyN ZifyNat.
From Verif Require Import Base Utf8 Utf8_proofs Codec Spec_Codec.

Ltac Zify.zify_post_hook ::= Z.div_mod_to_equations.

(** ** Readers *)

Lemma splitN_take {A} n (l : list A) : splitN n l = (take (N.to_nat n) l, drop (N.to_nat n) l).
Proof.
  revert n. induction l as [|b r IH]; intros n; cbn [splitN].
  { rewrite take_nil, drop_nil. reflexivity. }
  destruct (N.eqb_spec n 0) as [->|Hn]; [reflexivity|].
  rewrite IH. replace (N.to_nat n) with (S (N.to_nat (N.pred n))) by lia. reflexivity.
Qed.

Lemma chunk_read_flat n cs d cs' :
  chunk_read n cs = (d, cs') -> splitN n (List.concat cs) = (d, List.concat cs').
Proof.
  revert n d cs'. induction cs as [|c r IH]; intros n d cs' H; cbn [chunk_read] in H.
  { injection H as <- <-. reflexivity. }
  destruct (N.eqb_spec n 0) as [->|Hn].
  { injection H as <- <-. rewrite splitN_take. reflexivity. }
  unfold py_len in H.
  destruct (N.leb_spec (N.of_nat (length c)) n) as [Hle|Hgt].
  - destruct (chunk_read (n - N.of_nat (length c))%N r) as [x y] eqn:E. injection H as <- <-.
    apply IH in E. rewrite splitN_take in E |- *. injection E as E1 E2. cbn [List.concat].
    rewrite take_app_ge, drop_app_ge by lia.
    replace (N.to_nat n - length c)%nat with (N.to_nat (n - N.of_nat (length c))) by lia.
    rewrite E1, E2. reflexivity.
  - rewrite splitN_take in H. injection H as <- <-. rewrite splitN_take. cbn [List.concat].
    rewrite take_app_le, drop_app_le by lia. reflexivity.
Qed.

Section sim.
  Context {S1 S2 : Type} (rd1 : N -> S1 -> bytes * S1) (rd2 : N -> S2 -> bytes * S2)
    (rem1 : S1 -> nat) (rem2 : S2 -> nat) (R : S1 -> S2 -> Prop).
  Hypothesis Hrd : forall n a b, R a b -> (rd1 n a).1 = (rd2 n b).1 /\ R (rd1 n a).2 (rd2 n b).2.
  Hypothesis Hrem : forall a b, R a b -> rem1 a = rem2 b.

  Definition rsim {A} (x : result A * S1) (y : result A * S2) : Prop := x.1 = y.1 /\ R x.2 y.2.

  Lemma read_sim n a b : R a b -> rsim (read rd1 n a) (read rd2 n b).
  Proof.
    intros H. unfold read, rsim. destruct (n <? 2 ^ 63)%N; [|auto].
    destruct (Hrd n a b H) as [H1 H2].
    destruct (rd1 n a), (rd2 n b); cbn in *. subst. auto.
  Qed.

  Local Ltac sim_step lem :=
    let H1 := fresh "H1" in let H2 := fresh "H2" in
    destruct lem as [H1 H2];
    match type of H1 with fst ?x = fst ?y =>
      destruct x as [[?|?] ?], y as [[?|?] ?]; cbn in H1, H2; try discriminate H1;
      [injection H1 as ->|injection H1 as ->]
    end.

  Lemma unpack_sim k a b : R a b -> rsim (unpack rd1 k a) (unpack rd2 k b).
  Proof.
    intros H. unfold unpack. sim_step (read_sim (N.of_nat k) a b H).
    - destruct (_ =? _)%nat; split; auto.
    - split; auto.
  Qed.

  Lemma deser_bytes_sim a b : R a b -> rsim (deser_bytes rd1 a) (deser_bytes rd2 b).
  Proof.
    intros H. unfold deser_bytes. sim_step (unpack_sim 8 a b H).
    - apply read_sim. assumption.
    - split; auto.
  Qed.

  Lemma deser_list_sim f g : (forall a b, R a b -> rsim (f a) (g b)) ->
    forall fuel n a b, R a b -> rsim (deser_list f fuel n a) (deser_list g fuel n b).
  Proof.
    intros Hfg. induction fuel as [|fuel IH]; intros n a b H; cbn [deser_list];
      destruct (n =? 0)%N; try (split; auto; fail).
    sim_step (Hfg a b H); [|split; auto].
    sim_step (IH (N.pred n) s s0 H2); split; auto.
  Qed.

  Lemma deserialize_sim t : forall a b, R a b -> rsim (deserialize rd1 rem1 t a) (deserialize rd2 rem2 t b).
  Proof.
    induction t; intros a b H; cbn [deserialize].
    1: sim_step (unpack_sim 1 a b H); split; auto.
    1,2: sim_step (unpack_sim 4 a b H); split; auto.
    1,2: sim_step (unpack_sim 8 a b H); split; auto.
    - sim_step (deser_bytes_sim a b H); split; auto.
    - sim_step (deser_bytes_sim a b H); [|split; auto]. destruct (utf8_decode _); split; auto.
    - sim_step (unpack_sim 1 a b H); [|split; auto]. destruct (_ =? _)%Z; [split; auto|]. auto.
    - sim_step (unpack_sim 8 a b H); [|split; auto].
      rewrite <- (Hrem _ _ H2).
      sim_step (deser_list_sim _ _ IHt (S (rem1 s)) (Z.to_N a1) s s0 H2); split; auto.
  Qed.

  Lemma deser_fields_sim ts : forall a b, R a b -> rsim (deser_fields rd1 rem1 ts a) (deser_fields rd2 rem2 ts b).
  Proof.
    induction ts as [|t ts IH]; intros a b H; cbn [deser_fields]; [split; auto|].
    sim_step (deserialize_sim t a b H); [|split; auto].
    sim_step (IH s s0 H2); split; auto.
  Qed.

  Lemma read_packet_sim a b : R a b -> rsim (read_packet rd1 rem1 a) (read_packet rd2 rem2 b).
  Proof.
    intros H. unfold read_packet. sim_step (unpack_sim 4 a b H); [|split; auto].
    destruct (schema _); [|split; auto].
    sim_step (deser_fields_sim l s s0 H2); [|split; auto].
    destruct (of_fields _ _); split; auto.
  Qed.

  Lemma receive_gen_sim q a b : R a b -> rsim (receive_gen rd1 rem1 q a) (receive_gen rd2 rem2 q b).
  Proof.
    intros H. unfold receive_gen. sim_step (read_packet_sim a b H); [split; auto|].
    destruct e0; split; auto.
  Qed.
End sim.

(** Reading from one plain list of bytes. *)
Notation fread := (fun n (l : bytes) => splitN n l).
Notation flen := (fun l : bytes => length l).

Lemma receive_flat q cs :
  (receive_packet q cs).1 = (receive_gen fread flen q (List.concat cs)).1 /\
  List.concat (receive_packet q cs).2 = (receive_gen fread flen q (List.concat cs)).2.
Proof.
  unfold receive_packet.
  apply (receive_gen_sim chunk_read fread chunks_remaining flen (fun cs l => List.concat cs = l)).
  - intros n a b <-. destruct (chunk_read n a) as [d cs'] eqn:E.
    apply chunk_read_flat in E. rewrite E. auto.
  - intros a b <-. reflexivity.
  - reflexivity.
Qed.

(** ** Integers *)

Lemma be_bytes_length k z : length (be_bytes k z) = k.
Proof. induction k; cbn [be_bytes length]; congruence. Qed.

Lemma be_val_app acc l1 l2 : be_val acc (l1 ++ l2) = be_val (be_val acc l1) l2.
Proof. revert acc. induction l1; intros acc; cbn [app be_val]; auto. Qed.

Lemma be_val_acc acc l : be_val acc l = (acc * 256 ^ Z.of_nat (length l) + be_val 0 l)%Z.
Proof.
  revert acc. induction l as [|b r IH]; intros acc; cbn [be_val length].
  { cbn. lia. }
  rewrite IH, (IH (0 * 256 + _)%Z). rewrite Nat2Z.inj_succ, Z.pow_succ_r by lia. ring.
Qed.

Lemma be_val_bound l : (0 <= be_val 0 l < 256 ^ Z.of_nat (length l))%Z.
Proof.
  induction l as [|b r IH]; cbn [be_val length]; [cbn; lia|].
  rewrite be_val_acc, Nat2Z.inj_succ, Z.pow_succ_r by lia.
  pose proof (b2n_bound b).
  assert (0 < 256 ^ Z.of_nat (length r))%Z by (apply Z.pow_pos_nonneg; lia). nia.
Qed.

Lemma be_val_bytes k z : be_val 0 (be_bytes k z) = (z mod 256 ^ Z.of_nat k)%Z.
Proof.
  induction k as [|k IH]; cbn [be_bytes be_val].
  { cbn. rewrite Z.mod_1_r. reflexivity. }
  rewrite be_val_acc, be_bytes_length, IH.
  rewrite b2n_n2b by (pose proof (Z.mod_pos_bound (z / 256 ^ Z.of_nat k) 256); lia).
  rewrite Z2N.id by (apply Z.mod_pos_bound; lia).
  rewrite Nat2Z.inj_succ, Z.pow_succ_r by lia.
  set (m := (256 ^ Z.of_nat k)%Z).
  assert (0 < m)%Z by (apply Z.pow_pos_nonneg; lia).
  replace (256 * m)%Z with (m * 256)%Z by ring.
  rewrite Z.rem_mul_r by lia. ring.
Qed.

Lemma be_bytes_val l : be_bytes (length l) (be_val 0 l) = l.
Proof.
  induction l as [|b r IH]; [reflexivity|]. cbn [length be_bytes be_val].
  rewrite be_val_acc.
  set (m := (256 ^ Z.of_nat (length r))%Z).
  assert (Hm : (0 < m)%Z) by (apply Z.pow_pos_nonneg; lia).
  pose proof (be_val_bound r) as Hb. fold m in Hb. pose proof (b2n_bound b) as Hb2.
  replace ((0 * 256 + Z.of_N (b2n b)) * m + be_val 0 r)%Z with (be_val 0 r + Z.of_N (b2n b) * m)%Z by ring.
  rewrite Z.div_add by lia. rewrite Z.div_small by lia. rewrite Z.add_0_l.
  rewrite Z.mod_small by lia. rewrite N2Z.id, n2b_b2n. f_equal.
  assert (G : forall k a c, (k <= length r)%nat -> be_bytes k (a + c * m) = be_bytes k a).
  { intros k a c. induction k as [|k IHk]; intros Hk; [reflexivity|]. cbn [be_bytes].
    rewrite IHk by lia. do 3 f_equal.
    unfold m. replace (length r) with (S k + (length r - S k))%nat by lia.
    rewrite Nat2Z.inj_add, Nat2Z.inj_succ, Z.pow_add_r, Z.pow_succ_r by lia.
    set (e := (256 ^ Z.of_nat (length r - S k))%Z). set (d := (256 ^ Z.of_nat k)%Z).
    assert (0 < d)%Z by (apply Z.pow_pos_nonneg; lia).
    replace (a + c * (256 * d * e))%Z with (a + (c * e * 256) * d)%Z by ring.
    rewrite Z.div_add by lia. rewrite Z.mod_add by lia. reflexivity. }
  rewrite G by lia. exact IH.
Qed.

(** Reading at least [k] bytes. *)
Lemma read_app (d rest : bytes) :
  (N.of_nat (length d) < 2 ^ 63)%N -> read fread (N.of_nat (length d)) (d ++ rest) = (Ok d, rest).
Proof.
  intros H. unfold read. destruct (N.ltb_spec (N.of_nat (length d)) (2 ^ 63)); [|lia].
  rewrite splitN_take, Nat2N.id, take_app, drop_app. reflexivity.
Qed.

Lemma read_ok n l d r : read fread n l = (Ok d, r) ->
  l = d ++ r /\ (length d = N.to_nat n \/ (r = [] /\ (length d < N.to_nat n)%nat)).
Proof.
  unfold read. destruct (N.ltb_spec n (2 ^ 63)); [|discriminate].
  rewrite splitN_take. intros [= <- <-]. split; [rewrite take_drop; reflexivity|].
  rewrite take_length. destruct (decide (N.to_nat n <= length l)%nat); [left; lia|].
  right. rewrite drop_ge by lia. split; [reflexivity|lia].
Qed.

Lemma unpack_app k (d rest : bytes) : length d = k -> (k <= 8)%nat ->
  unpack fread k (d ++ rest) = (Ok (be_val 0 d), rest).
Proof.
  intros <- Hk. unfold unpack. rewrite read_app by lia. rewrite Nat.eqb_refl. reflexivity.
Qed.

Lemma unpack_ok k l z r : unpack fread k l = (Ok z, r) ->
  exists d, l = d ++ r /\ length d = k /\ z = be_val 0 d.
Proof.
  unfold unpack. destruct (read fread (N.of_nat k) l) as [[d|] s'] eqn:E; [|discriminate].
  apply read_ok in E as [-> _].
  destruct (Nat.eqb_spec (length d) k); [|discriminate]. intros [= <- <-]. eauto.
Qed.

Lemma pack_int_ok k lo hi z bs : pack_int k lo hi z = (bs, None) ->
  (lo <= z <= hi)%Z /\ bs = be_bytes k z.
Proof.
  unfold pack_int. destruct ((lo <=? z) && (z <=? hi))%Z eqn:E; [|discriminate].
  intros [= <-]. split; [lia|reflexivity].
Qed.

Lemma wseq_ok a b bs : wseq a b = (bs, None) ->
  exists x y, a = (x, None) /\ b tt = (y, None) /\ bs = x ++ y.
Proof.
  destruct a as [x [e|]]; cbn; [discriminate|].
  destruct (b tt) as [y e]. intros [= <- ->]. eauto.
Qed.

Lemma ser_len_ok {A} (l : list A) bs : ser_len l = (bs, None) ->
  (N.of_nat (length l) < 2 ^ 63)%N /\ bs = be_bytes 8 (Z.of_nat (length l)).
Proof.
  unfold ser_len, py_len. destruct (N.ltb_spec (N.of_nat (length l)) (2 ^ 63)); [|discriminate].
  intros [_ ->]%pack_int_ok. split; [assumption|]. f_equal. lia.
Qed.

Lemma unpack_be k (z : Z) (rest : bytes) : (k <= 8)%nat -> (0 <= z < 256 ^ Z.of_nat k)%Z ->
  unpack fread k (be_bytes k z ++ rest) = (Ok z, rest).
Proof.
  intros Hk Hz. rewrite unpack_app by (auto using be_bytes_length).
  rewrite be_val_bytes, Z.mod_small by assumption. reflexivity.
Qed.

Lemma unpack_be_signed k (z : Z) (rest : bytes) : (0 < k <= 8)%nat ->
  (- 2 ^ (8 * Z.of_nat k - 1) <= z <= 2 ^ (8 * Z.of_nat k - 1) - 1)%Z ->
  exists w, unpack fread k (be_bytes k z ++ rest) = (Ok w, rest) /\ to_signed k w = z.
Proof.
  intros Hk Hz. rewrite unpack_app by (auto using be_bytes_length; lia).
  rewrite be_val_bytes. eexists; split; [reflexivity|].
  unfold to_signed.
  assert (E : (256 ^ Z.of_nat k = 2 ^ (8 * Z.of_nat k - 1) * 2)%Z).
  { change 256%Z with (2 ^ 8)%Z. rewrite <- Z.pow_mul_r by lia.
    replace (8 * Z.of_nat k)%Z with (Z.succ (8 * Z.of_nat k - 1)) at 1 by lia.
    rewrite Z.pow_succ_r by lia. ring. }
  rewrite E.
  replace (2 ^ (8 * Z.of_nat k))%Z with (2 ^ (8 * Z.of_nat k - 1) * 2)%Z.
  2:{ rewrite <- E. change 256%Z with (2 ^ 8)%Z. rewrite <- Z.pow_mul_r by lia. reflexivity. }
  set (h := (2 ^ (8 * Z.of_nat k - 1))%Z) in *.
  assert (0 < h)%Z by (apply Z.pow_pos_nonneg; lia).
  destruct (decide (0 <= z)%Z) as [Hp|Hn].
  - rewrite Z.mod_small by lia. destruct (Z.ltb_spec z h); lia.
  - replace (z mod (h * 2))%Z with (z + h * 2)%Z.
    + destruct (Z.ltb_spec (z + h * 2) h); lia.
    + replace z with ((z + h * 2) + (-1) * (h * 2))%Z at 2 by ring.
      rewrite Z.mod_add, Z.mod_small by lia. reflexivity.
Qed.

(** ** Round trip of values *)

(** Induction over nested lists of values. *)
Lemma deserialize_serialize t : forall v bs rest,
  serialize t v = (bs, None) ->
  (0 < length bs)%nat /\ deserialize fread flen t (bs ++ rest) = (Ok v, rest).
Proof.
  induction t; intros v bs rest H; cbn [serialize] in H.
  - destruct v; try discriminate. injection H as <-. split; [cbn; lia|].
    cbn [deserialize]. rewrite unpack_app by (cbn; lia). destruct b; reflexivity.
  - destruct v; try discriminate. apply pack_int_ok in H as [Hz ->].
    rewrite be_bytes_length. split; [lia|]. cbn [deserialize].
    destruct (unpack_be_signed 4 z rest) as (w & -> & ->); [lia|cbn; lia|reflexivity].
  - destruct v; try discriminate. apply pack_int_ok in H as [Hz ->].
    rewrite be_bytes_length. split; [lia|]. cbn [deserialize].
    rewrite unpack_be by (cbn; lia). reflexivity.
  - destruct v; try discriminate. apply pack_int_ok in H as [Hz ->].
    rewrite be_bytes_length. split; [lia|]. cbn [deserialize].
    destruct (unpack_be_signed 8 z rest) as (w & -> & ->); [lia|cbn; lia|reflexivity].
  - destruct v; try discriminate. apply pack_int_ok in H as [Hz ->].
    rewrite be_bytes_length. split; [lia|]. cbn [deserialize].
    rewrite unpack_be by (cbn; lia). reflexivity.
  - destruct v; try discriminate. apply wseq_ok in H as (x & y & [Hl ->]%ser_len_ok & [= <-] & ->).
    rewrite app_length, be_bytes_length. split; [lia|]. cbn [deserialize]. unfold deser_bytes.
    rewrite <- app_assoc, unpack_be by (cbn; lia).
    replace (Z.to_N (Z.of_nat (length b))) with (N.of_nat (length b)) by lia.
    rewrite read_app by assumption. reflexivity.
  - destruct v; try discriminate. destruct (utf8_encode s) as [b|] eqn:Hs; [|discriminate].
    apply wseq_ok in H as (x & y & [Hl ->]%ser_len_ok & [= <-] & ->).
    rewrite app_length, be_bytes_length. split; [lia|]. cbn [deserialize]. unfold deser_bytes.
    rewrite <- app_assoc, unpack_be by (cbn; lia).
    replace (Z.to_N (Z.of_nat (length b))) with (N.of_nat (length b)) by lia.
    rewrite read_app by assumption. rewrite (utf8_roundtrip _ _ Hs). reflexivity.
  - assert (C : (v = VNone /\ bs = [n2b 0]) \/ (exists y, serialize t v = (y, None) /\ bs = n2b 1 :: y)).
    { destruct v; [right|right|right|right|left|right];
        try (apply wseq_ok in H as (x & y & [= <-] & Hy & ->); eauto).
      injection H as <-. auto. }
    destruct C as [[-> ->]|(y & Hy & ->)].
    + split; [cbn; lia|]. cbn [deserialize]. rewrite unpack_app by (cbn; lia). reflexivity.
    + split; [cbn; lia|]. cbn [deserialize].
      change ((n2b 1 :: y) ++ rest) with ([n2b 1] ++ (y ++ rest)).
      rewrite unpack_app by (cbn; lia). apply (IHt v y rest Hy).
  - destruct v; try discriminate. apply wseq_ok in H as (x & y & [Hl ->]%ser_len_ok & Hy & ->).
    rewrite app_length, be_bytes_length. split; [lia|]. cbn [deserialize].
    rewrite <- app_assoc, unpack_be by (cbn; lia).
    assert (G : forall l y rest fuel,
      (fix go (l : list value) := match l with
         | [] => ([], None) | x :: r => wseq (serialize t x) (fun _ => go r) end) l = (y, None) ->
      (length l <= length y)%nat /\
      ((length y < fuel)%nat ->
       deser_list (deserialize fread flen t) fuel (N.of_nat (length l)) (y ++ rest) = (Ok l, rest))).
    { clear -IHt. induction l as [|v l IH]; intros y rest fuel H.
      { injection H as <-. split; [cbn; lia|]. intros _. destruct fuel; reflexivity. }
      apply wseq_ok in H as (x & y' & Hx & Hy & ->).
      destruct (IHt v x (y' ++ rest) Hx) as [Hpos Hd].
      rewrite app_length. destruct (IH y' rest (pred fuel) Hy) as [IH1 IH2]. cbn [length].
      split; [lia|]. intros Hf. destruct fuel as [|fuel]; [lia|]. cbn [deser_list].
      destruct (N.eqb_spec (N.of_nat (S (length l))) 0); [lia|].
      rewrite <- app_assoc, Hd.
      replace (N.pred (N.of_nat (S (length l)))) with (N.of_nat (length l)) by lia.
      cbn [pred] in IH2. rewrite IH2 by lia. reflexivity. }
    replace (Z.to_N (Z.of_nat (length l))) with (N.of_nat (length l)) by lia.
    destruct (G l y rest (S (length (y ++ rest))) Hy) as [_ G2].
    rewrite G2 by (rewrite app_length; lia). reflexivity.
Qed.

Lemma deser_fields_ser ts : forall vs bs rest, length vs = length ts ->
  ser_fields ts vs = (bs, None) -> deser_fields fread flen ts (bs ++ rest) = (Ok vs, rest).
Proof.
  induction ts as [|t ts IH]; intros vs bs rest Hlen H; destruct vs as [|v vs]; try discriminate Hlen.
  { injection H as <-. reflexivity. }
  cbn [ser_fields] in H. apply wseq_ok in H as (x & y & Hx & Hy & ->).
  cbn [deser_fields]. rewrite <- app_assoc.
  destruct (deserialize_serialize t v x (y ++ rest) Hx) as [_ ->].
  rewrite (IH vs y rest) by (assumption || (injection Hlen; auto)). reflexivity.
Qed.

Lemma mapM_to_str l : mapM to_str (List.map VStr l) = Some l.
Proof. induction l as [|x l IH]; cbn; [reflexivity|]. rewrite IH. reflexivity. Qed.

Lemma of_fields_pfields p : of_fields (pid p) (pfields p) = Some p.
Proof.
  destruct p; cbn [pid pfields of_fields];
    repeat match goal with o : option _ |- _ => destruct o end; cbn; rewrite ?mapM_to_str; reflexivity.
Qed.

Lemma schema_pid p : exists ts, schema (pid p) = Some ts /\ length (pfields p) = length ts.
Proof. destruct p; eexists; (split; [reflexivity|reflexivity]). Qed.

Lemma pid_bound p : (pid p < 23)%N.
Proof. destruct p; reflexivity. Qed.

Lemma read_packet_write p bs rest :
  write_packet p = (bs, None) -> read_packet fread flen (bs ++ rest) = (Ok p, rest).
Proof.
  unfold write_packet. intros H. apply wseq_ok in H as (x & y & Hx & Hy & ->).
  cbn [serialize] in Hx. apply pack_int_ok in Hx as [_ ->].
  unfold read_packet. rewrite <- app_assoc. pose proof (pid_bound p).
  rewrite unpack_be by (cbn; lia). rewrite N2Z.id.
  destruct (schema_pid p) as (ts & Hts & Hlen). rewrite Hts in Hy |- *. cbn [default] in Hy.
  rewrite (deser_fields_ser ts (pfields p) y rest Hlen Hy).
  rewrite of_fields_pfields. reflexivity.
Qed.

Lemma receive_write p bs rest q :
  write_packet p = (bs, None) -> receive_gen fread flen q (bs ++ rest) = (deliver q p, rest).
Proof. intros H. unfold receive_gen. rewrite (read_packet_write p bs rest H). reflexivity. Qed.

Lemma receive_roundtrip p bs rest q cs :
  write_packet p = (bs, None) -> List.concat cs = bs ++ rest ->
  exists cs', receive_packet q cs = (deliver q p, cs') /\ List.concat cs' = rest.
Proof.
  intros H Hcs. destruct (receive_flat q cs) as [H1 H2].
  rewrite Hcs, (receive_write p bs rest q H) in H1, H2. cbn in H1, H2.
  destruct (receive_packet q cs) as [r cs']. cbn in H1, H2. subst. eauto.
Qed.

(** ** Unambiguous streams *)

Lemma write_nonempty p bs : write_packet p = (bs, None) -> bs <> [].
Proof.
  intros H. apply wseq_ok in H as (x & y & Hx & _ & ->).
  apply pack_int_ok in Hx as [_ ->]. intros E. apply (f_equal length) in E.
  rewrite app_length, be_bytes_length in E. cbn in E. lia.
Qed.

Lemma write_prefix_free p1 p2 b1 b2 r1 r2 :
  write_packet p1 = (b1, None) -> write_packet p2 = (b2, None) ->
  b1 ++ r1 = b2 ++ r2 -> p1 = p2 /\ r1 = r2.
Proof.
  intros H1 H2 E.
  pose proof (read_packet_write p1 b1 r1 H1) as G1.
  pose proof (read_packet_write p2 b2 r2 H2) as G2.
  rewrite E in G1. rewrite G1 in G2. injection G2 as -> ->. auto.
Qed.

(** ** Reading arbitrary bytes *)

Definition rd_err (e : exn) : Prop := e = StructError \/ e = UnicodeDecodeError \/ e = OverflowError.

Lemma read_err n l e r : read fread n l = (Err e, r) -> e = OverflowError.
Proof. unfold read. destruct (n <? 2 ^ 63)%N; [destruct (splitN n l)|]; congruence. Qed.

Lemma unpack_err k l e r : unpack fread k l = (Err e, r) -> rd_err e.
Proof.
  unfold unpack, rd_err. destruct (read fread (N.of_nat k) l) as [[d|e'] s'] eqn:E.
  - destruct (_ =? _)%nat; [discriminate|]. intros [= <- _]. auto.
  - apply read_err in E as ->. intros [= <- _]. auto.
Qed.

Lemma deser_bytes_err l e r : deser_bytes fread l = (Err e, r) -> rd_err e.
Proof.
  unfold deser_bytes. destruct (unpack fread 8 l) as [[z|e'] s'] eqn:E.
  - intros H%read_err. unfold rd_err; auto.
  - intros [= <- _]. eapply unpack_err; eauto.
Qed.

Lemma deser_bytes_ok l b r : deser_bytes fread l = (Ok b, r) ->
  exists h n, l = h ++ b ++ r /\ length h = 8%nat /\ (length b <= n)%nat /\ (N.of_nat n < 2 ^ 63)%N
    /\ be_val 0 h = Z.of_nat n /\ (length b = n \/ r = []).
Proof.
  unfold deser_bytes. destruct (unpack fread 8 l) as [[z|e'] s'] eqn:E; [|discriminate].
  apply unpack_ok in E as (h & -> & Hh & ->). intros H.
  assert (Hn : (Z.to_N (be_val 0 h) < 2 ^ 63)%N).
  { unfold read in H. destruct (N.ltb_spec (Z.to_N (be_val 0 h)) (2 ^ 63)); [assumption|discriminate]. }
  apply read_ok in H as [-> Hl]. pose proof (be_val_bound h).
  exists h, (Z.to_nat (be_val 0 h)). split_and!; auto; try lia.
  destruct Hl as [|[? ?]]; [left; lia|auto].
Qed.

(** Types of values. *)
Fixpoint typed (t : vtype) (v : value) : Prop :=
  match t with
  | TBool => exists b, v = VBool b
  | TI32 | TU32 | TI64 | TU64 => exists z, v = VInt z
  | TBytes => exists b, v = VBytes b
  | TStr => exists s, v = VStr s
  | TOpt t' => v = VNone \/ typed t' v
  | TList t' => exists l, v = VList l /\ Forall (typed t') l
  end.

Lemma pack_int_range k lo hi z : (lo <= z <= hi)%Z -> pack_int k lo hi z = (be_bytes k z, None).
Proof. intros H. unfold pack_int. destruct ((lo <=? z) && (z <=? hi))%Z eqn:E; [reflexivity|lia]. Qed.

Lemma ser_len_small {A} (l : list A) : (N.of_nat (length l) < 2 ^ 63)%N ->
  ser_len l = (be_bytes 8 (Z.of_nat (length l)), None).
Proof.
  intros H. unfold ser_len, py_len. destruct (N.ltb_spec (N.of_nat (length l)) (2 ^ 63)); [|lia].
  rewrite pack_int_range by (cbn; lia). do 2 f_equal. lia.
Qed.

Lemma to_signed_range k z : (0 < k)%nat -> (0 <= z < 256 ^ Z.of_nat k)%Z ->
  (- 2 ^ (8 * Z.of_nat k - 1) <= to_signed k z <= 2 ^ (8 * Z.of_nat k - 1) - 1)%Z.
Proof.
  intros Hk Hz. unfold to_signed.
  assert (E : (256 ^ Z.of_nat k = 2 ^ (8 * Z.of_nat k))%Z).
  { change 256%Z with (2 ^ 8)%Z. rewrite <- Z.pow_mul_r by lia. reflexivity. }
  assert (E2 : (2 ^ (8 * Z.of_nat k) = 2 * 2 ^ (8 * Z.of_nat k - 1))%Z).
  { replace (8 * Z.of_nat k)%Z with (Z.succ (8 * Z.of_nat k - 1)) at 1 by lia. rewrite Z.pow_succ_r by lia. reflexivity. }
  rewrite E in Hz. rewrite E2 in Hz |- *.
  set (h := (2 ^ (8 * Z.of_nat k - 1))%Z) in *.
  destruct (Z.ltb_spec z h); lia.
Qed.

(** What a successful read gives: a value that can be serialized again, from a non empty prefix. *)
Lemma deserialize_ok t : forall l v r, deserialize fread flen t l = (Ok v, r) ->
  (N.of_nat (length l) < 2 ^ 63)%N ->
  exists d bs, l = d ++ r /\ d <> [] /\ serialize t v = (bs, None) /\ (length bs <= length d)%nat.
Proof.
  assert (Hne : forall (d : bytes) k, length d = S k -> d <> []) by (intros [|] k; discriminate).
  induction t; intros l v r H Hsm; cbn [deserialize] in H.
  - destruct (unpack fread 1 l) as [[z|?] ?] eqn:E; [|discriminate]. injection H as <- <-.
    apply unpack_ok in E as (d & -> & Hd & ->). cbn [serialize]. exists d. eexists. split_and!; eauto. cbn; lia.
  - destruct (unpack fread 4 l) as [[z|?] ?] eqn:E; [|discriminate]. injection H as <- <-.
    apply unpack_ok in E as (d & -> & Hd & ->). cbn [serialize]. exists d.
    rewrite pack_int_range; [|pose proof (be_val_bound d) as Hb; rewrite Hd in Hb; apply (to_signed_range 4); [lia|exact Hb]].
    eexists. split_and!; eauto. rewrite be_bytes_length; lia.
  - destruct (unpack fread 4 l) as [[z|?] ?] eqn:E; [|discriminate]. injection H as <- <-.
    apply unpack_ok in E as (d & -> & Hd & ->). cbn [serialize]. exists d.
    rewrite pack_int_range; [|pose proof (be_val_bound d) as Hb; rewrite Hd in Hb; cbn in Hb |- *; lia].
    eexists. split_and!; eauto. rewrite be_bytes_length; lia.
  - destruct (unpack fread 8 l) as [[z|?] ?] eqn:E; [|discriminate]. injection H as <- <-.
    apply unpack_ok in E as (d & -> & Hd & ->). cbn [serialize]. exists d.
    rewrite pack_int_range; [|pose proof (be_val_bound d) as Hb; rewrite Hd in Hb; apply (to_signed_range 8); [lia|exact Hb]].
    eexists. split_and!; eauto. rewrite be_bytes_length; lia.
  - destruct (unpack fread 8 l) as [[z|?] ?] eqn:E; [|discriminate]. injection H as <- <-.
    apply unpack_ok in E as (d & -> & Hd & ->). cbn [serialize]. exists d.
    rewrite pack_int_range; [|pose proof (be_val_bound d) as Hb; rewrite Hd in Hb; cbn in Hb |- *; lia].
    eexists. split_and!; eauto. rewrite be_bytes_length; lia.
  - destruct (deser_bytes fread l) as [[b|?] ?] eqn:E; [|discriminate]. injection H as <- <-.
    apply deser_bytes_ok in E as (h & n & -> & Hh & Hb & Hn & _). cbn [serialize].
    exists (h ++ b). rewrite ser_len_small by lia. cbn [wseq]. eexists.
    rewrite app_assoc. split_and!; [reflexivity|destruct h; discriminate|reflexivity|].
    rewrite !app_length, be_bytes_length. lia.
  - destruct (deser_bytes fread l) as [[b|?] ?] eqn:E; [|discriminate].
    destruct (utf8_decode b) as [x|] eqn:Ed; [|discriminate]. injection H as <- <-.
    apply deser_bytes_ok in E as (h & n & -> & Hh & Hb & Hn & _). cbn [serialize].
    rewrite (decode_encode _ _ Ed).
    exists (h ++ b). rewrite ser_len_small by lia. cbn [wseq]. eexists.
    rewrite app_assoc. split_and!; [reflexivity|destruct h; discriminate|reflexivity|].
    rewrite !app_length, be_bytes_length. lia.
  - destruct (unpack fread 1 l) as [[z|?] s'] eqn:E; [|discriminate].
    apply unpack_ok in E as (d & -> & Hd & ->).
    destruct (_ =? _)%Z.
    + injection H as <- <-. cbn [serialize]. exists d. eexists. split_and!; eauto. cbn; lia.
    + apply IHt in H as (d' & bs & -> & Hd' & Hbs & Hl).
      2:{ rewrite app_length in Hsm. lia. }
      exists (d ++ d'). rewrite app_assoc, !app_length.
      assert (d ++ d' <> []) by (destruct d; [discriminate Hd|discriminate]).
      cbn [serialize]. destruct v; rewrite ?Hbs; cbn [wseq]; eexists; (split_and!; eauto; cbn [app length]; lia).
  - destruct (unpack fread 8 l) as [[z|?] s'] eqn:E; [|discriminate].
    apply unpack_ok in E as (d & -> & Hd & ->).
    destruct (deser_list _ _ _ _) as [[vs|?] s''] eqn:E; [|discriminate]. injection H as <- <-.
    assert (G : forall fuel n l vs r, deser_list (deserialize fread flen t) fuel n l = (Ok vs, r) ->
      (N.of_nat (length l) < 2 ^ 63)%N ->
      exists d bs, l = d ++ r /\ (length vs <= length d)%nat /\
      (fix go (l : list value) := match l with
         | [] => ([], None) | x :: r => wseq (serialize t x) (fun _ => go r) end) vs = (bs, None) /\
      (length bs <= length d)%nat).
    { clear -IHt. induction fuel as [|fuel IH]; intros n l vs r H Hsm; cbn [deser_list] in H;
        destruct (n =? 0)%N; try discriminate.
      1,2: injection H as <- <-; exists [], []; split_and!; reflexivity || (cbn; lia).
      destruct (deserialize fread flen t l) as [[v|?] s'] eqn:E; [|discriminate].
      apply IHt in E as (d & bs & -> & Hd & Hbs & Hl); [|assumption].
      destruct (deser_list _ fuel _ s') as [[vs'|?] s''] eqn:E; [|discriminate]. injection H as <- <-.
      rewrite app_length in Hsm.
      apply IH in E as (d' & bs' & -> & Hl1 & Hbs' & Hl'); [|lia].
      exists (d ++ d'), (bs ++ bs'). rewrite Hbs, Hbs'. cbn [wseq]. rewrite app_assoc, !app_length.
      split_and!; [reflexivity| |reflexivity|lia].
      destruct d; [congruence|]. cbn [length]. lia. }
    rewrite app_length in Hsm.
    apply G in E as (d' & bs & -> & Hl1 & Hbs & Hl); [|lia].
    rewrite app_length in Hsm.
    cbn [serialize]. exists (d ++ d'). rewrite ser_len_small by lia. rewrite Hbs. cbn [wseq]. eexists.
    rewrite app_assoc. split_and!; [reflexivity|destruct d; [discriminate Hd|discriminate]|reflexivity|].
    rewrite !app_length, be_bytes_length. lia.
Qed.

(** Every successful read consumes something. *)
Lemma deserialize_consumes t : forall l v r, deserialize fread flen t l = (Ok v, r) -> (length r < length l)%nat.
Proof.
  induction t; intros l v r H; cbn [deserialize] in H.
  1-5: destruct (unpack fread _ l) as [[z|?] ?] eqn:E; [|discriminate]; injection H as <- <-;
    apply unpack_ok in E as (d & -> & Hd & ->); rewrite app_length; lia.
  1,2: destruct (deser_bytes fread l) as [[b|?] ?] eqn:E; [|discriminate].
  - injection H as <- <-. apply deser_bytes_ok in E as (h & n & -> & Hh & _). rewrite !app_length. lia.
  - destruct (utf8_decode b); [|discriminate].
    injection H as <- <-. apply deser_bytes_ok in E as (h & n & -> & Hh & _). rewrite !app_length. lia.
  - destruct (unpack fread 1 l) as [[z|?] s'] eqn:E; [|discriminate].
    apply unpack_ok in E as (d & -> & Hd & ->). rewrite app_length.
    destruct (_ =? _)%Z; [injection H as <- <-; lia|]. apply IHt in H. lia.
  - destruct (unpack fread 8 l) as [[z|?] s'] eqn:E; [|discriminate].
    apply unpack_ok in E as (d & -> & Hd & ->). rewrite app_length.
    destruct (deser_list _ _ _ _) as [[vs|?] s''] eqn:E; [|discriminate]. injection H as <- <-.
    assert (G : forall fuel n l vs r, deser_list (deserialize fread flen t) fuel n l = (Ok vs, r) -> (length r <= length l)%nat).
    { clear -IHt. induction fuel as [|fuel IH]; intros n l vs r H; cbn [deser_list] in H;
        destruct (n =? 0)%N; try discriminate; try (injection H as <- <-; lia).
      destruct (deserialize fread flen t l) as [[v|?] s'] eqn:E; [|discriminate].
      destruct (deser_list _ fuel _ s') as [[vs'|?] s''] eqn:E2; [|discriminate]. injection H as <- <-.
      apply IH in E2. apply IHt in E. lia. }
    apply G in E. lia.
Qed.

Lemma deserialize_err t : forall l e r, deserialize fread flen t l = (Err e, r) -> rd_err e.
Proof.
  induction t; intros l e r H; cbn [deserialize] in H.
  1-5: destruct (unpack fread _ l) as [[z|?] ?] eqn:E; [discriminate|]; injection H as <- <-; eapply unpack_err; eauto.
  1,2: destruct (deser_bytes fread l) as [[b|?] ?] eqn:E; [|injection H as <- <-; eapply deser_bytes_err; eauto].
  - discriminate.
  - destruct (utf8_decode b); [discriminate|]. injection H as <- <-. unfold rd_err; auto.
  - destruct (unpack fread 1 l) as [[z|?] s'] eqn:E; [|injection H as <- <-; eapply unpack_err; eauto].
    destruct (_ =? _)%Z; [discriminate|]. eauto.
  - destruct (unpack fread 8 l) as [[z|?] s'] eqn:E; [|injection H as <- <-; eapply unpack_err; eauto].
    destruct (deser_list _ _ _ _) as [[vs|?] s''] eqn:E2; [discriminate|]. injection H as <- <-.
    assert (G : forall fuel n l e r, (length l < fuel)%nat ->
      deser_list (deserialize fread flen t) fuel n l = (Err e, r) -> rd_err e).
    { clear -IHt. induction fuel as [|fuel IH]; intros n l e r Hf H; [lia|]. cbn [deser_list] in H.
      destruct (n =? 0)%N; [discriminate|].
      destruct (deserialize fread flen t l) as [[v|?] s'] eqn:E; [|injection H as <- <-; eauto].
      destruct (deser_list _ fuel _ s') as [[vs'|?] s''] eqn:E2; [discriminate|]. injection H as <- <-.
      eapply IH; [|exact E2]. apply deserialize_consumes in E. lia. }
    eapply G; [|exact E2]. lia.
Qed.

Lemma deser_fields_err ts : forall l e r, deser_fields fread flen ts l = (Err e, r) -> rd_err e.
Proof.
  induction ts as [|t ts IH]; intros l e r H; cbn [deser_fields] in H; [discriminate|].
  destruct (deserialize fread flen t l) as [[v|?] s'] eqn:E.
  - destruct (deser_fields _ _ ts s') as [[vs|?] s''] eqn:E2; [discriminate|]. injection H as <- <-. eauto.
  - injection H as <- <-. eapply deserialize_err; eauto.
Qed.

Lemma deser_fields_ok ts : forall l vs r, deser_fields fread flen ts l = (Ok vs, r) ->
  (N.of_nat (length l) < 2 ^ 63)%N ->
  exists d bs, l = d ++ r /\ ser_fields ts vs = (bs, None) /\ (length bs <= length d)%nat.
Proof.
  induction ts as [|t ts IH]; intros l vs r H Hsm; cbn [deser_fields] in H.
  { injection H as <- <-. exists [], []; split_and!; reflexivity || (cbn; lia). }
  destruct (deserialize fread flen t l) as [[v|?] s'] eqn:E; [|discriminate].
  destruct (deser_fields _ _ ts s') as [[vs'|?] s''] eqn:E2; [|discriminate]. injection H as <- <-.
  apply deserialize_ok in E as (d & bs & -> & _ & Hbs & Hl); [|assumption].
  rewrite app_length in Hsm. apply IH in E2 as (d' & bs' & -> & Hbs' & Hl'); [|lia].
  exists (d ++ d'), (bs ++ bs'). cbn [ser_fields]. rewrite Hbs, Hbs'. cbn [wseq].
  rewrite app_assoc, !app_length. split_and!; [reflexivity..|]. lia.
Qed.

(** Without the size assumption. *)
Lemma deserialize_typed t : forall l v r, deserialize fread flen t l = (Ok v, r) -> typed t v.
Proof.
  induction t; intros l v r H; cbn [deserialize] in H.
  1-5: destruct (unpack fread _ l) as [[z|?] ?] eqn:E; [|discriminate]; injection H as <- <-; cbn; eauto.
  1,2: destruct (deser_bytes fread l) as [[b|?] ?] eqn:E; [|discriminate].
  - injection H as <- <-; cbn; eauto.
  - destruct (utf8_decode b); [|discriminate]. injection H as <- <-; cbn; eauto.
  - destruct (unpack fread 1 l) as [[z|?] s'] eqn:E; [|discriminate].
    destruct (_ =? _)%Z; [injection H as <- <-; cbn; auto|]. cbn. eauto.
  - destruct (unpack fread 8 l) as [[z|?] s'] eqn:E; [|discriminate].
    destruct (deser_list _ _ _ _) as [[vs|?] s''] eqn:E2; [|discriminate]. injection H as <- <-.
    cbn [typed]. eexists; split; [reflexivity|].
    assert (G : forall fuel n l vs r, deser_list (deserialize fread flen t) fuel n l = (Ok vs, r) -> Forall (typed t) vs);
      [|eapply G; exact E2].
    clear -IHt. induction fuel as [|fuel IH]; intros n l vs r H; cbn [deser_list] in H;
        destruct (n =? 0)%N; try discriminate; try (injection H as <- <-; constructor).
    destruct (deserialize fread flen t l) as [[v|?] s1] eqn:E; [|discriminate].
    destruct (deser_list _ fuel _ s1) as [[vs'|?] s2] eqn:E2; [|discriminate]. injection H as <- <-.
    constructor; eauto.
Qed.

Lemma deser_fields_typed ts : forall l vs r, deser_fields fread flen ts l = (Ok vs, r) -> Forall2 typed ts vs.
Proof.
  induction ts as [|t ts IH]; intros l vs r H; cbn [deser_fields] in H.
  { injection H as <- <-. constructor. }
  destruct (deserialize fread flen t l) as [[v|?] s'] eqn:E; [|discriminate].
  destruct (deser_fields _ _ ts s') as [[vs'|?] s''] eqn:E2; [|discriminate]. injection H as <- <-.
  constructor; eauto using deserialize_typed.
Qed.

Lemma typed_ostr v : typed (TOpt TStr) v -> exists o, v = ostr o.
Proof. intros [->|[s ->]]; [exists None|exists (Some s)]; reflexivity. Qed.
Lemma typed_obytes v : typed (TOpt TBytes) v -> exists o, v = obytes o.
Proof. intros [->|[s ->]]; [exists None|exists (Some s)]; reflexivity. Qed.
Lemma typed_strs v : typed (TList TStr) v -> exists l, v = strs l.
Proof.
  intros (l & -> & H). unfold strs.
  induction H as [|v l [s ->] _ [l' IH]]; [exists []; reflexivity|].
  injection IH as ->. exists (s :: l'). reflexivity.
Qed.


Lemma of_fields_typed i ts vs : schema i = Some ts -> Forall2 typed ts vs ->
  exists p, of_fields i vs = Some p /\ pid p = i /\ pfields p = vs.
Proof.
  intros Hs Ht. unfold schema in Hs.
  repeat (case_match; try discriminate Hs); subst; injection Hs as <-;
    repeat match goal with
    | H : Forall2 typed (_ :: _) _ |- _ => apply Forall2_cons_inv_l in H as (? & ? & ? & ? & ->)
    | H : Forall2 typed [] _ |- _ => apply Forall2_nil_inv_l in H as ->
    end;
    repeat match goal with
    | H : typed (TOpt TStr) _ |- _ => apply typed_ostr in H as [? ->]
    | H : typed (TOpt TBytes) _ |- _ => apply typed_obytes in H as [? ->]
    | H : typed (TList TStr) _ |- _ => apply typed_strs in H as [? ->]
    | H : typed _ _ |- _ => destruct H as [? ->]
    end;
    repeat match goal with o : option _ |- _ => destruct o end;
    cbn; rewrite ?mapM_to_str; cbn; eauto.
Qed.
