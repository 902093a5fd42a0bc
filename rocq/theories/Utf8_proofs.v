(** Lemmas about UTF-8. *)
From Coq Require Import Lia ZifyBool ZifyN ZifyNat.
From Verif Require Import Base Utf8.
Open Scope N_scope.

Ltac Zify.zify_post_hook ::= Z.div_mod_to_equations.

Lemma b2n_n2b n : n < 256 -> b2n (n2b n) = n.
Proof. apply N_ascii_embedding. Qed.
Lemma n2b_b2n b : n2b (b2n b) = b.
Proof. apply ascii_N_embedding. Qed.
Lemma b2n_bound b : b2n b < 256.
Proof. apply N_ascii_bounded. Qed.

Local Ltac bsplit :=
  repeat match goal with
  | H : (_ && _)%bool = true |- _ => apply andb_prop in H as [? ?]
  | H : (_ || _)%bool = false |- _ => apply orb_false_elim in H as [? ?]
  end.

Local Ltac decide_if :=
  match goal with
  | |- context [if ?b then _ else _] =>
      let E := fresh "E" in destruct b eqn:E; [try (exfalso; lia)|try (exfalso; lia)]
  end.

Lemma dec_enc_cp bad c b rest :
  enc_cp c = Some b ->
  utf8_dec bad (b ++ rest) = r ← utf8_dec bad rest; Some (c :: r).
Proof.
  unfold enc_cp. intros H.
  destruct (c <? 128) eqn:H1.
  { injection H as <-. cbn -[b2n n2b].
    rewrite b2n_n2b by lia. rewrite H1. reflexivity. }
  destruct (c <? 2048) eqn:H2.
  { injection H as <-. cbn -[b2n n2b N.div N.modulo N.mul N.sub].
    unfold cp2, is_cont, low6. rewrite !b2n_n2b by lia.
    decide_if. decide_if.
    replace ((192 + c / 64 - 192) * 64 + (128 + c mod 64 - 128)) with c by lia. reflexivity. }
  destruct (c <? 65536) eqn:H3.
  { destruct ((55296 <=? c) && (c <=? 57343)) eqn:HS; [discriminate|].
    injection H as <-. cbn -[b2n n2b N.div N.modulo N.mul N.sub].
    unfold cp2, cp3, is_cont, low6. rewrite !b2n_n2b by lia.
    decide_if. decide_if.
    assert (Hc : ((224 + c / 4096 - 224) * 64 + (128 + (c / 64) mod 64 - 128)) * 64 + (128 + c mod 64 - 128) = c) by lia.
    rewrite Hc. decide_if. reflexivity. }
  destruct (c <? 1114112) eqn:H4; [|discriminate].
  injection H as <-. cbn -[b2n n2b N.div N.modulo N.mul N.sub].
  unfold cp2, cp3, cp4, is_cont, low6. rewrite !b2n_n2b by lia.
  decide_if. decide_if. 
  assert (Hc : (((240 + c / 262144 - 240) * 64 + (128 + (c / 4096) mod 64 - 128)) * 64 + (128 + (c / 64) mod 64 - 128)) * 64 + (128 + c mod 64 - 128) = c) by lia.
  rewrite Hc.
  match goal with |- context [if ?b then Some (?x) else None] => replace b with false by lia end.
  decide_if. reflexivity.
Qed.

Lemma dec_encode bad s b rest :
  utf8_encode s = Some b ->
  utf8_dec bad (b ++ rest) = r ← utf8_dec bad rest; Some (s ++ r).
Proof.
  revert b. induction s as [|c s IH]; intros b H; cbn in H.
  - injection H as <-. cbn. destruct (utf8_dec bad rest); reflexivity.
  - destruct (enc_cp c) as [bc|] eqn:Hc; [|discriminate]. cbn in H.
    destruct (utf8_encode s) as [bs|] eqn:Hs; unfold utf8_encode in Hs; rewrite Hs in H; [|discriminate].
    injection H as <-. rewrite <- app_assoc, (dec_enc_cp _ _ _ _ Hc), (IH _ eq_refl).
    destruct (utf8_dec bad rest); reflexivity.
Qed.

Lemma utf8_roundtrip s b : utf8_encode s = Some b -> utf8_decode b = Some s.
Proof.
  intros H. unfold utf8_decode. rewrite <- (app_nil_r b), (dec_encode _ _ _ _ H). cbn.
  rewrite app_nil_r. reflexivity.
Qed.

(** Reading back a well formed sequence gives the same bytes. *)
Lemma cp2_enc b0 b1 c : cp2 b0 b1 = Some c -> enc_cp c = Some [b0; b1].
Proof.
  unfold cp2, is_cont, low6. intros H.
  pose proof (b2n_bound b0). pose proof (b2n_bound b1).
  destruct (_ && _)%bool eqn:E in H; [|discriminate]. injection H as <-.
  unfold enc_cp. repeat decide_if.
  do 2 f_equal; [|f_equal].
  - rewrite <- (n2b_b2n b0) at 2. f_equal. lia.
  - rewrite <- (n2b_b2n b1) at 2. f_equal. lia.
Qed.

Lemma cp3_enc b0 b1 b2 c : cp3 b0 b1 b2 = Some c -> enc_cp c = Some [b0; b1; b2].
Proof.
  unfold cp3, is_cont, low6. intros H.
  pose proof (b2n_bound b0). pose proof (b2n_bound b1). pose proof (b2n_bound b2).
  destruct (_ && _)%bool eqn:E in H; [|discriminate]. injection H as <-.
  unfold enc_cp. repeat decide_if.
  do 2 f_equal; [|f_equal; [|f_equal]].
  - rewrite <- (n2b_b2n b0) at 2. f_equal. lia.
  - rewrite <- (n2b_b2n b1) at 2. f_equal. lia.
  - rewrite <- (n2b_b2n b2) at 2. f_equal. lia.
Qed.

Lemma cp4_enc b0 b1 b2 b3 c : cp4 b0 b1 b2 b3 = Some c -> enc_cp c = Some [b0; b1; b2; b3].
Proof.
  unfold cp4, is_cont, low6. intros H.
  pose proof (b2n_bound b0). pose proof (b2n_bound b1). pose proof (b2n_bound b2). pose proof (b2n_bound b3).
  destruct (_ && _)%bool eqn:E in H; [|discriminate]. injection H as <-.
  unfold enc_cp. repeat decide_if.
  do 2 f_equal; [|f_equal; [|f_equal; [|f_equal]]].
  - rewrite <- (n2b_b2n b0) at 2. f_equal. lia.
  - rewrite <- (n2b_b2n b1) at 2. f_equal. lia.
  - rewrite <- (n2b_b2n b2) at 2. f_equal. lia.
  - rewrite <- (n2b_b2n b3) at 2. f_equal. lia.
Qed.

Lemma enc_cp_ascii b : b2n b < 128 -> enc_cp (b2n b) = Some [b].
Proof.
  intros H. unfold enc_cp. destruct (b2n b <? 128) eqn:E; [|lia]. rewrite n2b_b2n. reflexivity.
Qed.

(** Generic inversion: decoding splits the input into encoded characters and bad bytes. *)

Lemma dec_ind (bad : byte -> option pystr) (P : bytes -> pystr -> Prop) :
  P [] [] ->
  (forall c bc l s, enc_cp c = Some bc -> utf8_dec bad l = Some s -> P l s -> P (bc ++ l) (c :: s)) ->
  (forall b t l s, 128 <= b2n b -> bad b = Some t -> utf8_dec bad l = Some s -> P l s -> P (b :: l) (t ++ s)) ->
  forall l s, utf8_dec bad l = Some s -> P l s.
Proof.
  intros Hnil Hc Hb.
  assert (G : forall n l s, (length l <= n)%nat -> utf8_dec bad l = Some s -> P l s); [|eauto].
  induction n as [|n IH]; intros l s Hlen H.
  { destruct l; [|cbn in Hlen; lia]. cbn in H. injection H as <-. exact Hnil. }
  destruct l as [|b0 l1]; [cbn in H; injection H as <-; exact Hnil|].
  cbn -[b2n] in H. cbn in Hlen.
  assert (Herr : 128 <= b2n b0 -> (t ← bad b0; r ← utf8_dec bad l1; Some (t ++ r)) = Some s -> P (b0 :: l1) s).
  { intros Hge He. destruct (bad b0) as [t|] eqn:Ht; [|discriminate]. cbn in He.
    destruct (utf8_dec bad l1) as [r|] eqn:Hr; [|discriminate]. cbn in He. injection He as <-.
    apply Hb; auto. apply IH; [lia|assumption]. }
  destruct (b2n b0 <? 128) eqn:E0.
  { destruct (utf8_dec bad l1) as [r|] eqn:Hr; [|discriminate]. cbn in H. injection H as <-.
    apply (Hc (b2n b0) [b0]); auto. { apply enc_cp_ascii. lia. } apply IH; [lia|assumption]. }
  assert (Hge : 128 <= b2n b0) by lia. specialize (Herr Hge).
  destruct l1 as [|b1 l2]; [auto|].
  destruct (cp2 b0 b1) as [c|] eqn:H2.
  { destruct (utf8_dec bad l2) as [r|] eqn:Hr; [|discriminate]. cbn in H. injection H as <-.
    apply (Hc c [b0; b1]); auto. { apply cp2_enc. assumption. } apply IH; [cbn in Hlen; lia|assumption]. }
  destruct l2 as [|b2 l3]; [auto|].
  destruct (cp3 b0 b1 b2) as [c|] eqn:H3.
  { destruct (utf8_dec bad l3) as [r|] eqn:Hr; [|discriminate]. cbn in H. injection H as <-.
    apply (Hc c [b0; b1; b2]); auto. { apply cp3_enc. assumption. } apply IH; [cbn in Hlen; lia|assumption]. }
  destruct l3 as [|b3 l4]; [auto|].
  destruct (cp4 b0 b1 b2 b3) as [c|] eqn:H4; [|auto].
  destruct (utf8_dec bad l4) as [r|] eqn:Hr; [|discriminate]. cbn in H. injection H as <-.
  apply (Hc c [b0; b1; b2; b3]); auto. { apply cp4_enc. assumption. } apply IH; [cbn in Hlen; lia|assumption].
Qed.

Lemma decode_encode l s : utf8_decode l = Some s -> utf8_encode s = Some l.
Proof.
  apply (dec_ind (fun _ => None) (fun l s => utf8_encode s = Some l)).
  - reflexivity.
  - intros c bc l' s' Hc _ IH. unfold utf8_encode in *. cbn. rewrite Hc. cbn. rewrite IH. reflexivity.
  - discriminate.
Qed.

Lemma decode_inj l1 l2 s : utf8_decode l1 = Some s -> utf8_decode l2 = Some s -> l1 = l2.
Proof. intros H1%decode_encode H2%decode_encode. congruence. Qed.

(** The handlers other than strict never fail. *)
Lemma dec_total bad : (forall b, is_Some (bad b)) -> forall l, is_Some (utf8_dec bad l).
Proof.
  intros Hb.
  assert (G : forall n l, (length l <= n)%nat -> is_Some (utf8_dec bad l)); [|eauto].
  induction n as [|n IH]; intros l Hlen.
  { destruct l; [|cbn in Hlen; lia]. eauto. }
  destruct l as [|b0 l1]; [eauto|]. cbn in Hlen.
  assert (Hdo : forall x c, (length x <= n)%nat -> is_Some (r ← utf8_dec bad x; Some (c :: r) : option pystr)).
  { intros x c Hx. destruct (IH x Hx) as [r ->]. eauto. }
  assert (Herr : is_Some (t ← bad b0; r ← utf8_dec bad l1; Some (t ++ r))).
  { destruct (Hb b0) as [t ->]. destruct (IH l1) as [r ->]; [lia|]. cbn. eauto. }
  cbn -[b2n].
  destruct (b2n b0 <? 128). { apply Hdo; lia. }
  destruct l1 as [|b1 l2]; [exact Herr|].
  destruct (cp2 b0 b1). { apply Hdo; cbn in Hlen; lia. }
  destruct l2 as [|b2 l3]; [exact Herr|].
  destruct (cp3 b0 b1 b2). { apply Hdo; cbn in Hlen; lia. }
  destruct l3 as [|b3 l4]; [exact Herr|].
  destruct (cp4 b0 b1 b2 b3); [|exact Herr]. apply Hdo; cbn in Hlen; lia.
Qed.

Lemma decode_esc_spec l : utf8_dec (fun b => Some [56320 + b2n b]) l = Some (utf8_decode_esc l).
Proof.
  unfold utf8_decode_esc.
  destruct (dec_total (fun b => Some [56320 + b2n b])) with (l := l) as [r ->]; [eauto|reflexivity].
Qed.

Lemma enc_cp_not_esc c b : enc_cp c = Some b -> enc_cp_esc c = Some b.
Proof.
  unfold enc_cp_esc. destruct ((56448 <=? c) && (c <=? 56575)) eqn:E; [|auto].
  unfold enc_cp. intros H.
  destruct (c <? 128) eqn:?; [lia|]. destruct (c <? 2048) eqn:?; [lia|].
  destruct (c <? 65536) eqn:?; [|lia].
  destruct ((55296 <=? c) && (c <=? 57343)) eqn:?; [discriminate|lia].
Qed.

(** surrogateescape is lossless on arbitrary bytes *)
Lemma decode_encode_esc l : utf8_encode_esc (utf8_decode_esc l) = Some l.
Proof.
  apply (dec_ind (fun b => Some [56320 + b2n b]) (fun l s => utf8_encode_esc s = Some l)).
  - reflexivity.
  - intros c bc l' s' Hc%enc_cp_not_esc _ IH. unfold utf8_encode_esc in *. cbn [enc_with].
    rewrite Hc. cbn. rewrite IH. reflexivity.
  - intros b t l' s' Hge [= <-] _ IH. unfold utf8_encode_esc in *.
    change ([56320 + b2n b] ++ s') with ((56320 + b2n b) :: s'). cbn [enc_with]. rewrite IH.
    pose proof (b2n_bound b).
    unfold enc_cp_esc at 1.
    destruct ((56448 <=? 56320 + b2n b) && (56320 + b2n b <=? 56575)) eqn:E; [|lia].
    cbn -[n2b N.add]. do 2 f_equal.
    rewrite <- (n2b_b2n b) at 2. f_equal. lia.
  - apply decode_esc_spec.
Qed.
