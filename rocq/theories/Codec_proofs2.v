(** More lemmas about the wire format: totality, validity and truncation. *)
From Coq Require Import Lia ZifyBool ZifyN ZifyNat.
From Verif Require Import Base Utf8 Utf8_proofs Codec Spec_Codec Codec_proofs.

Ltac Zify.zify_post_hook ::= Z.div_mod_to_equations.

(** ** Text *)

Lemma enc_cp_spec c : (exists b, enc_cp c = Some b /\ (1 <= length b <= 4)%nat) \/
  (enc_cp c = None /\ ~ (c < 1114112 /\ ~ (55296 <= c <= 57343))%N).
Proof.
  unfold enc_cp.
  destruct (c <? 128)%N eqn:?; [left; eexists; split; [reflexivity|cbn; lia]|].
  destruct (c <? 2048)%N eqn:?; [left; eexists; split; [reflexivity|cbn; lia]|].
  destruct (c <? 65536)%N eqn:?.
  { destruct (_ && _)%bool eqn:?; [right; split; [reflexivity|lia]|].
    left; eexists; split; [reflexivity|cbn; lia]. }
  destruct (c <? 1114112)%N eqn:?; [left; eexists; split; [reflexivity|cbn; lia]|].
  right; split; [reflexivity|lia].
Qed.

Lemma enc_cp_ok c : (c < 1114112 /\ ~ (55296 <= c <= 57343))%N -> exists b, enc_cp c = Some b /\ (1 <= length b <= 4)%nat.
Proof. intros H. destruct (enc_cp_spec c) as [?|[? ?]]; [assumption|contradiction]. Qed.

Lemma enc_cp_some c b : enc_cp c = Some b -> (c < 1114112 /\ ~ (55296 <= c <= 57343))%N /\ (1 <= length b <= 4)%nat.
Proof.
  unfold enc_cp. intros H.
  destruct (c <? 128)%N eqn:?; [injection H as <-; cbn; lia|].
  destruct (c <? 2048)%N eqn:?; [injection H as <-; cbn; lia|].
  destruct (c <? 65536)%N eqn:?.
  { destruct (_ && _)%bool eqn:?; [discriminate|injection H as <-; cbn; lia]. }
  destruct (c <? 1114112)%N eqn:?; [injection H as <-; cbn; lia|discriminate].
Qed.

Lemma encode_ok s : text_ok s -> exists b, utf8_encode s = Some b.
Proof.
  induction 1 as [|c s (b & Hb & _)%enc_cp_ok _ [bs IH]]; [eexists; reflexivity|].
  unfold utf8_encode in *. cbn [enc_with]. rewrite Hb, IH. cbn. eauto.
Qed.

Lemma encode_some s b : utf8_encode s = Some b ->
  text_ok s /\ (length s <= length b)%nat /\ (length b <= 4 * length s)%nat.
Proof.
  revert b. induction s as [|c s IH]; intros b H; unfold utf8_encode in *; cbn [enc_with] in H.
  { injection H as <-. split_and!; [constructor|cbn; lia..]. }
  destruct (enc_cp c) as [bc|] eqn:Hc; [|discriminate]. cbn in H.
  destruct (enc_with enc_cp s) as [bs|] eqn:Hs; [|discriminate]. injection H as <-.
  apply enc_cp_some in Hc as [? ?]. destruct (IH _ eq_refl) as (? & ? & ?).
  rewrite app_length. cbn [length]. split_and!; [constructor; assumption|lia..].
Qed.

(** ** Validity of values *)

Fixpoint vok (t : vtype) (v : value) : Prop :=
  match t with
  | TBool => exists b, v = VBool b
  | TI32 => exists z, v = VInt z /\ in_i32 z
  | TU32 => exists z, v = VInt z /\ (0 <= z < 2 ^ 32)%Z
  | TI64 => exists z, v = VInt z /\ in_i64 z
  | TU64 => exists z, v = VInt z /\ in_u64 z
  | TBytes => exists b, v = VBytes b /\ small b
  | TStr => exists s, v = VStr s /\ str_ok s
  | TOpt t' => v = VNone \/ vok t' v
  | TList t' => exists l, v = VList l /\ small l /\ Forall (vok t') l
  end.

Lemma serialize_vok t : forall v bs, serialize t v = (bs, None) -> small bs -> (0 < length bs)%nat /\ vok t v.
Proof.
  unfold small, in_i32, in_i64, in_u64.
  induction t; intros v bs H Hsm; cbn [serialize] in H; cbn [vok].
  - destruct v; try discriminate. injection H as <-. split; [cbn; lia|eauto].
  - destruct v; try discriminate. apply pack_int_ok in H as [Hz ->]. rewrite be_bytes_length.
    split; [lia|]. eexists; split; [reflexivity|]. unfold in_i32. lia.
  - destruct v; try discriminate. apply pack_int_ok in H as [Hz ->]. rewrite be_bytes_length.
    split; [lia|]. eexists; split; [reflexivity|]. lia.
  - destruct v; try discriminate. apply pack_int_ok in H as [Hz ->]. rewrite be_bytes_length.
    split; [lia|]. eexists; split; [reflexivity|]. unfold in_i64. lia.
  - destruct v; try discriminate. apply pack_int_ok in H as [Hz ->]. rewrite be_bytes_length.
    split; [lia|]. eexists; split; [reflexivity|]. unfold in_u64. lia.
  - destruct v; try discriminate. apply wseq_ok in H as (x & y & [Hl ->]%ser_len_ok & [= <-] & ->).
    rewrite app_length, be_bytes_length in *. split; [lia|]. eexists; split; [reflexivity|]. unfold small. lia.
  - destruct v; try discriminate. destruct (utf8_encode s) as [b|] eqn:Hs; [|discriminate].
    apply wseq_ok in H as (x & y & [Hl ->]%ser_len_ok & [= <-] & ->).
    rewrite app_length, be_bytes_length in *. split; [lia|]. apply encode_some in Hs as (? & ? & ?).
    eexists; split; [reflexivity|]. split; [assumption|]. unfold small. lia.
  - destruct v; try (injection H as <-; split; [cbn; lia|auto]; fail).
    all: apply wseq_ok in H as (x & y & [= <-] & Hy & ->); rewrite app_length in *; cbn [length] in *;
      split; [lia|]; right; apply (IHt _ y); [assumption|lia].
  - destruct v; try discriminate. apply wseq_ok in H as (x & y & [Hl ->]%ser_len_ok & Hy & ->).
    rewrite app_length, be_bytes_length in *. split; [lia|]. eexists; split; [reflexivity|].
    assert (Hy' : (4 * N.of_nat (length y) < 2 ^ 63)%N) by lia.
    assert (G : (length l <= length y)%nat /\ Forall (vok t) l).
    { clear -Hy Hy' IHt. revert y Hy Hy'. induction l as [|v l IH]; intros y Hy Hy'; [split; [cbn; lia|constructor]|].
      apply wseq_ok in Hy as (x & y' & Hx & Hy & ->). rewrite app_length in Hy' |- *.
      destruct (IH y' Hy) as [G1 G2]; [lia|]. destruct (IHt v x Hx) as [G3 G4]; [lia|].
      cbn [length]. split; [lia|constructor; assumption]. }
    destruct G as [G1 G2]. split; [unfold small; lia|assumption].
Qed.

Lemma vok_serialize t : forall v, vok t v -> exists bs, serialize t v = (bs, None).
Proof.
  induction t; intros v H; cbn [vok] in H; cbn [serialize].
  - destruct H as [b ->]. eauto.
  - destruct H as (z & -> & Hz). unfold in_i32 in Hz. rewrite pack_int_range by lia. eauto.
  - destruct H as (z & -> & Hz). rewrite pack_int_range by lia. eauto.
  - destruct H as (z & -> & Hz). unfold in_i64 in Hz. rewrite pack_int_range by lia. eauto.
  - destruct H as (z & -> & Hz). unfold in_u64 in Hz. rewrite pack_int_range by lia. eauto.
  - destruct H as (b & -> & Hb). unfold small in Hb. rewrite ser_len_small by lia. cbn [wseq]. eauto.
  - destruct H as (s & -> & Ht & Hs). unfold small in Hs. destruct (encode_ok s Ht) as [b Hb].
    rewrite Hb. apply encode_some in Hb as (_ & _ & Hl). rewrite ser_len_small by lia. cbn [wseq]. eauto.
  - destruct H as [->|H]; [eauto|]. destruct (IHt v H) as [bs Hbs].
    destruct v; rewrite ?Hbs; cbn [wseq]; eauto.
  - destruct H as (l & -> & Hl & H). unfold small in Hl. rewrite ser_len_small by lia.
    assert (G : exists bs, (fix go (l : list value) := match l with
         | [] => ([], None) | x :: r => wseq (serialize t x) (fun _ => go r) end) l = (bs, None)).
    { clear -H IHt. induction H as [|v l Hv _ [bs IH]]; [eauto|]. destruct (IHt v Hv) as [b Hb].
      rewrite Hb, IH. cbn [wseq]. eauto. }
    destruct G as [bs ->]. cbn [wseq]. eauto.
Qed.

Lemma vok_ostr o : vok (TOpt TStr) (ostr o) <-> opt_ok str_ok o.
Proof.
  destruct o; cbn; split; auto; [|eauto].
  intros [|(? & [= <-] & ?)]; [discriminate|assumption].
Qed.
Lemma vok_obytes o : vok (TOpt TBytes) (obytes o) <-> opt_ok small o.
Proof.
  destruct o; cbn; split; auto; [|eauto].
  intros [|(? & [= <-] & ?)]; [discriminate|assumption].
Qed.
Lemma vok_strs l : vok (TList TStr) (strs l) <-> small l /\ Forall str_ok l.
Proof.
  cbn. unfold strs, small. split.
  - intros (? & [= <-] & Hs & H). rewrite map_length in Hs. split; [assumption|].
    clear Hs. induction l as [|s l IH]; [constructor|].
    cbn in H. apply Forall_cons in H as [(? & [= <-] & ?) ?]. constructor; auto.
  - intros [Hs H]. eexists. split; [reflexivity|]. rewrite map_length. split; [assumption|].
    clear Hs. induction H; cbn; constructor; eauto.
Qed.
Lemma vok_str s : vok TStr (VStr s) <-> str_ok s.
Proof. cbn. split; [intros (? & [= <-] & ?); assumption|eauto]. Qed.
Lemma vok_bytes s : vok TBytes (VBytes s) <-> small s.
Proof. cbn. split; [intros (? & [= <-] & ?); assumption|eauto]. Qed.
Lemma vok_i32 s : vok TI32 (VInt s) <-> in_i32 s.
Proof. cbn. split; [intros (? & [= <-] & ?); assumption|eauto]. Qed.
Lemma vok_i64 s : vok TI64 (VInt s) <-> in_i64 s.
Proof. cbn. split; [intros (? & [= <-] & ?); assumption|eauto]. Qed.
Lemma vok_u64 s : vok TU64 (VInt s) <-> in_u64 s.
Proof. cbn. split; [intros (? & [= <-] & ?); assumption|eauto]. Qed.
Lemma vok_bool b : vok TBool (VBool b) <-> True.
Proof. cbn. split; eauto. Qed.

Lemma packet_ok_fields p : packet_ok p <-> Forall2 vok (default [] (schema (pid p))) (pfields p).
Proof.
  destruct p; cbn -[vok]; rewrite ?Forall2_cons, ?Forall2_nil, ?vok_ostr, ?vok_obytes, ?vok_strs, ?vok_str,
    ?vok_bytes, ?vok_i32, ?vok_i64, ?vok_u64, ?vok_bool; cbn [opt_ok]; naive_solver.
Qed.

Lemma ser_fields_vok ts : forall vs bs, length vs = length ts ->
  ser_fields ts vs = (bs, None) -> small bs -> Forall2 vok ts vs.
Proof.
  unfold small. induction ts as [|t ts IH]; intros [|v vs] bs Hl H Hs; try discriminate Hl; [constructor|].
  cbn [ser_fields] in H. apply wseq_ok in H as (x & y & Hx & Hy & ->). rewrite app_length in Hs.
  constructor; [apply (serialize_vok t v x Hx); unfold small; lia|].
  apply (IH vs y); [injection Hl; auto|assumption|lia].
Qed.

Lemma vok_ser_fields ts : forall vs, Forall2 vok ts vs -> exists bs, ser_fields ts vs = (bs, None).
Proof.
  induction 1 as [|t v ts vs Hv _ [bs IH]]; [eexists; reflexivity|].
  destruct (vok_serialize t v Hv) as [b Hb]. cbn [ser_fields]. rewrite Hb, IH. cbn [wseq]. eauto.
Qed.

Lemma write_packet_ok p bs : write_packet p = (bs, None) -> small bs -> packet_ok p.
Proof.
  intros H Hs. apply wseq_ok in H as (x & y & _ & Hy & ->). apply packet_ok_fields.
  destruct (schema_pid p) as (ts & Hts & Hl). rewrite Hts in *. cbn [default] in *.
  eapply ser_fields_vok; [assumption|exact Hy|]. unfold small in *. rewrite app_length in Hs. lia.
Qed.

Lemma packet_ok_write p : packet_ok p -> exists bs, write_packet p = (bs, None).
Proof.
  intros H%packet_ok_fields%vok_ser_fields. destruct H as [bs H]. unfold write_packet. rewrite H.
  cbn [serialize]. pose proof (pid_bound p). rewrite pack_int_range by lia. cbn [wseq]. eauto.
Qed.

(** ** Totality *)

Lemma read_packet_ok l p r : read_packet fread flen l = (Ok p, r) -> (N.of_nat (length l) < 2 ^ 63)%N ->
  exists d bs, l = d ++ r /\ d <> [] /\ write_packet p = (bs, None) /\ (length bs <= length d)%nat.
Proof.
  unfold read_packet. intros H Hs.
  destruct (unpack fread 4 l) as [[i|?] s'] eqn:E; [|discriminate].
  apply unpack_ok in E as (h & -> & Hh & ->). rewrite app_length in Hs.
  destruct (schema (Z.to_N (be_val 0 h))) as [ts|] eqn:Hts; [|discriminate].
  destruct (deser_fields fread flen ts s') as [[vs|?] s''] eqn:E; [|discriminate].
  destruct (of_fields_typed _ _ _ Hts (deser_fields_typed _ _ _ _ E)) as (p' & Hof & Hp1 & Hp2).
  rewrite Hof in H. injection H as <- <-.
  apply deser_fields_ok in E as (d & bs & -> & Hbs & Hl); [|lia].
  exists (h ++ d), (be_bytes 4 (Z.of_N (pid p')) ++ bs).
  rewrite app_assoc, !app_length, be_bytes_length.
  split_and!; [reflexivity|destruct h; discriminate| |lia].
  unfold write_packet. rewrite <- Hp1 in Hts. rewrite Hts, Hp2. change (default [] (Some ts)) with ts. rewrite Hbs. cbn [serialize].
  pose proof (pid_bound p'). rewrite pack_int_range by lia. cbn [wseq]. reflexivity.
Qed.

Lemma read_packet_err l e r : read_packet fread flen l = (Err e, r) -> rd_err e \/ exists m, e = IOErr m.
Proof.
  unfold read_packet. intros H.
  destruct (unpack fread 4 l) as [[i|?] s'] eqn:E.
  2:{ injection H as <- <-. left. eapply unpack_err; eauto. }
  destruct (schema (Z.to_N i)) as [ts|] eqn:Hts; [|injection H as <- <-; eauto].
  destruct (deser_fields fread flen ts s') as [[vs|?] s''] eqn:E2.
  2:{ injection H as <- <-. left. eapply deser_fields_err; eauto. }
  destruct (of_fields_typed _ _ _ Hts (deser_fields_typed _ _ _ _ E2)) as (p' & Hof & Hp1 & Hp2).
  rewrite Hof in H. discriminate.
Qed.

Lemma receive_total q cs r cs' : receive_packet q cs = (r, cs') ->
  match r with
  | Ok p => small (List.concat cs) ->
      packet_ok p /\ (forall n s m, p <> POSError n s m) /\ (forall f m, p <> PInvalidField f m)
  | Err e => (exists m, e = IOErr m) \/ (exists n s m, e = RemoteOSError n s m) \/ (exists m, e = ValueError m)
             \/ e = UnicodeDecodeError \/ e = AttributeError \/ e = OverflowError
  end.
Proof.
  intros H. destruct (receive_flat q cs) as [H1 _]. rewrite H in H1. cbn in H1. subst r.
  unfold receive_gen. destruct (read_packet fread flen (List.concat cs)) as [[p|e] l'] eqn:E; cbn [fst].
  - destruct (deliver q p) as [p'|e] eqn:Ed.
    + assert (Hp : p' = p) by (destruct p; cbn in Ed; try (injection Ed as <-; reflexivity); [discriminate|destruct (has_attr _ _); discriminate]).
      subst p'. intros Hs. assert (Hs' := Hs). unfold small in Hs'.
      apply read_packet_ok in E as (d & bs & Hd & _ & Hw & Hl); [|lia].
      split.
      * eapply write_packet_ok; [exact Hw|]. unfold small in *. rewrite Hd, app_length in Hs. lia.
      * split; intros; intros ->; cbn in Ed; try discriminate. destruct (has_attr _ _); discriminate.
    + destruct p; cbn in Ed; try discriminate Ed.
      * injection Ed as <-. eauto 10.
      * destruct (has_attr _ _); injection Ed as <-; eauto 10.
  - apply read_packet_err in E as [[->|[->| ->]]|[m ->]]; cbn; eauto 10.
Qed.

(** ** Truncation *)

Lemma app_prefix_cases {A} (a b pre suf : list A) : a ++ b = pre ++ suf -> suf <> [] ->
  (exists a2, a = pre ++ a2 /\ a2 <> [] /\ suf = a2 ++ b) \/
  (exists b1, pre = a ++ b1 /\ b = b1 ++ suf).
Proof.
  intros H Hs. apply app_eq_inv in H as [(k & -> & ->)|(k & -> & ->)]; [|eauto].
  destruct k as [|x k]; [|left; eexists; split_and!; [reflexivity|discriminate|reflexivity]].
  right. exists []. rewrite app_nil_r. rewrite !app_nil_r in *. auto.
Qed.

Lemma unpack_short k (pre suf d : bytes) : length d = k -> d = pre ++ suf -> suf <> [] ->
  exists r, unpack fread k pre = (Err StructError, r) \/ unpack fread k pre = (Err OverflowError, r).
Proof.
  intros <- -> Hs. rewrite app_length. unfold unpack, read. destruct (_ <? 2 ^ 63)%N; [|eauto].
  rewrite splitN_take. destruct (Nat.eqb_spec (length (take (N.to_nat (N.of_nat (length pre + length suf))) pre)) (length pre + length suf)); [|eauto].
  rewrite take_length in e. destruct suf; [congruence|]. cbn [length] in e. lia.
Qed.

Lemma deserialize_nil t : exists r, deserialize fread flen t [] = (Err StructError, r).
Proof. destruct t; cbn; eauto. Qed.

Lemma deserialize_cut t : forall v bs pre suf v' r,
  serialize t v = (bs, None) -> bs = pre ++ suf -> suf <> [] ->
  deserialize fread flen t pre = (Ok v', r) -> r = [] /\ truncated v v'.
Proof.
  induction t; intros v bs pre suf v' r H E Hs D; cbn [serialize] in H; cbn [deserialize] in D.
  - destruct v; try discriminate. injection H as <-.
    destruct (unpack_short 1 pre suf [n2b (if b then 1 else 0)%N] eq_refl E Hs) as [s [Hu|Hu]]; rewrite Hu in D; discriminate.
  - destruct v; try discriminate. apply pack_int_ok in H as [_ ->].
    destruct (unpack_short 4 pre suf _ (be_bytes_length _ _) E Hs) as [s [Hu|Hu]]; rewrite Hu in D; discriminate.
  - destruct v; try discriminate. apply pack_int_ok in H as [_ ->].
    destruct (unpack_short 4 pre suf _ (be_bytes_length _ _) E Hs) as [s [Hu|Hu]]; rewrite Hu in D; discriminate.
  - destruct v; try discriminate. apply pack_int_ok in H as [_ ->].
    destruct (unpack_short 8 pre suf _ (be_bytes_length _ _) E Hs) as [s [Hu|Hu]]; rewrite Hu in D; discriminate.
  - destruct v; try discriminate. apply pack_int_ok in H as [_ ->].
    destruct (unpack_short 8 pre suf _ (be_bytes_length _ _) E Hs) as [s [Hu|Hu]]; rewrite Hu in D; discriminate.
  - destruct v; try discriminate. apply wseq_ok in H as (x & y & [Hl ->]%ser_len_ok & [= <-] & ->).
    unfold deser_bytes in D.
    apply app_prefix_cases in E as [(a2 & E & Ha & ->)|(b1 & -> & ->)]; [| |assumption].
    { destruct (unpack_short 8 pre a2 _ (be_bytes_length _ _) E Ha) as [s [Hu|Hu]]; rewrite Hu in D; discriminate. }
    rewrite unpack_be in D by (cbn; lia).
    destruct (read fread _ b1) as [[d|?] s'] eqn:Er; [|discriminate]. injection D as <- <-.
    apply read_ok in Er as [-> Hr]. rewrite !app_length in *.
    destruct Hr as [Hr|[-> Hr]].
    { destruct suf; [congruence|]. cbn [length] in *. lia. }
    rewrite app_nil_r. split; [reflexivity|constructor; assumption].
  - destruct v; try discriminate. destruct (utf8_encode s) as [b|] eqn:Henc; [|discriminate].
    apply wseq_ok in H as (x & y & [Hl ->]%ser_len_ok & [= <-] & ->).
    unfold deser_bytes in D.
    apply app_prefix_cases in E as [(a2 & E & Ha & ->)|(b1 & -> & ->)]; [| |assumption].
    { destruct (unpack_short 8 pre a2 _ (be_bytes_length _ _) E Ha) as [s' [Hu|Hu]]; rewrite Hu in D; discriminate. }
    rewrite unpack_be in D by (cbn; lia).
    destruct (read fread _ b1) as [[d|?] s'] eqn:Er; [|discriminate].
    destruct (utf8_decode d) as [s1|] eqn:Hd; [|discriminate]. injection D as <- <-.
    apply read_ok in Er as [-> Hr]. rewrite !app_length in *.
    destruct Hr as [Hr|[-> Hr]].
    { destruct suf; [congruence|]. cbn [length] in *. lia. }
    rewrite app_nil_r in Henc. split; [reflexivity|].
    apply utf8_roundtrip in Henc. apply decode_encode in Hd.
    unfold utf8_decode in Henc. rewrite (dec_encode _ _ _ _ Hd) in Henc.
    destruct (utf8_dec _ suf) as [s2|] eqn:H2; [|discriminate]. cbn in Henc. injection Henc as <-.
    constructor. intros ->. apply decode_encode in H2. injection H2 as <-. congruence.
  - assert (C : (v = VNone /\ bs = [n2b 0]) \/ (exists y, serialize t v = (y, None) /\ bs = [n2b 1] ++ y)).
    { destruct v; [right|right|right|right|left|right];
        try (apply wseq_ok in H as (x & y & [= <-] & Hy & ->); eauto).
      injection H as <-. auto. }
    destruct C as [[-> ->]|(y & Hy & ->)].
    { destruct (unpack_short 1 pre suf [n2b 0] eq_refl E Hs) as [s [Hu|Hu]]; rewrite Hu in D; discriminate. }
    apply app_prefix_cases in E as [(a2 & E & Ha & ->)|(b1 & -> & E)]; [| |assumption].
    { destruct (unpack_short 1 pre a2 [n2b 1] eq_refl E Ha) as [s [Hu|Hu]]; rewrite Hu in D; discriminate. }
    rewrite unpack_app in D by (cbn; lia). cbn [be_val] in D.
    change (0 * 256 + Z.of_N (b2n (n2b 1)) =? 0)%Z with false in D. cbn [negb] in D.
    eapply IHt; eauto.
  - destruct v; try discriminate. apply wseq_ok in H as (x & y & [Hl ->]%ser_len_ok & Hy & ->).
    apply app_prefix_cases in E as [(a2 & E & Ha & ->)|(b1 & -> & E)]; [| |assumption].
    { destruct (unpack_short 8 pre a2 _ (be_bytes_length _ _) E Ha) as [s [Hu|Hu]]; rewrite Hu in D; discriminate. }
    rewrite unpack_be in D by (cbn; lia).
    destruct (deser_list _ _ _ b1) as [[vs|?] s''] eqn:E2; [|discriminate]. injection D as <- <-.
    replace (Z.to_N (Z.of_nat (length l))) with (N.of_nat (length l)) in E2 by lia.
    assert (G : forall fuel l y b1 vs r,
      (fix go (l : list value) := match l with
         | [] => ([], None) | x :: r => wseq (serialize t x) (fun _ => go r) end) l = (y, None) ->
      y = b1 ++ suf ->
      deser_list (deserialize fread flen t) fuel (N.of_nat (length l)) b1 = (Ok vs, r) ->
      r = [] /\ truncated (VList l) (VList vs)).
    { clear -IHt Hs. induction fuel as [|fuel IH]; intros l y b1 vs r Hy E D.
      { cbn [deser_list] in D. destruct (N.eqb_spec (N.of_nat (length l)) 0) as [Hz|]; [|discriminate].
        destruct l; [|cbn in Hz; lia]. injection Hy as <-. destruct b1; [|discriminate].
        cbn in E. congruence. }
      cbn [deser_list] in D. destruct (N.eqb_spec (N.of_nat (length l)) 0) as [Hz|Hz].
      { destruct l; [|cbn in Hz; lia]. injection Hy as <-. destruct b1; [|discriminate].
        cbn in E. congruence. }
      destruct l as [|v l]; [cbn in Hz; lia|].
      apply wseq_ok in Hy as (x & y' & Hx & Hy & ->).
      destruct (deserialize fread flen t b1) as [[v'|?] s'] eqn:Ed; [|discriminate].
      destruct (deser_list _ fuel _ s') as [[vs'|?] s''] eqn:El; [|discriminate]. injection D as <- <-.
      apply app_prefix_cases in E as [(a2 & E & Ha & Hsuf)|(b2 & -> & E)]; [| |assumption].
      - destruct (IHt _ _ _ _ _ _ Hx E Ha Ed) as [-> Htr].
        cbn [length] in El. replace (N.pred (N.of_nat (S (length l)))) with (N.of_nat (length l)) in El by lia.
        destruct l as [|v2 l].
        + destruct fuel; cbn in El; injection El as <- <-; (split; [reflexivity|]);
            apply (trunc_last [] v v'); assumption.
        + destruct fuel as [|fuel]; cbn [deser_list] in El;
            (destruct (N.eqb_spec (N.of_nat (length (v2 :: l))) 0) as [Hz2|]; [cbn in Hz2; lia|]); [discriminate|].
          destruct (deserialize_nil t) as [s Hn]. rewrite Hn in El. discriminate.
      - destruct (deserialize_serialize t v x b2 Hx) as [_ Hd]. rewrite Hd in Ed. injection Ed as <- <-.
        cbn [length] in El. replace (N.pred (N.of_nat (S (length l)))) with (N.of_nat (length l)) in El by lia.
        destruct (IH l y' b2 vs' s'' Hy E El) as [-> Htr]. split; [reflexivity|].
        inversion Htr as [| |l0 w w' Hw E1 E3]; subst.
        apply (trunc_last (v :: l0) w w'). assumption. }
    eapply G; eauto.
Qed.

Lemma deser_fields_cut ts : forall vs bs pre suf vs' r, length vs = length ts ->
  ser_fields ts vs = (bs, None) -> bs = pre ++ suf -> suf <> [] ->
  deser_fields fread flen ts pre = (Ok vs', r) ->
  exists fs v v', vs = fs ++ [v] /\ vs' = fs ++ [v'] /\ truncated v v'.
Proof.
  induction ts as [|t ts IH]; intros vs bs pre suf vs' r Hlen H E Hs D;
    destruct vs as [|v vs]; try discriminate Hlen.
  { injection H as <-. destruct pre; [|discriminate]. cbn in E. congruence. }
  injection Hlen as Hlen.
  cbn [ser_fields] in H. apply wseq_ok in H as (x & y & Hx & Hy & ->).
  cbn [deser_fields] in D.
  destruct (deserialize fread flen t pre) as [[v'|?] s'] eqn:Ed; [|discriminate].
  destruct (deser_fields _ _ ts s') as [[vs2|?] s''] eqn:Ef; [|discriminate]. injection D as <- <-.
  apply app_prefix_cases in E as [(a2 & E & Ha & Hsuf)|(b2 & -> & E)]; [| |assumption].
  - destruct (deserialize_cut _ _ _ _ _ _ _ Hx E Ha Ed) as [-> Htr].
    destruct ts as [|t2 ts]; cbn [deser_fields] in Ef.
    + destruct vs; [|discriminate Hlen]. injection Ef as <- <-. exists [], v, v'. auto.
    + destruct (deserialize_nil t2) as [s Hn]. rewrite Hn in Ef. discriminate.
  - destruct (deserialize_serialize t v x b2 Hx) as [_ Hd]. rewrite Hd in Ed. injection Ed as <- <-.
    destruct (IH _ _ _ _ _ _ Hlen Hy E Hs Ef) as (fs & w & w' & -> & -> & Htr).
    exists (v :: fs), w, w'. auto.
Qed.

Lemma read_packet_cut p bs pre suf q r :
  write_packet p = (bs, None) -> bs = pre ++ suf -> suf <> [] ->
  read_packet fread flen pre = (Ok q, r) -> packet_truncated p q.
Proof.
  intros H E Hs D. apply wseq_ok in H as (x & y & Hx & Hy & ->).
  cbn [serialize] in Hx. apply pack_int_ok in Hx as [_ ->].
  unfold read_packet in D.
  apply app_prefix_cases in E as [(a2 & E & Ha & Hsuf)|(b2 & -> & E)]; [| |assumption].
  { destruct (unpack_short 4 pre a2 _ (be_bytes_length _ _) E Ha) as [s [Hu|Hu]]; rewrite Hu in D; discriminate. }
  pose proof (pid_bound p). rewrite unpack_be in D by (cbn; lia). rewrite N2Z.id in D.
  destruct (schema_pid p) as (ts & Hts & Hl). rewrite Hts in D, Hy. cbn [default] in Hy.
  destruct (deser_fields _ _ ts b2) as [[vs|?] s''] eqn:Ef; [|discriminate].
  destruct (of_fields_typed _ _ _ Hts (deser_fields_typed _ _ _ _ Ef)) as (q' & Hof & Hq1 & Hq2).
  rewrite Hof in D. injection D as <- <-.
  destruct (deser_fields_cut _ _ _ _ _ _ _ Hl Hy E Hs Ef) as (fs & v & v' & H1 & H2 & Htr).
  split; [auto|]. exists fs, v, v'. rewrite Hq2. auto.
Qed.

(** Errors of a stream cut inside a packet. *)
Lemma truncated_none v v' : truncated v v' -> v <> VNone /\ (forall b, v <> VBool b) /\ (forall z, v <> VInt z) /\ v <> VList [].
Proof. destruct 1; split_and!; try congruence. destruct l; discriminate. Qed.

Lemma fixed_end_not_truncated p q : fixed_end p -> ~ packet_truncated p q.
Proof.
  intros Hf (_ & fs & v & v' & H1 & _ & (T1 & T2 & T3 & T4)%truncated_none).
  assert (L : last (pfields p) = Some v) by (rewrite H1; apply last_snoc).
  clear H1. destruct p; cbn [fixed_end] in Hf; 
    repeat match type of Hf with context [match ?x with _ => _ end] => destruct x end;
    try contradiction; cbn in L; try discriminate L; injection L as <-; (congruence || (eapply T2; reflexivity) || (eapply T3; reflexivity) || (apply T4; reflexivity)).
Qed.

Lemma receive_cut p bs pre suf q cs r cs' :
  write_packet p = (bs, None) -> bs = pre ++ suf -> suf <> [] -> List.concat cs = pre ->
  receive_packet q cs = (r, cs') ->
  match r with
  | Ok p' => packet_truncated p p'
  | Err (IOErr _) | Err UnicodeDecodeError | Err OverflowError => True
  | Err e => exists p', packet_truncated p p' /\ deliver q p' = Err e
  end.
Proof.
  intros H E Hs Hcs D. destruct (receive_flat q cs) as [H1 _]. rewrite D, Hcs in H1. cbn [fst] in H1. subst r.
  unfold receive_gen. destruct (read_packet fread flen pre) as [[p'|e] s'] eqn:Er; cbn [fst].
  - pose proof (read_packet_cut _ _ _ _ _ _ H E Hs Er) as Ht.
    destruct (deliver q p') as [p''|e] eqn:Ed.
    + assert (p'' = p') as -> by (destruct p'; cbn in Ed; try (injection Ed as <-; reflexivity); [discriminate|destruct (has_attr _ _); discriminate]).
      assumption.
    + assert (exists p', packet_truncated p p' /\ deliver q p' = Err e) by eauto.
      destruct e; auto.
  - apply read_packet_err in Er as [[->|[->| ->]]|[m ->]]; exact I.
Qed.

(** ** Statements used by the property file *)

Lemma has_attr_field q p f : q = Some p -> f ∈ field_names p -> has_attr q f = true.
Proof.
  intros -> H. unfold has_attr. apply orb_true_intro. right. unfold str_in.
  apply existsb_exists. exists f. split; [apply elem_of_list_In; assumption|].
  unfold str_eqb. apply bool_decide_eq_true_2. reflexivity.
Qed.

Lemma C01_lemma p bs request cs rest :
  write_packet p = (bs, None) ->
  (forall f m, p = PInvalidField f m -> exists p', request = Some p' /\ f ∈ field_names p') ->
  List.concat cs = bs ++ rest ->
  exists r cs', receive_packet request cs = (r, cs') /\ received_as request p r /\ List.concat cs' = rest.
Proof.
  intros H Hf Hcs. destruct (receive_roundtrip p bs rest request cs H Hcs) as (cs' & Hr & Hc).
  exists (deliver request p), cs'. split_and!; [assumption| |assumption].
  destruct p; try (apply rcv_plain; discriminate); cbn [deliver].
  - constructor.
  - destruct (Hf _ _ eq_refl) as (p' & -> & Hin). rewrite (has_attr_field _ _ _ eq_refl Hin). econstructor; eauto.
Qed.

Lemma sent_prefix ps qs b1 b2 r : sent ps b1 -> sent qs b2 -> b1 ++ r = b2 -> exists qs', qs = ps ++ qs' /\ sent qs' r.
Proof.
  intros H. revert qs b2. induction H as [|p ps b bs Hp _ IH]; intros qs b2 Hq E.
  { cbn in E. subst. eauto. }
  destruct Hq as [|q qs b' bs' Hw Hq].
  { destruct b; [exfalso; eapply write_nonempty; eauto|discriminate]. }
  rewrite <- app_assoc in E. destruct (write_prefix_free _ _ _ _ _ _ Hp Hw E) as [-> E'].
  destruct (IH _ _ Hq E') as (qs' & -> & Hs). exists qs'. auto.
Qed.

Lemma sent_inj ps qs bs : sent ps bs -> sent qs bs -> ps = qs.
Proof.
  intros H1 H2. destruct (sent_prefix ps qs bs bs [] H1 H2) as (qs' & -> & Hs); [apply app_nil_r|].
  inversion Hs as [|p ps' b bs' Hw Hs' E1 E2]; subst; [rewrite app_nil_r; reflexivity|].
  destruct b; [exfalso; eapply write_nonempty; eauto|discriminate].
Qed.

Lemma cut_fixed_end p bs pre suf request cs :
  write_packet p = (bs, None) -> bs = pre ++ suf -> suf <> [] -> List.concat cs = pre -> fixed_end p ->
  exists e cs', receive_packet request cs = (Err e, cs').
Proof.
  intros H E Hs Hcs Hf. destruct (receive_packet request cs) as [r cs'] eqn:D.
  pose proof (receive_cut _ _ _ _ _ _ _ _ H E Hs Hcs D) as G.
  destruct r as [p'|e]; [|eauto]. exfalso. eapply fixed_end_not_truncated; eauto.
Qed.

Lemma cut_shape p bs pre suf request cs p' cs' :
  write_packet p = (bs, None) -> bs = pre ++ suf -> suf <> [] -> List.concat cs = pre ->
  receive_packet request cs = (Ok p', cs') -> packet_truncated p p'.
Proof. intros H E Hs Hcs D. exact (receive_cut _ _ _ _ _ _ _ _ H E Hs Hcs D). Qed.

(** Every failed write has already put the packet header into the output buffer. *)
Lemma write_failed_header p b e : write_packet p = (b, Some e) -> exists b', b = be_bytes 4 (Z.of_N (pid p)) ++ b'.
Proof.
  unfold write_packet. cbn [serialize]. pose proof (pid_bound p). rewrite pack_int_range by lia.
  cbn [wseq]. destruct (ser_fields _ _) as [y e']. intros [= <- ->]. eauto.
Qed.

(** ... so the next packet that the peer reads has the kind of the failed one. *)
Lemma write_failed_poison p b e q cs rest r cs' : write_packet p = (b, Some e) ->
  List.concat cs = b ++ rest -> receive_packet q cs = (Ok r, cs') -> pid r = pid p.
Proof.
  intros (b' & ->)%write_failed_header Hcs D.
  destruct (receive_flat q cs) as [H1 _]. rewrite D, Hcs in H1. cbn [fst] in H1.
  unfold receive_gen, read_packet in H1. pose proof (pid_bound p).
  rewrite <- app_assoc, unpack_be, N2Z.id in H1 by (cbn; lia).
  destruct (schema_pid p) as (ts & Hts & Hl). rewrite Hts in H1.
  destruct (deser_fields _ _ ts _) as [[vs|e'] s''] eqn:Ef.
  - destruct (of_fields_typed _ _ _ Hts (deser_fields_typed _ _ _ _ Ef)) as (p' & Hof & Hq1 & Hq2).
    rewrite Hof in H1. cbn [fst] in H1.
    destruct p'; cbn in H1; try (injection H1 as ->; assumption); try discriminate.
    destruct (has_attr _ _); discriminate.
  - destruct e'; cbn in H1; discriminate.
Qed.
