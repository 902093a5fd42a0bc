(** * Lines of texts and of files: proofs *)
From stdpp Require Import list.
From Coq Require Import NArith Lia ZifyBool ZifyN ZifyNat.
From Verif Require Import Base Utf8 Utf8_proofs Spec_Line.
Local Open Scope N_scope.

(** ** [splitlines] meets its specification *)
Lemma splitlines_cons c s ls : is_linebreak c = false -> splitlines s = ls ->
  splitlines (c :: s) = match ls with w :: ws => (c :: w) :: ws | [] => [[c]] end.
Proof. intros H <-. cbn [splitlines]. rewrite H. reflexivity. Qed.
Lemma splitlines_breakless l : breakless l -> splitlines l = match l with [] => [] | _ => [l] end.
Proof.
  induction 1 as [|c l H Hl IH]; [reflexivity|]. rewrite (splitlines_cons _ _ _ H IH). destruct l; reflexivity.
Qed.
Lemma splitlines_prefix l s w ws : breakless l -> splitlines s = w :: ws -> splitlines (l ++ s) = (l ++ w) :: ws.
Proof. induction 1 as [|c l H Hl IH]; intros E; [exact E|]. cbn [app]. rewrite (splitlines_cons _ _ _ H (IH E)). reflexivity. Qed.
Lemma splitlines_at c r : is_linebreak c = true -> ~ (c = 13 /\ head r = Some 10) -> splitlines (c :: r) = [] :: splitlines r.
Proof.
  intros H Hn. cbn [splitlines]. rewrite H. destruct r as [|d r]; [reflexivity|].
  destruct ((c =? 13) && (d =? 10)) eqn:E; [|reflexivity]. exfalso. apply Hn. cbn. split; [lia|f_equal; lia].
Qed.
Lemma lines_of_splitlines s ls : lines_of s ls -> splitlines s = ls.
Proof.
  induction 1 as [|l H Hne|l r ls H Hr IH|l c r ls H Hc Hn Hr IH].
  - reflexivity.
  - rewrite splitlines_breakless by assumption. destruct l; [contradiction|reflexivity].
  - rewrite (splitlines_prefix _ (13 :: 10 :: r) [] ls H); [rewrite app_nil_r; reflexivity|]. cbn. rewrite IH. reflexivity.
  - rewrite (splitlines_prefix _ (c :: r) [] ls H); [rewrite app_nil_r; reflexivity|]. rewrite splitlines_at by assumption. rewrite IH. reflexivity.
Qed.

Lemma breakless_nil : breakless []. Proof. constructor. Qed.
Lemma first_break s : breakless s \/ exists l c r, s = l ++ c :: r /\ breakless l /\ is_linebreak c = true.
Proof.
  induction s as [|c s [IH|(l & d & r & -> & Hl & Hd)]].
  - left. constructor.
  - destruct (is_linebreak c) eqn:E; [right; exists [], c, s; split_and!; [reflexivity|constructor|assumption]|left; constructor; assumption].
  - destruct (is_linebreak c) eqn:E; [right; exists [], c, (l ++ d :: r); split_and!; [reflexivity|constructor|assumption]|].
    right. exists (c :: l), d, r. split_and!; [reflexivity|constructor; assumption|assumption].
Qed.
Lemma lines_of_total s : exists ls, lines_of s ls.
Proof.
  induction s as [s IH] using (induction_ltof1 _ (@List.length N)). unfold ltof in IH.
  destruct (first_break s) as [H|(l & c & r & -> & Hl & Hc)].
  - destruct s as [|c s]; [eexists; constructor|]. eexists. apply lines_last; [assumption|discriminate].
  - assert (D : (c = 13 /\ head r = Some 10) \/ ~ (c = 13 /\ head r = Some 10)).
    { destruct (decide (c = 13)) as [?|?]; [|right; tauto]. destruct (decide (head r = Some 10)); [left; auto|right; tauto]. }
    destruct D as [[-> Hr]|Hn].
    + destruct r as [|d r]; [discriminate|]. injection Hr as ->.
      destruct (IH r) as [ls Hls]; [rewrite app_length; cbn; lia|]. exists (l :: ls). apply lines_crlf; assumption.
    + destruct (IH r) as [ls Hls]; [rewrite app_length; cbn; lia|]. exists (l :: ls). apply lines_break; assumption.
Qed.
Lemma splitlines_lines_of s : lines_of s (splitlines s).
Proof. destruct (lines_of_total s) as [ls H]. rewrite (lines_of_splitlines _ _ H). exact H. Qed.
Lemma lines_of_iff s ls : lines_of s ls <-> splitlines s = ls.
Proof. split; [apply lines_of_splitlines|intros <-; apply splitlines_lines_of]. Qed.
Lemma lines_of_unique s ls ls' : lines_of s ls -> lines_of s ls' -> ls = ls'.
Proof. rewrite !lines_of_iff. congruence. Qed.
Lemma lines_of_breakless s ls : lines_of s ls -> Forall breakless ls.
Proof. induction 1; repeat constructor; assumption. Qed.

(** ** Lines each ended by a line feed *)
Definition ended (ls : list pystr) : pystr := flat_map (fun l => l ++ [10]) ls.
Lemma ended_cons l ls : ended (l :: ls) = l ++ 10 :: ended ls.
Proof. unfold ended. cbn [flat_map]. rewrite <- app_assoc. reflexivity. Qed.
Lemma ended_app ls ls' : ended (ls ++ ls') = ended ls ++ ended ls'.
Proof. unfold ended. apply flat_map_app. Qed.
Lemma lines_of_ended ls : Forall breakless ls -> lines_of (ended ls) ls.
Proof.
  induction 1 as [|l ls H Hl IH]; [constructor|]. rewrite ended_cons. apply lines_break; [assumption|reflexivity|intros [[=] _]|assumption].
Qed.
Lemma join_ended sep ls : sep = [10] -> ls <> [] -> join_str sep ls ++ [10] = ended ls.
Proof.
  intros ->. induction ls as [|l ls IH]; [contradiction|]. intros _. destruct ls as [|l' ls].
  - unfold ended. cbn. rewrite app_nil_r. reflexivity.
  - change (join_str [10] (l :: l' :: ls)) with (l ++ [10] ++ join_str [10] (l' :: ls)).
    rewrite ended_cons, <- IH by discriminate. rewrite <- !app_assoc. reflexivity.
Qed.

(** ** Decoding at the start of a character *)
Lemma dec_esc_total l : utf8_dec (fun b => Some [56320 + b2n b]) l = Some (utf8_decode_esc l).
Proof. apply decode_esc_spec. Qed.
Lemma cont_no b : is_cont b = false -> forall a x y, cp2 a b = None /\ cp3 a b x = None /\ cp3 a x b = None /\ cp4 a b x y = None /\ cp4 a x b y = None /\ cp4 a x y b = None.
Proof.
  intros H a x y. unfold cp2, cp3, cp4. rewrite H. rewrite ?andb_false_r, ?andb_false_l. split_and!; try reflexivity; rewrite ?andb_false_r; reflexivity.
Qed.
Definition esc := utf8_dec (fun b => Some [56320 + b2n b]).
Lemma esc_some l : esc l = Some (utf8_decode_esc l). Proof. apply dec_esc_total. Qed.
Lemma esc_split x b0 y : is_cont b0 = false -> utf8_decode_esc (x ++ b0 :: y) = utf8_decode_esc x ++ utf8_decode_esc (b0 :: y).
Proof.
  intros Hb. remember (List.length x) as n eqn:E. revert x E.
  induction n as [n IH] using lt_wf_ind. intros x ->.
  assert (IH' : forall x', (List.length x' < List.length x)%nat -> esc (x' ++ b0 :: y) = Some (utf8_decode_esc x' ++ utf8_decode_esc (b0 :: y))).
  { intros x' Hx. rewrite esc_some. f_equal. eapply IH; [exact Hx|reflexivity]. }
  assert (G : esc (x ++ b0 :: y) = Some (utf8_decode_esc x ++ utf8_decode_esc (b0 :: y))).
  { clear IH. destruct x as [|a1 x]; [apply esc_some|].
    assert (Hs : forall l, (esc l : option pystr) = Some (utf8_decode_esc l)) by apply esc_some.
    assert (Hx := Hs (a1 :: x)). unfold esc in *. cbn [List.length] in IH'.
    cbn [app]. cbn -[b2n utf8_dec app] in Hx |- *.
    assert (B : forall x' t, (List.length x' < S (List.length x))%nat ->
      (r ← utf8_dec (fun b => Some [56320 + b2n b]) x'; Some (t ++ r)) = Some (utf8_decode_esc (a1 :: x)) ->
      (r ← utf8_dec (fun b => Some [56320 + b2n b]) (x' ++ b0 :: y); Some (t ++ r)) = Some (utf8_decode_esc (a1 :: x) ++ utf8_decode_esc (b0 :: y))).
    { intros x' t Hl He. rewrite (IH' _ Hl). rewrite Hs in He. cbn [mbind option_bind] in *. injection He as <-. rewrite app_assoc. reflexivity. }
    cbn [utf8_dec] in Hx |- *.
    destruct (b2n a1 <? 128); [apply (B x [b2n a1]); [lia|exact Hx]|].
    destruct x as [|a2 x]; cbn [app] in *.
    { destruct (cont_no b0 Hb a1 a1 a1) as (-> & _). destruct y as [|y1 y]; [apply (B [] [56320 + b2n a1]); [cbn; lia|exact Hx]|].
      destruct (cont_no b0 Hb a1 y1 y1) as (_ & -> & _). destruct y as [|y2 y]; [apply (B [] [56320 + b2n a1]); [cbn; lia|exact Hx]|].
      destruct (cont_no b0 Hb a1 y1 y2) as (_ & _ & _ & -> & _). apply (B [] [56320 + b2n a1]); [cbn; lia|exact Hx]. }
    destruct (cp2 a1 a2) as [c|]; [apply (B x [c]); [cbn; lia|exact Hx]|].
    destruct x as [|a3 x]; cbn [app] in *.
    { destruct (cont_no b0 Hb a1 a2 a2) as (_ & _ & -> & _). destruct y as [|y2 y]; [apply (B [a2] [56320 + b2n a1]); [cbn; lia|exact Hx]|].
      destruct (cont_no b0 Hb a1 a2 y2) as (_ & _ & _ & _ & -> & _). apply (B [a2] [56320 + b2n a1]); [cbn; lia|exact Hx]. }
    destruct (cp3 a1 a2 a3) as [c|]; [apply (B x [c]); [cbn; lia|exact Hx]|].
    destruct x as [|a4 x]; cbn [app] in *.
    { destruct (cont_no b0 Hb a1 a2 a3) as (_ & _ & _ & _ & _ & ->). apply (B [a2; a3] [56320 + b2n a1]); [cbn; lia|exact Hx]. }
    destruct (cp4 a1 a2 a3 a4) as [c|]; [apply (B x [c]); [cbn; lia|exact Hx]|].
    apply (B (a2 :: a3 :: a4 :: x) [56320 + b2n a1]); [cbn; lia|exact Hx]. }
  rewrite esc_some in G. injection G as G. exact G.
Qed.

Lemma enc_cp_head c b : enc_cp c = Some b -> exists b0 r, b = b0 :: r /\ is_cont b0 = false.
Proof.
  unfold enc_cp, is_cont. intros H.
  destruct (c <? 128) eqn:H1. { injection H as <-. eexists _, _. split; [reflexivity|]. rewrite b2n_n2b by lia. lia. }
  destruct (c <? 2048) eqn:H2. { injection H as <-. eexists _, _. split; [reflexivity|]. rewrite b2n_n2b by lia. lia. }
  destruct (c <? 65536) eqn:H3.
  { destruct ((55296 <=? c) && (c <=? 57343)); [discriminate|]. injection H as <-. eexists _, _. split; [reflexivity|]. rewrite b2n_n2b by lia. lia. }
  destruct (c <? 1114112) eqn:H4; [|discriminate]. injection H as <-. eexists _, _. split; [reflexivity|]. rewrite b2n_n2b by lia. lia.
Qed.
Lemma esc_char x c bc y : enc_cp c = Some bc -> utf8_decode_esc (x ++ bc ++ y) = utf8_decode_esc x ++ c :: utf8_decode_esc y.
Proof.
  intros Hc. destruct (enc_cp_head _ _ Hc) as (b0 & r & -> & H). cbn [app]. rewrite esc_split by assumption. f_equal.
  assert (E := dec_enc_cp (fun b => Some [56320 + b2n b]) c (b0 :: r) y Hc). rewrite !dec_esc_total in E. cbn in E. injection E as E. exact E.
Qed.

(** ** Texts that come back from their bytes *)
Definition stable (s : pystr) : Prop := exists b, utf8_encode_esc s = Some b /\ utf8_decode_esc b = s.
Lemma stable_decoded b : stable (utf8_decode_esc b).
Proof. exists b. split; [apply decode_encode_esc|reflexivity]. Qed.
Lemma stable_nil : stable []. Proof. exists []. split; reflexivity. Qed.
Lemma encode_esc_app s1 s2 : utf8_encode_esc (s1 ++ s2) = b1 ← utf8_encode_esc s1; b2 ← utf8_encode_esc s2; Some (b1 ++ b2).
Proof.
  unfold utf8_encode_esc. induction s1 as [|c s IH]; cbn [app enc_with].
  - cbn. destruct (enc_with enc_cp_esc s2); reflexivity.
  - destruct (enc_cp_esc c) as [bc|]; [|reflexivity]. cbn. rewrite IH. destruct (enc_with enc_cp_esc s) as [b1|]; [|reflexivity]. cbn.
    destruct (enc_with enc_cp_esc s2) as [b2|]; [|reflexivity]. cbn. rewrite app_assoc. reflexivity.
Qed.
Lemma encode_esc_char c bc s : enc_cp c = Some bc -> utf8_encode_esc (c :: s) = b ← utf8_encode_esc s; Some (bc ++ b).
Proof. intros H%enc_cp_not_esc. unfold utf8_encode_esc. cbn [enc_with]. rewrite H. cbn. destruct (enc_with enc_cp_esc s); reflexivity. Qed.
Lemma stable_parts s1 c bc s2 : enc_cp c = Some bc -> stable (s1 ++ c :: s2) -> stable s1 /\ stable s2.
Proof.
  intros Hc (b & He & Hd). rewrite encode_esc_app, (encode_esc_char _ _ _ Hc) in He.
  destruct (utf8_encode_esc s1) as [b1|] eqn:E1; [|discriminate]. destruct (utf8_encode_esc s2) as [b2|] eqn:E2; [|discriminate].
  cbn in He. injection He as <-. rewrite (esc_char _ _ _ _ Hc) in Hd.
  (* both decodings give texts that encode to the same bytes; compare lengths through the encoding *)
  assert (Hlen : utf8_decode_esc b1 = s1 /\ utf8_decode_esc b2 = s2).
  { assert (K1 := decode_encode_esc b1). assert (K2 := decode_encode_esc b2).
    (* [s1 ++ c :: s2] splits at the same place *)
    assert (G : forall t1 t2 u1 u2, utf8_encode_esc t1 = utf8_encode_esc u1 -> is_Some (utf8_encode_esc u1) -> t1 ++ t2 = u1 ++ u2 -> t1 = u1 /\ t2 = u2).
    { clear. intros t1. induction t1 as [|x t1 IH]; intros t2 u1 u2 He Hs E.
      - destruct u1 as [|y u1]; [auto|]. exfalso. unfold utf8_encode_esc in He. cbn [enc_with] in He.
        destruct (enc_cp_esc y) as [by_|] eqn:Ey; [|discriminate]. cbn in He. destruct (enc_with enc_cp_esc u1) as [bu|]; [|discriminate]. cbn in He.
        injection He as He. assert (Hn : by_ <> []).
        { unfold enc_cp_esc in Ey. destruct (_ && _)%bool; [injection Ey as <-; discriminate|]. destruct (enc_cp_head _ _ Ey) as (? & ? & -> & _). discriminate. }
        destruct by_; [contradiction|discriminate].
      - destruct u1 as [|y u1].
        + exfalso. unfold utf8_encode_esc in He. cbn [enc_with] in He.
          destruct (enc_cp_esc x) as [by_|] eqn:Ey; [|discriminate]. cbn in He. destruct (enc_with enc_cp_esc t1) as [bu|]; [|discriminate]. cbn in He.
          injection He as He. assert (Hn : by_ <> []).
          { unfold enc_cp_esc in Ey. destruct (_ && _)%bool; [injection Ey as <-; discriminate|]. destruct (enc_cp_head _ _ Ey) as (? & ? & -> & _). discriminate. }
          destruct by_; [contradiction|discriminate].
        + cbn [app] in E. injection E as -> E. unfold utf8_encode_esc in He, Hs. cbn [enc_with] in He, Hs.
          destruct (enc_cp_esc y) as [by_|]; [|destruct Hs; discriminate]. cbn in He, Hs.
          destruct (enc_with enc_cp_esc u1) as [bu|] eqn:Eu; [|destruct Hs; discriminate]. cbn in He.
          destruct (enc_with enc_cp_esc t1) as [bt|] eqn:Et; [|discriminate]. cbn in He. injection He as He. apply app_inv_head in He. subst bt.
          destruct (IH t2 u1 u2) as [-> ->]; [unfold utf8_encode_esc; congruence|unfold utf8_encode_esc; eauto|exact E|auto]. }
    destruct (G _ _ _ _ (eq_trans K1 (eq_sym E1)) ltac:(eauto) Hd) as [H1 H2]. injection H2 as H2. auto. }
  destruct Hlen. split; [exists b1|exists b2]; auto.
Qed.
Lemma stable_join s1 c bc s2 : enc_cp c = Some bc -> stable s1 -> stable s2 -> stable (s1 ++ c :: s2).
Proof.
  intros Hc (b1 & E1 & D1) (b2 & E2 & D2). exists (b1 ++ bc ++ b2). split.
  - rewrite encode_esc_app, (encode_esc_char _ _ _ Hc), E1, E2. reflexivity.
  - rewrite (esc_char _ _ _ _ Hc), D1, D2. reflexivity.
Qed.
Lemma stable_valid s : is_Some (utf8_encode s) -> stable s.
Proof.
  intros [b H]. exists b. split.
  - revert b H. induction s as [|c s IH]; intros b H; [exact H|]. unfold utf8_encode, utf8_encode_esc in *. cbn [enc_with] in *.
    destruct (enc_cp c) as [bc|] eqn:Hc; [|discriminate]. rewrite (enc_cp_not_esc _ _ Hc). cbn in *. destruct (enc_with enc_cp s) as [bs|]; [|discriminate].
    cbn in H. rewrite (IH _ eq_refl). exact H.
  - assert (E := dec_encode (fun b => Some [56320 + b2n b]) s b [] H). rewrite app_nil_r, !dec_esc_total in E. cbn in E. rewrite app_nil_r in E. injection E as E. exact E.
Qed.
Lemma linebreak_cp c : is_linebreak c = true -> exists bc, enc_cp c = Some bc.
Proof.
  unfold is_linebreak, enc_cp. intros H. destruct (c <? 128) eqn:?; [eauto|]. destruct (c <? 2048) eqn:?; [eauto|].
  destruct (c <? 65536) eqn:?; [|lia]. destruct ((55296 <=? c) && (c <=? 57343)) eqn:?; [lia|eauto].
Qed.
Lemma stable_lines s ls : lines_of s ls -> stable s -> Forall stable ls.
Proof.
  induction 1 as [|l H Hne|l r ls H Hr IH|l c r ls H Hc Hn Hr IH]; intros Hs.
  - constructor.
  - repeat constructor. assumption.
  - destruct (stable_parts l 13 _ (10 :: r) eq_refl Hs) as [H1 H2]. destruct (stable_parts [] 10 _ r eq_refl H2) as [_ H3]. constructor; auto.
  - destruct (linebreak_cp _ Hc) as [bc Hbc]. destruct (stable_parts _ _ _ _ Hbc Hs) as [H1 H2]. constructor; auto.
Qed.
Lemma stable_ended ls : Forall stable ls -> stable (ended ls).
Proof.
  induction 1 as [|l ls H Hl IH]; [apply stable_nil|]. rewrite ended_cons.
  eapply stable_join; [reflexivity|assumption|assumption].
Qed.

(** Bytes of lines each ended by a line feed *)
Lemma ended_bytes ls : Forall stable ls -> Forall breakless ls ->
  exists b, utf8_encode_esc (ended ls) = Some b /\ utf8_decode_esc b = ended ls /\ file_lines b ls.
Proof.
  intros Hs Hb. destruct (stable_ended _ Hs) as (b & He & Hd). exists b. split_and!; auto. unfold file_lines. rewrite Hd. apply lines_of_ended. assumption.
Qed.
Lemma file_lines_stable b ls : file_lines b ls -> Forall stable ls /\ Forall breakless ls.
Proof. intros H. split; [eapply stable_lines; [exact H|apply stable_decoded]|eapply lines_of_breakless; exact H]. Qed.

(** ** Removing *)
Lemma without_filter {A} (P : A -> Prop) (f : A -> bool) ls : (forall l, f l = false <-> P l) -> without P ls (List.filter f ls).
Proof.
  intros H. induction ls as [|l ls IH]; [constructor|]. cbn [List.filter]. destruct (f l) eqn:E.
  - apply without_keep; [|exact IH]. rewrite <- H. congruence.
  - apply without_it; [|exact IH]. apply H. exact E.
Qed.
Lemma without_unique {A} (P : A -> Prop) ls ks ks' : without P ls ks -> without P ls ks' -> ks = ks'.
Proof. intros H. revert ks'. induction H; intros ks' H'; inversion H'; subst; try contradiction; f_equal; auto. Qed.
Lemma without_not {A} (P : A -> Prop) ls ks l : without P ls ks -> l ∈ ks -> ~ P l /\ l ∈ ls.
Proof.
  induction 1 as [|x ls ks Hx H IH|x ls ks Hx H IH]; intros Hl; [inversion Hl| |].
  - destruct (IH Hl). split; [assumption|right; assumption].
  - apply elem_of_cons in Hl as [-> |Hl]; [split; [assumption|left]|]. destruct (IH Hl). split; [assumption|right; assumption].
Qed.
Lemma without_same {A} (P : A -> Prop) ls : (forall l, l ∈ ls -> ~ P l) -> without P ls ls.
Proof. induction ls as [|l ls IH]; intros H; constructor; [apply H; left|apply IH; intros x Hx; apply H; right; exact Hx]. Qed.
Lemma without_map {A B} (g : A -> B) (P : B -> Prop) ls ks : without (fun x => P (g x)) ls ks -> without P (List.map g ls) (List.map g ks).
Proof. induction 1; cbn; constructor; assumption. Qed.
Lemma without_forall {A} (P Q : A -> Prop) ls ks : without P ls ks -> Forall Q ls -> Forall Q ks.
Proof. induction 1; intros F; [constructor| |]; inversion F; subst; auto. Qed.

(** ** Rows *)
Lemma lf_byte : enc_cp 10 = Some [lf]. Proof. reflexivity. Qed.
Lemma lf_ended_cons l ls : lf_ended (l :: ls) = l ++ [lf] ++ lf_ended ls.
Proof. unfold lf_ended. cbn [flat_map]. rewrite <- app_assoc. reflexivity. Qed.
Lemma lf_ended_app ls ls' : lf_ended (ls ++ ls') = lf_ended ls ++ lf_ended ls'.
Proof. unfold lf_ended. apply flat_map_app. Qed.
Lemma decode_lf l r : utf8_decode_esc (l ++ [lf] ++ r) = utf8_decode_esc l ++ 10 :: utf8_decode_esc r.
Proof. apply (esc_char l 10 [lf] r lf_byte). Qed.
Lemma decode_rows rows t : utf8_decode_esc (lf_ended rows ++ t) = ended (List.map utf8_decode_esc rows) ++ utf8_decode_esc t.
Proof.
  induction rows as [|l rows IH]; [reflexivity|]. rewrite lf_ended_cons, <- !app_assoc. cbn [List.map]. rewrite ended_cons, decode_lf, IH, <- app_assoc. reflexivity.
Qed.
Lemma decode_nil b : utf8_decode_esc b = [] -> b = [].
Proof. intros H. assert (E := decode_encode_esc b). rewrite H in E. cbn in E. congruence. Qed.
Lemma lf_decoded l : 10 ∈ utf8_decode_esc l -> lf ∈ l.
Proof.
  intros H. apply elem_of_list_split in H as (u & v & E). assert (D := decode_encode_esc l). rewrite E, encode_esc_app, (encode_esc_char _ _ _ lf_byte) in D.
  destruct (utf8_encode_esc u) as [bu|]; [|discriminate]. destruct (utf8_encode_esc v) as [bv|]; [|discriminate]. cbn in D. injection D as <-.
  apply elem_of_app. right. left.
Qed.
Lemma row_breakless b l : lf_only b -> (lf ∉ l) -> (forall c, c ∈ utf8_decode_esc l -> c ∈ utf8_decode_esc b) -> breakless (utf8_decode_esc l).
Proof.
  intros Hb Hl Hs. apply Forall_forall. intros c Hc. destruct (is_linebreak c) eqn:E; [|reflexivity]. exfalso. assert (c = 10) as -> by (apply Hb; auto). apply Hl. apply lf_decoded. exact Hc.
Qed.
Lemma ended_elem ls l c : l ∈ ls -> c ∈ l -> c ∈ ended ls.
Proof. intros Hl Hc. induction Hl as [x ls|x y ls H IH]; rewrite ended_cons; apply elem_of_app; [left; exact Hc|right; right; apply IH; exact Hc]. Qed.
Lemma lines_of_last ls y : Forall breakless ls -> breakless y -> y <> [] -> lines_of (ended ls ++ y) (ls ++ [y]).
Proof.
  intros H Hy Hn. induction H as [|l ls H Hl IH]; [apply lines_last; assumption|]. rewrite ended_cons, <- app_assoc. cbn [app]. apply lines_break; [assumption|reflexivity|intros [[=] _]|exact IH].
Qed.
Lemma rows_lines b rows : lf_only b -> rows_of b rows -> file_lines b (List.map utf8_decode_esc rows).
Proof.
  intros Hb [Hf [-> |(Hl & Hne & He)]]; unfold file_lines.
  - assert (D := decode_rows rows []). rewrite app_nil_r in D. cbn in D. rewrite app_nil_r in D. rewrite D. apply lines_of_ended.
    apply Forall_forall. intros l Hin. apply elem_of_list_In, in_map_iff in Hin as (r & <- & Hr). apply elem_of_list_In in Hr. eapply row_breakless; [exact Hb|rewrite Forall_forall in Hf; exact (Hf _ Hr)|].
    intros c Hc. rewrite D. eapply ended_elem; [|exact Hc]. apply elem_of_list_In, in_map, elem_of_list_In. exact Hr.
  - destruct rows as [|x rows _] using rev_ind; [contradiction|]. rewrite last_snoc in Hl. rewrite lf_ended_app in He. unfold lf_ended at 2 in He. cbn [flat_map] in He. rewrite app_nil_r, app_assoc in He.
    apply app_inj_tail in He as [-> _]. rewrite decode_rows, map_app. cbn [List.map]. apply Forall_app in Hf as [Hf Hx]. inversion Hx as [|? ? Hx' _]; subst.
    assert (D := decode_rows rows x). apply lines_of_last.
    + apply Forall_forall. intros l Hin. apply elem_of_list_In, in_map_iff in Hin as (r & <- & Hr). apply elem_of_list_In in Hr. eapply row_breakless; [exact Hb|rewrite Forall_forall in Hf; exact (Hf _ Hr)|].
      intros c Hc. rewrite D. apply elem_of_app. left. eapply ended_elem; [|exact Hc]. apply elem_of_list_In, in_map, elem_of_list_In. exact Hr.
    + eapply row_breakless; [exact Hb|exact Hx'|]. intros c Hc. rewrite D. apply elem_of_app. right. exact Hc.
    + intros E. apply Hl. f_equal. apply decode_nil. exact E.
Qed.
Lemma rows_total b : exists rows, rows_of b rows.
Proof.
  induction b as [|c b (rows & Hf & H)].
  - exists []. split; [constructor|left; reflexivity].
  - destruct (decide (c = lf)) as [-> |Hc].
    + exists ([] :: rows). split; [constructor; [apply not_elem_of_nil|exact Hf]|]. rewrite lf_ended_cons. destruct H as [-> |(H1 & H2 & H3)]; [left; reflexivity|right].
      split; [destruct rows; [contradiction|exact H1]|]. split; [discriminate|]. cbn [app]. rewrite H3. reflexivity.
    + destruct rows as [|l rows].
      * exists [[c]]. destruct H as [-> |(_ & H & _)]; [|contradiction]. split; [repeat constructor; rewrite elem_of_list_singleton; congruence|]. right. split; [discriminate|]. split; [discriminate|reflexivity].
      * exists ((c :: l) :: rows). inversion Hf; subst. split; [constructor; [rewrite elem_of_cons; intros [E|E]; [congruence|contradiction]|assumption]|].
        rewrite lf_ended_cons in *. cbn [app]. destruct H as [-> |(G1 & G2 & G3)]; [left; reflexivity|right]. split; [destruct rows; [discriminate|exact G1]|]. split; [discriminate|]. rewrite G3. reflexivity.
Qed.
Lemma encode_valid s b : utf8_encode s = Some b -> utf8_encode_esc s = Some b.
Proof.
  revert b. induction s as [|c s IH]; intros b H; [exact H|]. unfold utf8_encode, utf8_encode_esc in *. cbn [enc_with] in *.
  destruct (enc_cp c) as [bc|] eqn:Hc; [|discriminate]. rewrite (enc_cp_not_esc _ _ Hc). cbn in *. destruct (enc_with enc_cp s) as [bs|]; [|discriminate].
  cbn in H. rewrite (IH _ eq_refl). exact H.
Qed.
Lemma encode_ended ls bs : Forall2 (fun l b => utf8_encode_esc l = Some b) ls bs -> utf8_encode_esc (ended ls) = Some (lf_ended bs).
Proof.
  induction 1 as [|l b ls bs H _ IH]; [reflexivity|]. rewrite ended_cons, lf_ended_cons, encode_esc_app, H, (encode_esc_char _ _ _ lf_byte), IH. reflexivity.
Qed.
Lemma encode_rows rows : Forall2 (fun l b => utf8_encode_esc l = Some b) (List.map utf8_decode_esc rows) rows.
Proof. induction rows; cbn; constructor; [apply decode_encode_esc|assumption]. Qed.
