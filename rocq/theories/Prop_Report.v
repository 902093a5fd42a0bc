(** C78, C79: the report of an operation. *)
From Coq Require Import Lia ZifyBool ZifyN ZifyNat.
From stdpp Require Import list.
From Verif Require Import Base Utf8 Utf8_proofs Dict_proofs Op Spec_Op Op_proofs Logger Prop_Logger Inspect Spec_Table Prop_Table Spec_Report.
Local Open Scope nat_scope.

Lemma hexdigit_spec n : (n < 16)%N -> lit "0123456789abcdef" !! N.to_nat n = Some (hexdigit n).
Proof.
  intros H. assert (K : forallb (fun i => bool_decide (lit "0123456789abcdef" !! i = Some (hexdigit (N.of_nat i)))) (seq 0 16) = true) by (vm_compute; reflexivity).
  rewrite forallb_forall in K. specialize (K (N.to_nat n)). rewrite in_seq in K. specialize (K ltac:(lia)). apply bool_decide_eq_true in K.
  rewrite N2Nat.id in K. exact K.
Qed.
Lemma hexadecimal_spec b : hexadecimal b = hex_of b.
Proof.
  unfold hexadecimal, hex_of. f_equal. apply map_ext. intros x. pose proof (b2n_bound x) as H.
  assert (H1 : (b2n x / 16 < 16)%N) by (apply N.div_lt_upper_bound; lia). assert (H2 : (b2n x mod 16 < 16)%N) by (apply N.mod_lt; lia).
  cbn [omap list_omap]. rewrite (hexdigit_spec _ H1), (hexdigit_spec _ H2). reflexivity.
Qed.
Lemma text_of_spec other v : text_of other v = to_str other v.
Proof. destruct v; try reflexivity. apply hexadecimal_spec. Qed.
Lemma hexdigit_inj a b : (a < 16)%N -> (b < 16)%N -> hexdigit a = hexdigit b -> a = b.
Proof. unfold hexdigit. intros Ha Hb. destruct (N.ltb_spec a 10), (N.ltb_spec b 10); lia. Qed.
Lemma hex_inj a : forall b, hex_of a = hex_of b -> a = b.
Proof.
  induction a as [|x a IH]; intros [|y b] H; try reflexivity; try discriminate. unfold hex_of in H. cbn [List.map List.concat app] in H.
  injection H as H1 H2 H3. pose proof (b2n_bound x) as Bx. pose proof (b2n_bound y) as By.
  apply hexdigit_inj in H1; [|apply N.div_lt_upper_bound; lia..]. apply hexdigit_inj in H2; [|apply N.mod_lt; lia..].
  assert (E : b2n x = b2n y).
  { pose proof (N.div_mod (b2n x) 16 ltac:(lia)) as Dx. pose proof (N.div_mod (b2n y) 16 ltac:(lia)) as Dy. rewrite H1, H2 in Dx. congruence. }
  assert (x = y) as ->. { rewrite <- (n2b_b2n x), <- (n2b_b2n y), E. reflexivity. }
  f_equal. apply IH, H3.
Qed.

Lemma ellipsis_spec s w : 1 <= w -> stands_for w s (ellipsis s (Z.of_nat w)).
Proof.
  intros Hw. unfold ellipsis, upto, stands_for. destruct (Z.ltb_spec (Z.of_nat w) (Z.of_nat (length s))) as [L|L]; [|left; split; [lia|reflexivity]].
  right. split; [lia|]. destruct (Z.ltb_spec (Z.of_nat w - 1) 0); [lia|]. exists (firstn (Z.to_nat (Z.of_nat w - 1)) s). split; [reflexivity|].
  split; [exists (skipn (Z.to_nat (Z.of_nat w - 1)) s); symmetry; apply firstn_skipn|]. rewrite app_length, firstn_length. cbn [length]. lia.
Qed.
Lemma shorten_spec verbose w s : 1 <= w -> shown_as (verbose =? 0)%N w s (shorten verbose (Z.of_nat w) s).
Proof. intros Hw. unfold shorten, shown_as. destruct (verbose =? 0)%N; [apply ellipsis_spec, Hw|reflexivity]. Qed.

(** colours are not seen *)
Lemma sgr_colour x : forallb (fun c => (48 <=? c) && (c <=? 63))%N x = true -> colour (27%N :: 91%N :: x ++ [109%N]).
Proof. intros H. exists x. split; [reflexivity|]. apply Forall_forall. intros c Hc. rewrite forallb_forall in H. apply elem_of_list_In, H in Hc. lia. Qed.
Lemma col_90 c r : seen (col c "[90m" ++ r) = seen r.
Proof. destruct c; [|reflexivity]. apply (seen_colour (27 :: 91 :: lit "90" ++ [109])%N). apply sgr_colour. reflexivity. Qed.
Lemma col_33 c r : seen (col c "[33m" ++ r) = seen r.
Proof. destruct c; [|reflexivity]. apply (seen_colour (27 :: 91 :: lit "33" ++ [109])%N). apply sgr_colour. reflexivity. Qed.
Lemma col_32 c r : seen (col c "[32m" ++ r) = seen r.
Proof. destruct c; [|reflexivity]. apply (seen_colour (27 :: 91 :: lit "32" ++ [109])%N). apply sgr_colour. reflexivity. Qed.
Lemma col_31 c r : seen (col c "[31m" ++ r) = seen r.
Proof. destruct c; [|reflexivity]. apply (seen_colour (27 :: 91 :: lit "31" ++ [109])%N). apply sgr_colour. reflexivity. Qed.
Lemma col_m c : seen (col c "[m") = [].
Proof. destruct c; [|reflexivity]. rewrite <- (app_nil_r (col true "[m")). apply (seen_colour (27 :: 91 :: [] ++ [109])%N). apply sgr_colour. reflexivity. Qed.
Lemma shown_plain short w s t : shown_as short w s t -> 27%N ∉ s -> 27%N ∉ t.
Proof.
  destruct short; [|intros ->; auto]. intros [[_ ->]|(_ & p & -> & [q ->] & _)] H; [exact H|]. rewrite elem_of_app in *. intros [K|K]; [tauto|].
  apply elem_of_list_singleton in K. discriminate.
Qed.
Lemma colon_plain : 27%N ∉ lit ": ".
Proof. apply (bool_decide_unpack _). vm_compute. exact I. Qed.
Lemma arrow_plain : 27%N ∉ [32; 8594; 32]%N.
Proof. apply (bool_decide_unpack _). vm_compute. exact I. Qed.

Definition esc_free (other : pv -> pystr) (d : state) : Prop := forall k v, (k, v) ∈ d -> 27%N ∉ k /\ 27%N ∉ text_of other v.

Theorem C78_entries : forall other colours verbose initial final,
  NoDup (keys initial) -> NoDup (keys final) -> Forall (fun kv => proper kv.2) initial -> Forall (fun kv => proper kv.2) final ->
  (forall k, k ∈ keys final -> k ∈ keys initial) -> esc_free other initial -> esc_free other final ->
  exists entries those_, state_infos other colours verbose initial final = Ok entries /\
    those (reported (1 <=? verbose)%N initial) final those_ /\
    Forall2 (fun kv t => exists old, (kv.1, old) ∈ initial /\ entry_for (verbose =? 0)%N (text_of other) kv.1 old kv.2 (seen t)) those_ entries.
Proof.
  intros other colours verbose initial final Hi Hf Pi Pf Hk Ei Ef. clear Hf.
  induction final as [|[k f] final IH]; [exists [], []; split; [reflexivity|]; split; constructor|].
  apply Forall_cons in Pf as [Pf1 Pf]. destruct IH as (l & ks & E & Ht & F).
  { exact Pf. } { intros k' H. apply Hk. right. exact H. } { intros k' v H. apply Ef. right. exact H. }
  cbn [state_infos]. destruct (is_None f) eqn:Ef0.
  { exists l, ks. split; [exact E|]. split; [|exact F]. apply those_out; [|exact Ht]. intros [K _]. cbn [snd] in K. destruct f; discriminate Ef0 || congruence. }
  assert (Hk1 : exists i, (k, i) ∈ initial).
  { specialize (Hk k ltac:(left)). unfold keys in Hk. apply elem_of_list_fmap in Hk as ([k' i] & -> & H). eauto. }
  destruct Hk1 as [i Hki]. assert (Ed : dget k initial = Some i).
  { apply Dict_proofs.dget_in; assumption. }
  rewrite Ed. cbn [from_option mbind result_bind]. rewrite E. cbn [mbind result_bind].
  rewrite Forall_forall in Pi. pose proof (Pi _ Hki) as Pi1. cbn [snd] in Pi1, Pf1.
  pose proof (py_eq_same i f Pi1 Pf1) as Hs.
  destruct (Ei _ _ Hki) as [Ek Ev]. destruct (Ef k f ltac:(left)) as [_ Ew].
  pose proof (shorten_spec verbose 12 k ltac:(lia)) as Sk.
  pose proof (shorten_spec verbose 9 (text_of other i) ltac:(lia)) as Si.
  assert (Sf : shown_as (verbose =? 0)%N (match i with VNone => 21 | _ => 9 end) (text_of other f) (shorten verbose (if is_None i then 21 else 9)%Z (to_str other f))).
  { rewrite <- text_of_spec. destruct i; cbn [is_None]; (apply (shorten_spec verbose 21) || apply (shorten_spec verbose 9)); lia. }
  rewrite (text_of_spec other i) in Si. change (Z.of_nat 12) with 12%Z in Sk. change (Z.of_nat 9) with 9%Z in Si.
  pose proof (shown_plain _ _ _ _ Sk Ek) as Nk. assert (Ni : 27%N ∉ shorten verbose 9 (to_str other i)) by (apply (shown_plain _ _ _ _ Si); rewrite <- text_of_spec; exact Ev).
  pose proof (shown_plain _ _ _ _ Sf Ew) as Nf.
  set (k' := shorten verbose 12 k) in *. set (si := shorten verbose 9 (to_str other i)) in *. set (sf := shorten verbose (if is_None i then 21 else 9)%Z (to_str other f)) in *.
  clearbody k' si sf.
  destruct (py_eq i f) eqn:Eq.
  - assert (Sm : same i f) by (apply Hs; reflexivity).
    destruct (1 <=? verbose)%N eqn:Ev1; cbn [app].
    + eexists _, ((k, f) :: ks). split; [reflexivity|]. split.
      * apply those_in; [|exact Ht]. split; [|left; reflexivity]. cbn [snd]. intros ->. discriminate.
      * constructor; [|exact F]. exists i. split; [exact Hki|]. cbn [fst snd]. exists k', si, sf.
        split; [exact Sk|]. split; [rewrite text_of_spec; exact Si|]. split; [exact Sf|]. left. split; [exact Sm|].
        rewrite col_90, (seen_plain k'), (seen_plain (lit ": ")), (seen_plain si), col_m, app_nil_r; auto using colon_plain.
    + exists l, ks. split; [reflexivity|]. split; [|exact F]. apply those_out; [|exact Ht]. intros [_ [K|K]]; [discriminate|]. exact (K i Hki Sm).
  - assert (Sm : ~ same i f) by (intros K; apply Hs in K; discriminate).
    assert (R : reported (1 <=? verbose)%N initial (k, f)).
    { split; [cbn [snd]; intros ->; discriminate|]. right. intros old Hold. cbn [fst snd] in *. apply (Dict_proofs.dget_in k old initial Hi) in Hold. rewrite Ed in Hold. injection Hold as <-. exact Sm. }
    destruct (is_None i) eqn:Eni.
    + assert (i = VNone) as -> by (destruct i; discriminate Eni || reflexivity).
      eexists _, ((k, f) :: ks). split; [reflexivity|]. split; [apply those_in; [exact R|exact Ht]|].
      constructor; [|exact F]. exists VNone. split; [exact Hki|]. cbn [fst snd]. exists k', si, sf.
      split; [exact Sk|]. split; [rewrite text_of_spec; exact Si|]. split; [exact Sf|]. right. left. split; [exact Sm|]. split; [reflexivity|].
      rewrite col_33, (seen_plain k'), (seen_plain (lit ": ")), col_32, (seen_plain sf), col_m, app_nil_r; auto using colon_plain.
    + eexists _, ((k, f) :: ks). split; [reflexivity|]. split; [apply those_in; [exact R|exact Ht]|].
      constructor; [|exact F]. exists i. split; [exact Hki|]. cbn [fst snd]. exists k', si, sf.
      split; [exact Sk|]. split; [rewrite text_of_spec; exact Si|]. split; [exact Sf|]. right. right. split; [exact Sm|]. split; [intros ->; discriminate|].
      rewrite col_33, (seen_plain k'), (seen_plain (lit ": ")), col_31, (seen_plain si), col_33, (seen_plain [32; 8594; 32]%N), col_32, (seen_plain sf), col_m, app_nil_r; auto using colon_plain, arrow_plain.
Qed.
Print Assumptions C78_entries.
(** With [verbose] at least 1 an entry is the full text ([shown_as false]); it tells strings from strings, and bytes from bytes. *)
Theorem C78_values_partial : forall other,
  (forall x y, x <> y -> text_of other (VStr x) <> text_of other (VStr y)) /\
  (forall x y, x <> y -> text_of other (VBytes x) <> text_of other (VBytes y)).
Proof.
  intros other. split; intros x y N H; [exact (N H)|]. rewrite !text_of_spec in H. exact (N (hex_inj x y H)).
Qed.
Print Assumptions C78_values_partial.
(** Full statement (false): [forall other colours verbose k x y t, 27%N ∉ k -> 27%N ∉ x -> 27%N ∉ y -> x <> y ->
    state_infos other colours verbose [(k, VStr x)] [(k, VStr y)] = Ok [t] -> ~ exists k' v, seen t = k' ++ lit ": " ++ v ++ [32; 8594; 32]%N ++ v].
    What differs behind the eighth character is not shown without -v. *)
Theorem C78_values_refuted : exists k x y v, 27%N ∉ k /\ 27%N ∉ x /\ 27%N ∉ y /\ x <> y /\
  forall other colours, exists t, state_infos other colours 0 [(k, VStr x)] [(k, VStr y)] = Ok [t] /\ seen t = k ++ lit ": " ++ v ++ [32; 8594; 32]%N ++ v.
Proof.
  exists (lit "target"), (lit "/usr/lib/a"), (lit "/usr/lib/b"), (lit "/usr/lib" ++ [8230]%N).
  split; [apply (bool_decide_unpack _); vm_compute; exact I|]. split; [apply (bool_decide_unpack _); vm_compute; exact I|].
  split; [apply (bool_decide_unpack _); vm_compute; exact I|]. split; [intros H; vm_compute in H; discriminate|].
  intros other colours. destruct colours; (eexists; split; [vm_compute; reflexivity|vm_compute; reflexivity]).
Qed.
Print Assumptions C78_values_refuted.
(** The mode 644 given as a number and as a text look the same in any case. *)
Theorem C78_kinds_refuted : exists x y, ~ same x y /\ forall other verbose, other (VInt 644) = lit "644" ->
  exists t, state_infos other false verbose [(lit "mode", x)] [(lit "mode", y)] = Ok [t] /\ t = lit "mode: 644" ++ [32; 8594; 32]%N ++ lit "644".
Proof.
  exists (VInt 644), (VStr (lit "644")). split; [intros H; inversion H|]. intros other verbose Ho. eexists. split; [reflexivity|].
  cbn [is_None to_str]. rewrite Ho. unfold shorten. destruct (verbose =? 0)%N; vm_compute; reflexivity.
Qed.
Print Assumptions C78_kinds_refuted.

Definition part_of (t line : pystr) : Prop := exists p q, line = p ++ t ++ q.
Lemma joined_part sep l t : t ∈ l -> part_of t (joined sep l).
Proof.
  induction l as [|x l IH]; intros H; [inversion H|]. apply elem_of_cons in H as [-> | H].
  - destruct l as [|y l]; [exists [], []; cbn [joined]; rewrite app_nil_r; reflexivity|]. exists [], (sep ++ joined sep (y :: l)). reflexivity.
  - destruct (IH H) as (p & q & E). destruct l as [|y l]; [inversion H|]. exists (x ++ sep ++ p), q. change (joined sep (x :: y :: l)) with (x ++ sep ++ joined sep (y :: l)).
    rewrite E, <- !app_assoc. reflexivity.
Qed.
Lemma part_app p t q : part_of t q -> part_of t (p ++ q).
Proof. intros (a & b & ->). exists (p ++ a), b. rewrite <- !app_assoc. reflexivity. Qed.
Lemma boxed_part use_color level l x : x ∈ l -> exists line, line ∈ boxed use_color level l /\ part_of x line.
Proof.
  induction l as [|y l IH]; intros H; [inversion H|]. destruct l as [|z l].
  - apply elem_of_list_singleton in H as ->. eexists. split; [left|]. unfold indented. do 4 apply part_app. exists [], []. rewrite app_nil_r. reflexivity.
  - apply elem_of_cons in H as [-> | H].
    + eexists. split; [left|]. unfold indented. do 4 apply part_app. exists [], []. rewrite app_nil_r. reflexivity.
    + destruct (IH H) as (line & L & P). exists line. split; [right; exact L|exact P].
Qed.
Lemma all_diffs_part unified diffs lines : all_diffs unified diffs = Ok lines ->
  Forall (fun d => exists ls, diff_shown unified d.1.1 d.1.2 d.2 true = Ok ls /\ ls ⊆ lines) diffs.
Proof.
  revert lines. induction diffs as [|[[f o] n] diffs IH]; intros lines H; [constructor|]. cbn [all_diffs] in H.
  destruct (diff_shown unified f o n true) as [d|e] eqn:E; [|discriminate]. cbn [mbind result_bind] in H. destruct (all_diffs unified diffs) as [t|e] eqn:Et; [|discriminate].
  cbn [mbind result_bind] in H. injection H as <-. constructor.
  - exists d. split; [exact E|]. intros x Hx. apply elem_of_app. left. exact Hx.
  - eapply Forall_impl; [apply IH; reflexivity|]. intros [[f' o'] n'] (ls & E1 & E2). exists ls. split; [exact E1|]. intros x Hx. apply elem_of_app. right. apply E2, Hx.
Qed.
(** What is printed: the description always; the message of a failure always; with --changes the entries; with --diff the diffs. *)
Theorem C78_printed : forall unified other use_color changes show_diff dry verbose level op_name description name r diffs lines,
  print_operation unified other use_color changes show_diff dry verbose level op_name description name r diffs = Ok lines ->
  (exists title rest, lines = title :: rest /\ part_of description title /\ part_of op_name title /\ (forall n, name = Some n -> part_of n title)) /\
  (or_success r = false -> forall m, or_message r = Some m -> exists line, line ∈ lines /\ part_of m line) /\
  (or_success r = true -> changes = true -> exists entries, state_infos other use_color verbose (or_initial r) (or_final r) = Ok entries /\
    Forall (fun t => exists line, line ∈ lines /\ part_of t line) entries /\
    (show_diff = true -> Forall (fun d => exists ls, diff_shown unified d.1.1 d.1.2 d.2 true = Ok ls /\ Forall (fun x => exists line, line ∈ lines /\ part_of x line) ls) diffs)).
Proof.
  intros unified other use_color changes show_diff dry verbose level op_name description name r diffs lines H. unfold print_operation in H. cbv zeta in H.
  set (tc := if or_success r then if or_changed r then col use_color "[1;32m" else col use_color "[1;90m" else col use_color "[1;31m") in H.
  assert (T : part_of description (13%N :: operation_title use_color dry level op_name description name tc) /\ part_of op_name (13%N :: operation_title use_color dry level op_name description name tc) /\
    forall n, name = Some n -> part_of n (13%N :: operation_title use_color dry level op_name description name tc)).
  { clear H. clearbody tc. unfold operation_title, indented. split; [|split].
    - apply (part_app [13%N]). do 6 apply part_app. eexists [], _. reflexivity.
    - apply (part_app [13%N]). do 2 apply part_app. eexists [], _. reflexivity.
    - intros n ->. apply (part_app [13%N]). do 10 apply part_app. eexists [], _. reflexivity. }
  set (title := 13%N :: operation_title use_color dry level op_name description name tc) in H, T. clearbody title tc.
  destruct (or_success r) eqn:Es; cbn [negb] in H.
  - destruct changes; cbn [negb] in H.
    + destruct (state_infos other use_color verbose (or_initial r) (or_final r)) as [es|e] eqn:Ee; [|discriminate]. cbn [mbind result_bind] in H.
      set (box := if length (if show_diff then diffs else []) =? 0 then 9492%N else 9500%N) in H. clearbody box.
      set (line := match es with [] => [] | _ => [indented use_color level (col use_color "[90m" ++ [box] ++ col use_color "[m" ++ lit " " ++ joined (col use_color "[90m" ++ lit "," ++ col use_color "[m" ++ lit " ") es)] end) in H.
      assert (L : forall t, t ∈ es -> exists x, x ∈ line /\ part_of t x).
      { intros t Ht. subst line. destruct es as [|e es]; [inversion Ht|]. eexists. split; [left|]. unfold indented. do 5 apply part_app. apply joined_part, Ht. }
      clearbody line. destruct show_diff.
      * destruct (all_diffs unified diffs) as [d|e] eqn:Ed; [|discriminate]. cbn [mbind result_bind] in H. injection H as <-.
        split; [exists title, (line ++ boxed use_color level d); split; [reflexivity|exact T]|]. split; [discriminate|]. intros _ _. exists es. split; [reflexivity|]. split.
        { apply Forall_forall. intros t Ht. destruct (L t Ht) as (x & X1 & X2). exists x. split; [right; apply elem_of_app; left; exact X1|exact X2]. }
        intros _. eapply Forall_impl; [apply (all_diffs_part unified diffs d Ed)|]. intros [[f o] n] (ls & E1 & E2). exists ls. split; [exact E1|].
        apply Forall_forall. intros x Hx. destruct (boxed_part use_color level d x (E2 x Hx)) as (y & Y1 & Y2). exists y. split; [right; apply elem_of_app; right; exact Y1|exact Y2].
      * injection H as <-. split; [exists title, line; split; [reflexivity|exact T]|]. split; [discriminate|]. intros _ _. exists es. split; [reflexivity|]. split; [|discriminate].
        apply Forall_forall. intros t Ht. destruct (L t Ht) as (x & X1 & X2). exists x. split; [right; exact X1|exact X2].
    + injection H as <-. split; [exists title, []; split; [reflexivity|exact T]|]. split; discriminate.
  - apply (f_equal (fun x => match x with Ok l => l | Err _ => [] end)) in H. cbv beta iota in H. subst lines. split; [eexists title, _; split; [reflexivity|exact T]|]. split; [|discriminate]. intros _ m Hm. eexists. split; [right; left|].
    rewrite Hm. change (default (lit "None") (Some m)) with m. unfold indented. do 7 apply part_app. eexists [], _. reflexivity.
Qed.
Print Assumptions C78_printed.

(** ** The diff *)
Lemma hexval_digit n : (n < 16)%N -> hexval (hexdigit n) = n.
Proof. intros H. unfold hexval, hexdigit. destruct (N.ltb_spec n 10); [destruct (N.ltb_spec (48 + n) 58)|destruct (N.ltb_spec (87 + n) 58)]; lia. Qed.
Lemma unescape_char c r : c <> 92%N -> unescaped (escape_char c ++ r) = c :: unescaped r.
Proof.
  intros Hc. unfold escape_char. destruct (N.eqb_spec c 0) as [->|]; [reflexivity|]. destruct (N.eqb_spec c 10) as [->|]; [reflexivity|].
  destruct (N.eqb_spec c 13) as [->|]; [reflexivity|]. destruct (N.eqb_spec c 9) as [->|]; [reflexivity|].
  destruct ((c <=? 255)%N && negb (isprintable_latin1 c)) eqn:E.
  - unfold hex_escape. cbn [app]. change (unescaped (92%N :: 120%N :: hexdigit (c / 16) :: hexdigit (c mod 16) :: r)) with ((hexval (hexdigit (c / 16)) * 16 + hexval (hexdigit (c mod 16)))%N :: unescaped r).
    assert (H1 : (c / 16 < 16)%N) by (apply N.div_lt_upper_bound; lia). assert (H2 : (c mod 16 < 16)%N) by (apply N.mod_lt; lia).
    rewrite (hexval_digit _ H1), (hexval_digit _ H2). f_equal. pose proof (N.div_mod c 16). lia.
  - cbn [app unescaped]. destruct (N.eqb_spec c 92); [contradiction|]. reflexivity.
Qed.
Lemma unescape s : 92%N ∉ s -> unescaped (List.concat (List.map escape_char s)) = s.
Proof.
  induction s as [|c s IH]; [reflexivity|]. intros H. apply not_elem_of_cons in H as [H1 H2]. cbn [List.map List.concat].
  rewrite unescape_char by congruence. f_equal. apply IH, H2.
Qed.
Lemma bsr_ascii b l : (b2n b < 128)%N -> utf8_decode_bsr (b :: l) = b2n b :: utf8_decode_bsr l.
Proof.
  intros H. pose proof (bsr_spec (b :: l)) as E. cbn [utf8_dec] in E. destruct (N.ltb_spec (b2n b) 128); [|lia]. rewrite bsr_spec in E. cbn [mbind option_bind] in E.
  congruence.
Qed.
Lemma bsr_encode s l : utf8_encode s = Some l -> utf8_decode_bsr l = s.
Proof.
  intros H. pose proof (dec_encode (fun b => Some (hex_escape (b2n b))) s l [] H) as E. rewrite app_nil_r in E. rewrite bsr_spec in E. cbn in E. 
  rewrite app_nil_r in E. congruence.
Qed.
Lemma plain_no_esc s : plain s -> 27%N ∉ s.
Proof. intros H K. unfold plain in H. rewrite Forall_forall in H. apply (H _ K). left. lia. Qed.
(** one line of the diff, coloured or not *)
Definition as_shown (x t : pystr) : Prop := seen t = x.
Lemma color_seen x : x <> [] -> plain x -> exists t, apply_color x = Ok t /\ seen t = x.
Proof.
  intros Hx Hp. apply plain_no_esc in Hp. destruct x as [|c x]; [contradiction|]. cbn [apply_color]. eexists. split; [reflexivity|].
  rewrite (seen_colour (if (c =? 43)%N then sgr "[32m" else if (c =? 45)%N then sgr "[31m" else if (c =? 64)%N then sgr "[34m" else sgr "[90m")).
  - rewrite seen_plain by exact Hp. change (seen reset) with ([] : pystr). apply app_nil_r.
  - destruct (c =? 43)%N; [exact (sgr_colour (lit "32") eq_refl)|]. destruct (c =? 45)%N; [exact (sgr_colour (lit "31") eq_refl)|]. destruct (c =? 64)%N; [exact (sgr_colour (lit "34") eq_refl)|exact (sgr_colour (lit "90") eq_refl)].
Qed.
Lemma colors_seen l : Forall (fun x => x <> [] /\ plain x) l -> exists t, color_all l = Ok t /\ Forall2 (fun x y => seen y = x) l t.
Proof.
  intros H. induction H as [|x l [H1 H2] _ (t & E & F)]; [exists []; split; [reflexivity|constructor]|]. destruct (color_seen x H1 H2) as (y & Ey & Sy).
  exists (y :: t). split; [|constructor; assumption]. cbn [color_all]. rewrite Ey. cbn [mbind result_bind]. rewrite E. reflexivity.
Qed.
Lemma decode_head b l : (b2n b < 128)%N -> isprintable_latin1 (b2n b) = true -> decode_escape (b :: l) = b2n b :: decode_escape l.
Proof.
  intros H P. unfold decode_escape. rewrite bsr_ascii by exact H. cbn [List.map List.concat]. unfold escape_char at 1. unfold isprintable_latin1 in *.
  destruct (N.eqb_spec (b2n b) 0); [lia|]. destruct (N.eqb_spec (b2n b) 10); [lia|]. destruct (N.eqb_spec (b2n b) 13); [lia|]. destruct (N.eqb_spec (b2n b) 9); [lia|].
  rewrite P, andb_false_r. reflexivity.
Qed.
Lemma mark_minus x : decode_escape (blit "-" ++ x) = 45%N :: decode_escape x.
Proof. exact (decode_head "-" x eq_refl eq_refl). Qed.
Lemma mark_plus x : decode_escape (blit "+" ++ x) = 43%N :: decode_escape x.
Proof. exact (decode_head "+" x eq_refl eq_refl). Qed.
Lemma mark_space x : decode_escape (blit " " ++ x) = 32%N :: decode_escape x.
Proof. exact (decode_head " " x eq_refl eq_refl). Qed.
Lemma mark_at x : decode_escape (blit "@@" ++ x) = 64%N :: decode_escape (blit "@" ++ x).
Proof. exact (decode_head "@" _ eq_refl eq_refl). Qed.
Lemma read_clear x : clear_text x -> utf8_encode (unescaped (decode_escape x)) = Some x.
Proof. intros (s & E & H). unfold decode_escape. rewrite (bsr_encode s x E), (unescape s H). exact E. Qed.

Definition line_text (c : N) (x : pystr) : option pystr := match x with c' :: r => if (c' =? c)%N then Some r else None | [] => None end.
Lemma behind_spec c l t : Forall2 (fun x y => seen y = x) l t -> behind c t = omap (line_text c) l.
Proof.
  intros H. unfold behind. induction H as [|x y l t E _ IH]; [reflexivity|]. cbn [omap list_omap]. rewrite E.
  change (match x with [] => None | c' :: r => if (c' =? c)%N then Some r else None end) with (line_text c x).
  destruct (line_text c x); [f_equal|]; exact IH.
Qed.
Lemma hunks_text s body : hunks s body ->
  let l := List.map decode_escape body in
  Forall (fun x => x <> [] /\ plain x) l /\ omap (line_text 45) l = List.map decode_escape (removed s) /\ omap (line_text 43) l = List.map decode_escape (added s).
Proof.
  intros H. induction H as [|x s l H IH|x s l H IH|x s l H IH|x s l H IH|t s l H IH].
  - split; [constructor|split; reflexivity].
  - exact IH.
  - destruct IH as (I1 & I2 & I3). cbn [List.map].
    split; [constructor; [split; [rewrite mark_space; discriminate|apply C64_decode_escape]|exact I1]|]. rewrite mark_space. split; [exact I2|exact I3].
  - destruct IH as (I1 & I2 & I3). cbn [List.map].
    split; [constructor; [split; [rewrite mark_minus; discriminate|apply C64_decode_escape]|exact I1]|]. rewrite mark_minus. split; [|exact I3].
    change (decode_escape x :: omap (line_text 45) (List.map decode_escape l) = decode_escape x :: List.map decode_escape (removed s)). f_equal. exact I2.
  - destruct IH as (I1 & I2 & I3). cbn [List.map].
    split; [constructor; [split; [rewrite mark_plus; discriminate|apply C64_decode_escape]|exact I1]|]. rewrite mark_plus. split; [exact I2|].
    change (decode_escape x :: omap (line_text 43) (List.map decode_escape l) = decode_escape x :: List.map decode_escape (added s)). f_equal. exact I3.
  - destruct IH as (I1 & I2 & I3). cbn [List.map].
    split; [constructor; [split; [rewrite mark_at; discriminate|apply C64_decode_escape]|exact I1]|]. rewrite mark_at. split; [exact I2|exact I3].
Qed.
Lemma split_lines l : lines_of l (split_nl l).
Proof.
  induction l as [|b l IH]; [apply lines_one; apply not_elem_of_nil|]. cbn [split_nl]. destruct (N.eqb_spec (b2n b) 10) as [E|E].
  - assert (b = n2b 10) as -> by (rewrite <- (n2b_b2n b), E; reflexivity). apply (lines_more [] l); [apply not_elem_of_nil|exact IH].
  - assert (Hb : n2b 10 <> b) by (intros <-; apply E; reflexivity).
    clear E. revert IH. generalize (split_nl l). intros sp IH. destruct IH as [l0 Hl0|l0 t ls Hl0 Ht].
    + apply lines_one. apply not_elem_of_cons. split; [exact Hb|exact Hl0].
    + change (b :: l0 ++ n2b 10 :: t) with ((b :: l0) ++ n2b 10 :: t). apply (lines_more (b :: l0) t ls); [|exact Ht]. apply not_elem_of_cons. split; [exact Hb|exact Hl0].
Qed.
Lemma lines_cut l t l' t' : n2b 10 ∉ l -> n2b 10 ∉ l' -> l ++ n2b 10 :: t = l' ++ n2b 10 :: t' -> l = l' /\ t = t'.
Proof.
  revert l'. induction l as [|x l IH]; intros [|y l'] H H' E; cbn [app] in E.
  - injection E as E. auto.
  - injection E as E1 E2. exfalso. apply H'. rewrite <- E1. left.
  - injection E as E1 E2. exfalso. apply H. rewrite E1. left.
  - injection E as -> E. apply not_elem_of_cons in H as [_ H]. apply not_elem_of_cons in H' as [_ H']. destruct (IH l' H H' E) as [-> ->]. auto.
Qed.
Lemma lines_unique l a : lines_of l a -> forall b, lines_of l b -> a = b.
Proof.
  intros H. induction H as [l Hl|l t ls Hl Ht IH]; intros b Hb.
  - inversion Hb as [l0 Hl0 E1 E2|l0 t ls Hl0 Ht E1 E2]; subst; [reflexivity|]. exfalso. apply Hl. apply elem_of_app. right. left.
  - remember (l ++ n2b 10 :: t) as w eqn:Ew. destruct Hb as [l0 Hl0|l0 t0 ls0 Hl0 Ht0].
    + exfalso. apply Hl0. rewrite Ew. apply elem_of_app. right. left.
    + apply lines_cut in Ew as [-> ->]; [|assumption..]. f_equal. apply IH, Ht0.
Qed.
Lemma file_split c a : file_lines c a -> a = match c with None => [] | Some b => split_nl b end.
Proof. destruct c as [b|]; intros H; [exact (lines_unique b a H _ (split_lines b))|exact H]. Qed.

Lemma title_head f old new : exists c r, diff_title f old new = c :: r /\ (c = 99 \/ c = 100 \/ c = 109)%N.
Proof. unfold diff_title. destruct old, new; (eexists _, _; split; [reflexivity|vm_compute; tauto]). Qed.
Lemma hunks_same a : exists s, before s = a /\ after s = a /\ removed s = [] /\ added s = [].
Proof.
  exists (List.map Keep a). induction a as [|x a (I1 & I2 & I3 & I4)]; [repeat split|]. cbn [List.map]. split; [change (x :: before (List.map Keep a) = x :: a); f_equal; exact I1|].
  split; [change (x :: after (List.map Keep a) = x :: a); f_equal; exact I2|]. split; [exact I3|exact I4].
Qed.
Lemma behind_header c f old new t (color : bool) : (c = 45 \/ c = 43)%N ->
  let title := diff_title f old new in let rule := repeat 9472%N (length title) in
  behind c ((if color then List.map (fun x => sgr "[33m" ++ x ++ reset) [rule; title; rule] else [rule; title; rule]) ++ t) = behind c t.
Proof.
  intros Hc title rule. destruct (title_head f old new) as (h & r & Et & Hh). fold title in Et.
  assert (Er : exists r', rule = 9472%N :: r') by (unfold rule; rewrite Et; eexists; reflexivity). destruct Er as [r' Er].
  assert (A : forall y, seen (sgr "[33m" ++ y) = seen y) by (intros y; exact (seen_colour (sgr "[33m") y (sgr_colour (lit "33") eq_refl))).
  assert (B : forall h x, (h <> 27)%N -> exists z, seen (h :: x) = h :: z).
  { intros k x Hk. unfold seen. cbn [seen_in]. destruct (N.eqb_spec k 27); [contradiction|]. eexists. reflexivity. }
  assert (C : forall x k z, x = k :: z -> (k <> 27)%N -> (k <> c)%N -> forall l, behind c ((if color then sgr "[33m" ++ x ++ reset else x) :: l) = behind c l).
  { intros x k z -> K1 K2 l. unfold behind. cbn [omap list_omap].
    assert (S : exists z', seen (if color then sgr "[33m" ++ (k :: z) ++ reset else k :: z) = k :: z').
    { destruct color; [rewrite A; change ((k :: z) ++ reset) with (k :: (z ++ reset))|]; apply B; exact K1. }
    destruct S as [z' ->]. destruct (N.eqb_spec k c); [contradiction|]. reflexivity. }
  assert (C1 : forall l, behind c ((if color then sgr "[33m" ++ rule ++ reset else rule) :: l) = behind c l) by (apply (C rule 9472%N r' Er); [discriminate|destruct Hc as [-> | ->]; discriminate]).
  assert (C2 : forall l, behind c ((if color then sgr "[33m" ++ title ++ reset else title) :: l) = behind c l).
  { apply (C title h r Et); destruct Hh as [-> | [-> | ->]]; try discriminate; destruct Hc as [-> | ->]; discriminate. }
  clear C A B. clearbody rule title. destruct color; cbn [List.map app]; rewrite C1, C2, C1; reflexivity.
Qed.

Lemma diff_texts unified f old new a b color :
  difflib_ok unified -> file_lines old a -> file_lines new b ->
  exists s shown, diff_shown unified f old new color = Ok shown /\ before s = a /\ after s = b /\
    behind 45 shown = List.map decode_escape (removed s) /\ behind 43 shown = List.map decode_escape (added s).
Proof.
  intros Hu Ha Hb. apply file_split in Ha. apply file_split in Hb. unfold diff_shown. rewrite <- Ha, <- Hb. clear Ha Hb.
  assert (D : exists s, before s = a /\ after s = b /\ let l := List.map decode_escape (skipn 2 (unified a b)) in
    Forall (fun x => x <> [] /\ plain x) l /\ omap (line_text 45) l = List.map decode_escape (removed s) /\ omap (line_text 43) l = List.map decode_escape (added s)).
  { destruct (Hu a b) as [H1 H2]. destruct (decide (a = b)) as [->|E].
    - rewrite (H1 eq_refl). destruct (hunks_same b) as (s & S1 & S2 & S3 & S4). exists s. split; [exact S1|]. split; [exact S2|].
      cbn [skipn List.map]. rewrite S3, S4. split; [constructor|]. split; reflexivity.
    - destruct (H2 E) as (s & h1 & h2 & body & -> & S1 & S2 & S3). exists s. split; [exact S1|]. split; [exact S2|]. cbn [skipn].
      apply (hunks_text s body S3). }
  destruct D as (s & S1 & S2 & D1 & D2 & D3). set (l := List.map decode_escape (skipn 2 (unified a b))) in *. clearbody l.
  destruct color.
  - destruct (colors_seen l D1) as (t & Et & Ft). rewrite Et. cbn [mbind result_bind]. eexists s, _. split; [reflexivity|]. split; [exact S1|]. split; [exact S2|].
    split; [rewrite (behind_header 45 f old new t true) by auto; rewrite (behind_spec 45 l t Ft); exact D2|].
    rewrite (behind_header 43 f old new t true) by auto. rewrite (behind_spec 43 l t Ft). exact D3.
  - assert (Ft : Forall2 (fun x y => seen y = x) l l).
    { clear D2 D3. induction D1 as [|x l [_ Hx] _ IH]; constructor; [|exact IH]. apply seen_self, plain_no_esc, Hx. }
    eexists s, _. split; [reflexivity|]. split; [exact S1|]. split; [exact S2|].
    split; [rewrite (behind_header 45 f old new l false) by auto; rewrite (behind_spec 45 l l Ft); exact D2|].
    rewrite (behind_header 43 f old new l false) by auto. rewrite (behind_spec 43 l l Ft). exact D3.
Qed.
Lemma read_all l : Forall clear_text l -> List.map (fun t => utf8_encode (unescaped t)) (List.map decode_escape l) = List.map Some l.
Proof. intros H. induction H as [|x l Hx _ IH]; [reflexivity|]. cbn [List.map]. rewrite (read_clear x Hx). f_equal. exact IH. Qed.
Lemma clear_removed s : Forall clear_text (before s) -> Forall clear_text (removed s).
Proof.
  induction s as [|[x|x|x] s IH]; intros H; [constructor| | |exact (IH H)]; apply Forall_cons in H as [H1 H2]; [exact (IH H2)|].
  change (Forall clear_text (x :: removed s)). constructor; [exact H1|exact (IH H2)].
Qed.
Lemma clear_added s : Forall clear_text (after s) -> Forall clear_text (added s).
Proof.
  induction s as [|[x|x|x] s IH]; intros H; [constructor| |exact (IH H)|]; apply Forall_cons in H as [H1 H2]; [exact (IH H2)|].
  change (Forall clear_text (x :: added s)). constructor; [exact H1|exact (IH H2)].
Qed.

(** C79, in part: from the diff of contents without backslashes in UTF-8 one reads exactly the lines removed and added. *)
Theorem C79_diff_partial : forall unified f old new a b color,
  difflib_ok unified -> file_lines old a -> file_lines new b -> Forall clear_text a -> Forall clear_text b ->
  exists s shown, diff_shown unified f old new color = Ok shown /\ before s = a /\ after s = b /\
    marked 45 shown = List.map Some (removed s) /\ marked 43 shown = List.map Some (added s).
Proof.
  intros unified f old new a b color Hu Ha Hb Ca Cb. destruct (diff_texts unified f old new a b color Hu Ha Hb) as (s & shown & E & S1 & S2 & S3 & S4).
  exists s, shown. split; [exact E|]. split; [exact S1|]. split; [exact S2|]. unfold marked. rewrite S3, S4. split; apply read_all.
  - apply clear_removed. rewrite S1. exact Ca.
  - apply clear_added. rewrite S2. exact Cb.
Qed.
Print Assumptions C79_diff_partial.

Lemma one_line s x y : before s = [x] -> after s = [y] -> x <> y -> removed s = [x] /\ added s = [y].
Proof.
  assert (E0 : forall s, before s = [] -> removed s = [] /\ after s = added s).
  { induction s0 as [|[z|z|z] s0 IH]; intros H; [split; reflexivity|discriminate H|discriminate H|]. destruct (IH H) as [I1 I2]. split; [exact I1|].
    change (z :: after s0 = z :: added s0). f_equal. exact I2. }
  assert (E1 : forall s, after s = [] -> added s = [] /\ before s = removed s).
  { induction s0 as [|[z|z|z] s0 IH]; intros H; [split; reflexivity|discriminate H| |discriminate H]. destruct (IH H) as [I1 I2]. split; [exact I1|].
    change (z :: before s0 = z :: removed s0). f_equal. exact I2. }
  intros H1 H2 N. destruct s as [|[z|z|z] s]; [discriminate H1|injection H1 as -> H1; injection H2 as -> H2; contradiction| |].
  - injection H1 as -> H1. destruct (E0 s H1) as [R A]. split; [change (x :: removed s = [x]); f_equal; exact R|]. change (added s = [y]). rewrite <- A. exact H2.
  - injection H2 as -> H2. destruct (E1 s H2) as [A R]. split; [|change (y :: added s = [y]); f_equal; exact A]. change (removed s = [x]). rewrite <- R. exact H1.
Qed.
(** Full statement (false): [forall unified f x y color, difflib_ok unified -> n2b 10 ∉ x -> n2b 10 ∉ y -> x <> y ->
    exists shown t t', diff_shown unified f (Some x) (Some y) color = Ok shown /\ behind 45 shown = [t] /\ behind 43 shown = [t'] /\ t <> t'].
    A tab and a backslash with a "t" look the same; so do bytes that are no UTF-8 and the control character of this number. *)
Theorem C79_line_partial : forall unified f x y color, difflib_ok unified -> n2b 10 ∉ x -> n2b 10 ∉ y -> clear_text x -> clear_text y -> x <> y ->
  exists shown t t', diff_shown unified f (Some x) (Some y) color = Ok shown /\ behind 45 shown = [t] /\ behind 43 shown = [t'] /\ t <> t' /\
    utf8_encode (unescaped t) = Some x /\ utf8_encode (unescaped t') = Some y.
Proof.
  intros unified f x y color Hu Hx Hy Cx Cy N.
  destruct (diff_texts unified f (Some x) (Some y) [x] [y] color Hu (lines_one x Hx) (lines_one y Hy)) as (s & shown & E & S1 & S2 & S3 & S4).
  destruct (one_line s x y S1 S2 N) as [R A]. rewrite R in S3. rewrite A in S4. exists shown, (decode_escape x), (decode_escape y).
  split; [exact E|]. split; [exact S3|]. split; [exact S4|]. pose proof (read_clear x Cx) as Rx. pose proof (read_clear y Cy) as Ry.
  split; [intros K; rewrite K in Rx; congruence|]. split; assumption.
Qed.
Print Assumptions C79_line_partial.
Theorem C79_line_refuted : exists x y, n2b 10 ∉ x /\ n2b 10 ∉ y /\ x <> y /\ (exists s, utf8_encode s = Some x) /\ (exists s, utf8_encode s = Some y) /\
  forall unified f color, difflib_ok unified ->
    exists shown t, diff_shown unified f (Some x) (Some y) color = Ok shown /\ behind 45 shown = [t] /\ behind 43 shown = [t].
Proof.
  exists [n2b 9], (blit "\t"). assert (Hx : n2b 10 ∉ [n2b 9]) by (apply (bool_decide_unpack _); vm_compute; exact I).
  assert (Hy : n2b 10 ∉ blit "\t") by (apply (bool_decide_unpack _); vm_compute; exact I). assert (N : [n2b 9] <> blit "\t") by (intros K; vm_compute in K; discriminate).
  split; [exact Hx|]. split; [exact Hy|]. split; [exact N|]. split; [exists [9%N]; reflexivity|]. split; [exists (lit "\t"); reflexivity|].
  intros unified f color Hu. destruct (diff_texts unified f (Some [n2b 9]) (Some (blit "\t")) [[n2b 9]] [blit "\t"] color Hu (lines_one _ Hx) (lines_one _ Hy)) as (s & shown & E & S1 & S2 & S3 & S4).
  destruct (one_line s _ _ S1 S2 N) as [R A]. rewrite R in S3. rewrite A in S4. exists shown, (lit "\t"). split; [exact E|]. split; [rewrite S3; vm_compute; reflexivity|].
  rewrite S4. vm_compute. reflexivity.
Qed.
Print Assumptions C79_line_refuted.
(** The same for a byte that is no UTF-8 and a control character. *)
Theorem C79_binary_refuted : exists x y, n2b 10 ∉ x /\ n2b 10 ∉ y /\ x <> y /\ n2b 92 ∉ x /\ n2b 92 ∉ y /\
  forall unified f color, difflib_ok unified ->
    exists shown t, diff_shown unified f (Some x) (Some y) color = Ok shown /\ behind 45 shown = [t] /\ behind 43 shown = [t].
Proof.
  exists [n2b 128], [n2b 194; n2b 128]. assert (Hx : n2b 10 ∉ [n2b 128]) by (apply (bool_decide_unpack _); vm_compute; exact I).
  assert (Hy : n2b 10 ∉ [n2b 194; n2b 128]) by (apply (bool_decide_unpack _); vm_compute; exact I). assert (N : [n2b 128] <> [n2b 194; n2b 128]) by (intros K; discriminate).
  split; [exact Hx|]. split; [exact Hy|]. split; [exact N|]. split; [apply (bool_decide_unpack _); vm_compute; exact I|]. split; [apply (bool_decide_unpack _); vm_compute; exact I|].
  intros unified f color Hu. destruct (diff_texts unified f (Some [n2b 128]) (Some [n2b 194; n2b 128]) [[n2b 128]] [[n2b 194; n2b 128]] color Hu (lines_one _ Hx) (lines_one _ Hy)) as (s & shown & E & S1 & S2 & S3 & S4).
  destruct (one_line s _ _ S1 S2 N) as [R A]. rewrite R in S3. rewrite A in S4. exists shown, (lit "\x80"). split; [exact E|]. split; [rewrite S3; vm_compute; reflexivity|].
  rewrite S4. vm_compute. reflexivity.
Qed.
Print Assumptions C79_binary_refuted.
(** A diff that keeps the contract, and a case. *)
Definition simple_diff (a b : list bytes) : list bytes :=
  if decide (a = b) then [] else [blit "--- "; blit "+++ "] ++ List.map (fun l => blit "-" ++ l) a ++ List.map (fun l => blit "+" ++ l) b.
Lemma simple_diff_ok : difflib_ok simple_diff.
Proof.
  intros a b. unfold simple_diff. destruct (decide (a = b)) as [E|E]; [split; [reflexivity|contradiction]|]. split; [contradiction|]. intros _.
  exists (List.map Del a ++ List.map Add b), (blit "--- "), (blit "+++ "), (List.map (fun l => blit "-" ++ l) a ++ List.map (fun l => blit "+" ++ l) b).
  split; [reflexivity|]. clear E. induction a as [|x a (I1 & I2 & I3)].
  - cbn [List.map app]. induction b as [|y b (J1 & J2 & J3)]; [repeat split; constructor|]. cbn [List.map].
    split; [exact J1|]. split; [change (y :: after (List.map Add b) = y :: b); f_equal; exact J2|constructor; exact J3].
  - cbn [List.map app]. split; [change (x :: before (List.map Del a ++ List.map Add b) = x :: a); f_equal; exact I1|]. split; [exact I2|constructor; exact I3].
Qed.
Example C79_example : difflib_ok simple_diff /\ n2b 10 ∉ blit "listen 80" /\ clear_text (blit "listen 80") /\ clear_text (blit "listen	443") /\
  option_map (fun l => (behind 45 l, behind 43 l)) (match diff_shown simple_diff (lit "f") (Some (blit "listen 80")) (Some (blit "listen	443")) true with Ok l => Some l | Err _ => None end) =
    Some ([lit "listen 80"], [lit "listen\t443"]).
Proof.
  split; [exact simple_diff_ok|]. split; [apply (bool_decide_unpack _); vm_compute; exact I|].
  split; [exists (lit "listen 80"); split; [reflexivity|apply (bool_decide_unpack _); vm_compute; exact I]|].
  split; [exists (lit "listen	443"); split; [reflexivity|apply (bool_decide_unpack _); vm_compute; exact I]|]. vm_compute. reflexivity.
Qed.

(** ** Whether it is printed at all *)
Lemma infos_ok other colours verbose initial final : (forall k v, (k, v) ∈ final -> v <> VNone -> k ∈ keys initial) ->
  exists l, state_infos other colours verbose initial final = Ok l.
Proof.
  induction final as [|[k f] final IH]; intros H; [exists []; reflexivity|]. destruct IH as [l E]; [intros k' v Hv; apply (H k' v); right; exact Hv|].
  cbn [state_infos]. destruct (is_None f) eqn:Ef; [exists l; exact E|]. assert (K : is_Some (dget k initial)).
  { apply dget_is_Some. apply (H k f); [left|intros ->; discriminate]. }
  destruct K as [i Ei]. rewrite Ei. cbn [from_option mbind result_bind]. rewrite E. cbn [mbind result_bind]. eexists. reflexivity.
Qed.
Lemma diffs_ok unified diffs : difflib_ok unified -> exists l, all_diffs unified diffs = Ok l.
Proof.
  intros Hu. induction diffs as [|[[f o] n] diffs [l E]]; [exists []; reflexivity|].
  assert (L : forall c, file_lines c (match c with None => [] | Some b => split_nl b end)) by (intros [b|]; [apply split_lines|reflexivity]).
  destruct (diff_texts unified f o n _ _ true Hu (L o) (L n)) as (s & shown & Ed & _). cbn [all_diffs]. rewrite Ed. cbn [mbind result_bind]. rewrite E. eexists. reflexivity.
Qed.
Theorem C78_prints_partial : forall unified other use_color changes show_diff dry verbose level op_name description name r diffs,
  difflib_ok unified -> (forall k v, (k, v) ∈ or_final r -> v <> VNone -> k ∈ keys (or_initial r)) ->
  exists lines, print_operation unified other use_color changes show_diff dry verbose level op_name description name r diffs = Ok lines.
Proof.
  intros unified other use_color changes show_diff dry verbose level op_name description name r diffs Hu Hk. unfold print_operation. cbv zeta.
  destruct (or_success r); cbn [negb]; [|eexists; reflexivity]. destruct changes; cbn [negb]; [|eexists; reflexivity].
  destruct (infos_ok other use_color verbose (or_initial r) (or_final r) Hk) as [es ->]. cbn [mbind result_bind].
  destruct show_diff; [|eexists; reflexivity]. destruct (diffs_ok unified diffs Hu) as [d ->]. eexists. reflexivity.
Qed.
Print Assumptions C78_prints_partial.
(** Full statement (false): the same without the second hypothesis.  The states are given by two calls, [initial_state] and
    [final_state] (api.py:104-118); nothing compares their keys, and the report is printed by [success], after the work is done. *)
Definition some_initial : state := [(lit "exists", VBool false)].
Definition some_final : state := [(lit "exists", VBool true); (lit "mode", VStr (lit "644"))].
Theorem C78_prints_refuted : exists r, or_success r = true /\
  (forall s, exists o, (initial_state some_initial ≫= fun _ => final_state some_final ≫= fun _ => success) new_op s = (Ok (r, o), s)) /\
  forall unified other colours diff dry verbose level op_name description name diffs,
    print_operation unified other colours true diff dry verbose level op_name description name r diffs = Err KeyError.
Proof.
  exists (OpRes true true some_initial some_final None). split; [reflexivity|]. split; [intros s; eexists; reflexivity|].
  intros. reflexivity.
Qed.
Print Assumptions C78_prints_refuted.
Example C78_example :
  let initial := [(lit "exists", VBool false); (lit "mode", VNone); (lit "owner", VNone)] in
  let final := [(lit "exists", VBool true); (lit "mode", VStr (lit "755")); (lit "owner", VNone)] in
  let other := fun v => match v with VBool true => lit "True" | VBool false => lit "False" | _ => lit "None" end in
  match print_operation simple_diff other true true true false 0 0 (lit "directory") (lit "/srv") None (OpRes true true initial final None) [] with
  | Ok l => List.map seen l = [[13]%N ++ lit "directory /srv"; [9492]%N ++ lit " exists: False" ++ [32; 8594; 32]%N ++ lit "True, mode: 755"]
  | Err _ => False
  end.
Proof. vm_compute. reflexivity. Qed.
Example C78_case :
  let initial := [(lit "exists", VBool false); (lit "mode", VNone); (lit "owner", VNone)] in
  let final := [(lit "exists", VBool true); (lit "mode", VStr (lit "755")); (lit "owner", VNone)] in
  let other := fun v => match v with VBool true => lit "True" | VBool false => lit "False" | _ => lit "None" end in
  NoDup (keys initial) /\ NoDup (keys final) /\ Forall (fun kv => proper kv.2) initial /\ Forall (fun kv => proper kv.2) final /\
  (forall k, k ∈ keys final -> k ∈ keys initial) /\ esc_free other initial /\ esc_free other final.
Proof.
  cbv zeta. split; [apply (bool_decide_unpack _); vm_compute; exact I|]. split; [apply (bool_decide_unpack _); vm_compute; exact I|].
  split; [repeat (apply Forall_cons; split; [constructor|]); apply Forall_nil; exact I|]. split; [repeat (apply Forall_cons; split; [constructor|]); apply Forall_nil; exact I|].
  split; [intros k H; exact H|].
  assert (G : forall d : state, forallb (fun kv => bool_decide (27%N ∉ kv.1) && bool_decide (27%N ∉ text_of (fun v => match v with VBool true => lit "True" | VBool false => lit "False" | _ => lit "None" end) kv.2)) d = true ->
    esc_free (fun v => match v with VBool true => lit "True" | VBool false => lit "False" | _ => lit "None" end) d).
  { intros d H k v Hv. rewrite forallb_forall in H. apply elem_of_list_In, H in Hv. apply andb_true_iff in Hv as [H1 H2]. apply bool_decide_eq_true in H1, H2. split; assumption. }
  split; apply G; vm_compute; reflexivity.
Qed.

(** The title of a diff names the file and what became of it. *)
Theorem C79_title : forall unified f old new color shown, diff_shown unified f old new color = Ok shown -> 27%N ∉ f ->
  exists a t b rest, shown = a :: t :: b :: rest /\
    seen t = lit (match old, new with None, _ => "created: " | Some _, None => "deleted: " | Some _, Some _ => "modified: " end) ++ f.
Proof.
  intros unified f old new color shown H Hf.
  assert (Et : diff_title f old new = lit (match old, new with None, _ => "created: " | Some _, None => "deleted: " | Some _, Some _ => "modified: " end) ++ f) by (destruct old, new; reflexivity).
  assert (Nt : 27%N ∉ diff_title f old new).
  { rewrite Et. intros K. apply elem_of_app in K as [K|K]; [|contradiction]. revert K. destruct old, new; apply (bool_decide_unpack _); vm_compute; exact I. }
  unfold diff_shown in H. cbv zeta in H. rewrite <- Et. clear Et. revert H Nt. generalize (diff_title f old new). intros title H Nt. destruct color.
  - destruct (color_all _) as [l|]; [|discriminate]. cbn [mbind result_bind] in H. injection H as <-. eexists _, _, _, _. split; [reflexivity|].
    change (seen (sgr "[33m" ++ title ++ reset) = title). rewrite (seen_colour (sgr "[33m") _ (sgr_colour (lit "33") eq_refl)), (seen_plain title) by exact Nt. change (seen reset) with ([] : pystr). apply app_nil_r.
  - injection H as <-. eexists _, _, _, _. split; [reflexivity|]. apply seen_self, Nt.
Qed.
Print Assumptions C79_title.
