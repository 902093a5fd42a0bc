(** C77: tables. *)
From Coq Require Import Lia ZifyBool ZifyNat ZifyN.
From Verif Require Import Base Dict_proofs Inspect Spec_Table.
Local Open Scope nat_scope.

(** [logger.col] *)
Definition colours (on : bool) (s : pystr) : pystr := if on then s else [].

Lemma seen_plain s r : 27%N ∉ s -> seen (s ++ r) = s ++ seen r.
Proof.
  intros H. induction s as [|c s IH]; [reflexivity|]. apply not_elem_of_cons in H as [Hc H]. cbn [app]. unfold seen in *. cbn [seen_in].
  replace (c =? 27)%N with false by lia. f_equal. apply IH, H.
Qed.
Lemma seen_colour s r : colour s -> seen (s ++ r) = seen r.
Proof.
  intros (p & -> & H). unfold seen. rewrite <- app_assoc. cbn [app seen_in]. cbn [N.eqb Pos.eqb].
  induction H as [|c p Hc H IH]; [reflexivity|]. cbn [app seen_in]. replace ((64 <=? c) && (c <=? 126))%N with false by lia. exact IH.
Qed.
Lemma seen_cell cell r : cell_ok cell -> seen (List.concat cell ++ r) = cell_text cell ++ seen r.
Proof.
  unfold cell_text. intros H. revert r. induction H as [|s cell [Hs|Hs] H IH]; intros r; [reflexivity|..]; cbn [List.concat].
  - rewrite <- app_assoc, !(seen_colour s) by exact Hs. apply IH.
  - rewrite <- app_assoc, !(seen_plain s) by exact Hs. rewrite <- app_assoc. f_equal. apply IH.
Qed.
Lemma seen_self s : 27%N ∉ s -> seen s = s.
Proof. intros H. rewrite <- (app_nil_r s) at 1. rewrite seen_plain by exact H. apply app_nil_r. Qed.
Lemma ansilen_text cell : cell_ok cell -> ansilen cell = length (cell_text cell).
Proof.
  unfold cell_text. induction 1 as [|s cell Hs H IH]; [reflexivity|]. cbn [List.concat ansilen foldr]. unfold ansilen in IH. rewrite IH. unfold len_ignore_leading_ansi.
  destruct Hs as [Hs|Hs].
  - rewrite seen_colour by exact Hs. destruct Hs as (p & -> & _). change [27; 91]%N with esc. rewrite startswith_app. reflexivity.
  - rewrite seen_plain, app_length by exact Hs. destruct (startswith s esc) eqn:E; [|reflexivity].
    apply startswith_true in E as [q ->]. exfalso. apply Hs. left.
Qed.
Lemma no_esc_spaces n : 27%N ∉ replicate n 32%N.
Proof. intros H. apply elem_of_replicate in H as [H _]. discriminate. Qed.
Lemma seen_pad cell w r : cell_ok cell -> seen (ansipad cell w ++ r) = filled w (cell_text cell) ++ seen r.
Proof.
  intros H. unfold ansipad, filled. rewrite <- app_assoc, seen_cell, seen_plain, ansilen_text by first [exact H|apply no_esc_spaces].
  rewrite app_assoc. reflexivity.
Qed.
Lemma colour_box : colour (esc ++ lit "90m").
Proof. exists (lit "90"). split; [vm_compute; reflexivity|]. repeat constructor; vm_compute; discriminate. Qed.
Lemma colour_reset : colour (esc ++ lit "m").
Proof. exists []. split; [vm_compute; reflexivity|constructor]. Qed.
Lemma seen_col on s r : colour s -> seen (colours on s ++ r) = seen r.
Proof. intros H. destruct on; [apply seen_colour, H|reflexivity]. Qed.

Lemma seen_row on row ws : Forall cell_ok row -> length row = length ws -> row <> [] ->
  row_of ws row (seen (join (colours on (esc ++ lit "90m") ++ [32; 9474; 32]%N ++ colours on (esc ++ lit "m")) (zip_with ansipad row ws))).
Proof.
  intros H. revert ws. induction H as [|c row Hc H IH]; intros [|w ws] L N; [congruence|discriminate|discriminate|].
  injection L as L. destruct row as [|c' row].
  - destruct ws; [|discriminate]. cbn [zip_with join]. rewrite <- (app_nil_r (ansipad c w)), seen_pad by exact Hc. cbn. rewrite app_nil_r. constructor.
  - destruct ws as [|w' ws]; [discriminate|]. cbn [zip_with]. 
    change (join ?d (?a :: ?b :: ?l)) with (a ++ d ++ join d (b :: l)).
    rewrite seen_pad, <- !app_assoc, seen_col by first [exact Hc|exact colour_box]. rewrite seen_plain.
    2:{ intros K. apply elem_of_list_In in K. cbn in K. lia. }
    rewrite seen_col by exact colour_reset. constructor. rewrite app_assoc.  rewrite <- app_assoc. apply (IH (w' :: ws)); [exact L|discriminate].
Qed.
Lemma seen_rule ws : ws <> [] -> exists l, rule_of ws l /\ join [9472; 9532; 9472]%N (List.map (fun w => replicate w 9472%N) ws) = l /\ 27%N ∉ l.
Proof.
  assert (R : forall w, 27%N ∉ replicate w 9472%N) by (intros w H; apply elem_of_replicate in H as [H _]; discriminate).
  induction ws as [|w ws IH]; [congruence|]. intros _. destruct ws as [|w' ws].
  - eexists. split; [constructor|]. split; [reflexivity|apply R].
  - destruct IH as (l & Hl & E & N); [discriminate|]. eexists. split; [constructor; exact Hl|]. split.
    + cbn [List.map]. change (join ?d (?a :: ?b :: ?l)) with (a ++ d ++ join d (b :: l)). rewrite <- E. reflexivity.
    + rewrite !elem_of_app. intros [H|[H|H]]; [exact (R _ H)| |exact (N H)]. apply elem_of_list_In in H. cbn in H. lia.
Qed.

(** widths *)
Definition table_widths (columns : Z) header rows min_width : list nat :=
  List.map Z.to_nat (col_widths (Z.max columns 80) min_width (max_value_width header rows)).
Lemma length_widen ws row : length ws = length row -> length (widen ws row) = length ws.
Proof. intros L. unfold widen. rewrite zip_with_length. lia. Qed.
Lemma length_max header rows : Forall (fun r => length r = length header) rows -> length (max_value_width header rows) = length header.
Proof.
  intros H. unfold max_value_width. assert (L : length (widen (replicate (length header) 0%Z) header) = length header).
  { rewrite length_widen; rewrite replicate_length; reflexivity. }
  revert L. generalize (widen (replicate (length header) 0%Z) header). induction H as [|r rows Hr H IH]; intros ws L; [exact L|].
  cbn [foldl]. apply IH. rewrite length_widen; lia.
Qed.
Lemma length_first t ms ws : length ms = length ws -> length (first_widths t ms ws) = length ws.
Proof. intros L. unfold first_widths. rewrite zip_with_length, zip_with_length, seq_length. lia. Qed.
Lemma length_rest rest : forall ws cw, length (give_rest rest ws cw).1 = length cw.
Proof.
  induction ws as [|w ws IH]; intros [|c cw]; try reflexivity. cbn [give_rest]. specialize (IH cw). destruct (give_rest rest ws cw) as [l done]. cbn [fst] in IH.
  destruct done; [|destruct (c <? w)%Z]; cbn [fst length]; lia.
Qed.
Lemma length_cols t ms ws : length ms = length ws -> length (col_widths t ms ws) = length ws.
Proof.
  intros L. unfold col_widths. destruct (0 <? _)%Z; [rewrite length_rest|]; apply length_first, L.
Qed.

Lemma cells_with on columns header rows min_width :
  header <> [] -> Forall (fun r => length r = length header) rows -> length min_width = length header ->
  Forall cell_ok header -> Forall (Forall cell_ok) rows ->
  exists head rule lines,
    List.map seen (print_table (colours on) columns header rows min_width) = head :: rule :: lines /\
    row_of (table_widths columns header rows min_width) header head /\ rule_of (table_widths columns header rows min_width) rule /\
    Forall2 (row_of (table_widths columns header rows min_width)) rows lines.
Proof.
  rename min_width into mw. intros Hne Hr Hm Hh Hc.
  assert (L : length (table_widths columns header rows mw) = length header).
  { unfold table_widths. rewrite map_length, length_cols; rewrite length_max by exact Hr; auto. }
  unfold print_table. fold (table_widths columns header rows mw).
  set (ws := table_widths columns header rows mw) in *. cbn [app List.map].
  eexists _, _, _. split; [reflexivity|]. split; [apply seen_row; auto|]. split.
  - destruct (seen_rule ws) as (l & Hl & E & N); [intros ->; destruct header; [congruence|discriminate]|].
    rewrite E, seen_col by exact colour_box. rewrite seen_plain by exact N. 
    replace (seen (colours on (esc ++ lit "m"))) with ([] : pystr); [rewrite app_nil_r; exact Hl|]. symmetry. destruct on; [|reflexivity].
    rewrite <- (app_nil_r (colours true _)). apply seen_colour, colour_reset.
  - rewrite List.map_map. clearbody ws. clear - Hr Hc L Hne. induction Hr as [|r rows Hr H IH]; [constructor|]. cbn [List.map]. apply Forall_cons in Hc as [Hc1 Hc2].
    constructor; [|apply IH, Hc2]. apply seen_row; [exact Hc1|lia|]. intros ->. destruct header; [congruence|discriminate].
Qed.

(** Whatever the terminal, with and without colours: one sees the header, a rule and the rows, all with the same widths; each cell
    is shown in full. *)
Theorem C77_cells : forall on columns header rows min_width,
  header <> [] -> Forall (fun r => length r = length header) rows -> length min_width = length header ->
  Forall cell_ok header -> Forall (Forall cell_ok) rows ->
  exists ws head rule lines,
    List.map seen (print_table (colours on) columns header rows min_width) = head :: rule :: lines /\
    row_of ws header head /\ rule_of ws rule /\ Forall2 (row_of ws) rows lines.
Proof.
  intros on columns header rows mw Hne Hr Hm Hh Hc.
  exists (table_widths columns header rows mw). exact (cells_with on columns header rows mw Hne Hr Hm Hh Hc).
Qed.
Print Assumptions C77_cells.

(** * Alignment *)
Definition no_bars (s : pystr) : Prop := Forall (fun c => is_bar c = false) s.
Lemma bars_app s r : forall k, bars k (s ++ r) = bars k s ++ bars (k + length s) r.
Proof.
  induction s as [|c s IH]; intros k; [cbn; rewrite Nat.add_0_r; reflexivity|]. cbn [app bars length]. rewrite IH.
  replace (S k + length s) with (k + S (length s)) by lia. destruct (is_bar c); reflexivity.
Qed.
Lemma bars_none s k : no_bars s -> bars k s = [].
Proof. intros H. revert k. induction H as [|c s Hc H IH]; intros k; [reflexivity|]. cbn [bars]. rewrite Hc. apply IH. Qed.
Lemma no_bars_replicate n c : is_bar c = false -> no_bars (replicate n c).
Proof. intros H. apply Forall_forall. intros x Hx. apply elem_of_replicate in Hx as [-> _]. exact H. Qed.
(** where the bars are and how long the line is, given the widths *)
Fixpoint bars_of (k : nat) (ws : list nat) : list nat :=
  match ws with [] => [] | [w] => [] | w :: r => (k + w + 1) :: bars_of (k + w + 3) r end.
Fixpoint length_of (ws : list nat) : nat :=
  match ws with [] => 0 | [w] => w | w :: r => w + 3 + length_of r end.
Lemma filled_fine w t : no_bars t -> length t <= w -> no_bars (filled w t) /\ length (filled w t) = w.
Proof.
  intros H L. unfold filled. split; [apply Forall_app; split; [exact H|apply no_bars_replicate; reflexivity]|].
  rewrite app_length, replicate_length. lia.
Qed.
Lemma row_aligned ws cs l : row_of ws cs l -> Forall2 (fun w c => no_bars (cell_text c) /\ length (cell_text c) <= w) ws cs ->
  length l = length_of ws /\ forall k, bars k l = bars_of k ws.
Proof.
  induction 1 as [w c|w c ws cs l H IH]; intros F.
  - apply Forall2_cons in F as [[F1 F2] _]. destruct (filled_fine w _ F1 F2) as [G1 G2]. split; [exact G2|]. intros k. apply bars_none, G1.
  - apply Forall2_cons in F as [[F1 F2] F]. destruct (filled_fine w _ F1 F2) as [G1 G2]. destruct (IH F) as [L B].
    destruct ws as [|w' ws]; [inversion H|]. split.
    + rewrite !app_length, G2, L. cbn [length length_of]. lia.
    + intros k. rewrite bars_app, (bars_none _ _ G1), G2, bars_app. cbn [app length]. rewrite B. cbn. do 2 f_equal; lia.
Qed.
Lemma rule_aligned ws l : rule_of ws l -> length l = length_of ws /\ forall k, bars k l = bars_of k ws.
Proof.
  induction 1 as [w|w ws l H [L B]].
  - split; [apply replicate_length|]. intros k. apply bars_none, no_bars_replicate. reflexivity.
  - destruct ws as [|w' ws]; [inversion H|]. split.
    + rewrite !app_length, replicate_length, L. cbn [length length_of]. lia.
    + intros k. rewrite bars_app, bars_none, replicate_length, bars_app by (apply no_bars_replicate; reflexivity). cbn [app length]. rewrite B. cbn. do 2 f_equal; lia.
Qed.

Lemma widen_lookup ws row i w c : ws !! i = Some w -> row !! i = Some c -> widen ws row !! i = Some (Z.max w (zlen c)).
Proof. intros H K. unfold widen. rewrite lookup_zip_with, H. cbn. rewrite K. reflexivity. Qed.
Lemma max_spec header rows i : i < length header -> Forall (fun r => length r = length header) rows ->
  exists w, max_value_width header rows !! i = Some w /\ (0 <= w)%Z /\
    (forall r c, r ∈ header :: rows -> r !! i = Some c -> (zlen c <= w)%Z) /\
    forall b, (0 <= b)%Z -> (forall r c, r ∈ header :: rows -> r !! i = Some c -> (zlen c <= b)%Z) -> (w <= b)%Z.
Proof.
  intros Hi H. unfold max_value_width. destruct (lookup_lt_is_Some_2 header i Hi) as [c0 Hc0].
  assert (E : widen (replicate (length header) 0%Z) header !! i = Some (Z.max 0 (zlen c0))).
  { apply widen_lookup; [apply lookup_replicate_2; exact Hi|exact Hc0]. }
  assert (G : forall rows ws w, Forall (fun r => length r = length header) rows -> ws !! i = Some w -> 
    exists w', foldl widen ws rows !! i = Some w' /\ (w <= w')%Z /\ (forall r c, r ∈ rows -> r !! i = Some c -> (zlen c <= w')%Z) /\
      forall b, (w <= b)%Z -> (forall r c, r ∈ rows -> r !! i = Some c -> (zlen c <= b)%Z) -> (w' <= b)%Z).
  { clear - Hi. intros rows. induction rows as [|r rows IH]; intros ws w H E.
    - exists w. split; [exact E|]. split; [lia|]. split; [intros r c K; apply elem_of_nil in K; destruct K|]. auto.
    - apply Forall_cons in H as [H1 H2]. cbn [foldl].
      destruct (lookup_lt_is_Some_2 r i ltac:(lia)) as [c Hc]. destruct (IH _ _ H2 (widen_lookup _ _ _ _ _ E Hc)) as (w' & E' & Hw & Ha & Hb).
      exists w'. split; [exact E'|]. split; [lia|]. split.
      + intros r' c' K Hc'. apply elem_of_cons in K as [->|K]; [|eauto]. assert (c' = c) as -> by congruence. lia.
      + intros b Hwb Hall. apply Hb; [|intros; eapply Hall; [right; eassumption|assumption]].
        specialize (Hall r c ltac:(left) Hc). lia. }
  destruct (G rows _ _ H E) as (w & Ew & Hw & Ha & Hb). exists w. split; [exact Ew|]. split; [lia|]. split.
  - intros r c K Hc. apply elem_of_cons in K as [->|K]; [|eauto]. assert (c = c0) as -> by congruence. lia.
  - intros b Hp Hall. apply Hb; [|intros; eapply Hall; [right; eassumption|assumption]].
    specialize (Hall header c0 ltac:(left) Hc0). lia.
Qed.
Lemma first_lookup t ms ws i m w : ms !! i = Some m -> ws !! i = Some w ->
  first_widths t ms ws !! i = Some (Z.max m (Z.min w (share t (length ws) i))).
Proof.
  intros Hm Hw. unfold first_widths. rewrite lookup_zip_with, Hm. cbn [mbind option_bind].
  rewrite lookup_zip_with, lookup_seq_lt by (eapply lookup_lt_Some; exact Hw). cbn [mbind option_bind]. rewrite Hw. cbn [mbind option_bind]. 
  f_equal. unfold share. rewrite Nat.add_0_l. lia.
Qed.

Lemma rest_none rest : forall ws cw, Forall2 Z.le ws cw -> give_rest rest ws cw = (cw, false).
Proof.
  induction 1 as [|w c ws cw H F IH]; [reflexivity|]. cbn [give_rest]. rewrite IH. replace (c <? w)%Z with false by lia. reflexivity.
Qed.
Lemma rest_one rest : forall ws cw j w c, ws !! j = Some w -> cw !! j = Some c -> (c < w)%Z -> length ws = length cw ->
  (forall i w' c', i <> j -> ws !! i = Some w' -> cw !! i = Some c' -> (w' <= c')%Z) ->
  give_rest rest ws cw = (<[j := (c + rest)%Z]> cw, true).
Proof.
  induction ws as [|w0 ws IH]; intros [|c0 cw] j w c Hw Hc Hlt L Ho; try discriminate. cbn [give_rest]. destruct j as [|j].
  - injection Hw as ->. injection Hc as ->. rewrite rest_none.
    + replace (c <? w)%Z with true by lia. reflexivity.
    + apply Forall2_same_length_lookup_2; [injection L as L; exact L|]. intros i x y Hx Hy. exact (Ho (S i) x y ltac:(lia) Hx Hy).
  - rewrite (IH cw j w c Hw Hc Hlt); [reflexivity|injection L as L; exact L|]. intros i x y Hi Hx Hy. exact (Ho (S i) x y ltac:(lia) Hx Hy).
Qed.
Lemma total_mono : forall a b, Forall2 Z.le a b -> (total a <= total b)%Z.
Proof. induction 1; cbn [total foldr]; [lia|]. unfold total in *. lia. Qed.
Lemma total_insert : forall l j x y, l !! j = Some x -> total (<[j := y]> l) = (total l - x + y)%Z.
Proof.
  induction l as [|a l IH]; intros [|j] x y H; try discriminate.
  - injection H as ->. cbn. lia.
  - change (<[S j := y]> (a :: l)) with (a :: <[j := y]> l). change (a + total (<[j := y]> l) = a + total l - x + y)%Z. rewrite (IH j x y H). lia.
Qed.

(** The widths suffice if everything fits and at most one column needs more than its share. *)
Lemma widths_suffice t ms ws bs : length ms = length ws -> length bs = length ws ->
  (forall i w b, ws !! i = Some w -> bs !! i = Some b -> (w <= b)%Z) -> Forall (Z.le 0) ws ->
  (total (zip_with Z.max ms bs) + 3 * (Z.of_nat (length ws) - 1) <= t)%Z ->
  (forall i j b b' m m', bs !! i = Some b -> bs !! j = Some b' -> ms !! i = Some m -> ms !! j = Some m' ->
    (Z.max m (share t (length ws) i) < b)%Z -> (Z.max m' (share t (length ws) j) < b')%Z -> i = j) ->
  Forall2 Z.le ws (col_widths t ms ws) /\ (total (col_widths t ms ws) + 3 * (Z.of_nat (length ws) - 1) <= t)%Z.
Proof.
  intros Lm Lb Hb Hpos Htot Huniq.
  set (cw := first_widths t ms ws).
  assert (Lc : length cw = length ws) by (apply length_first, Lm).
  assert (Hcw : forall i m w, ms !! i = Some m -> ws !! i = Some w -> cw !! i = Some (Z.max m (Z.min w (share t (length ws) i)))) by (intros; apply first_lookup; assumption).
  assert (Hle : (total cw <= total (zip_with Z.max ms bs))%Z).
  { apply total_mono. apply Forall2_same_length_lookup_2; [rewrite zip_with_length; lia|]. intros i x y Hx Hy.
    apply lookup_zip_with_Some in Hy as (m & b & -> & Hm & Hbb).
    destruct (lookup_lt_is_Some_2 ws i) as [w Hw]; [apply lookup_lt_Some in Hx; lia|]. rewrite (Hcw i m w Hm Hw) in Hx. injection Hx as <-.
    specialize (Hb i w b Hw Hbb). lia. }
  destruct (decide (Forall2 Z.le ws cw)) as [F|F].
  - assert (E : col_widths t ms ws = cw).
    { unfold col_widths. fold cw. destruct (0 <? _)%Z; [|reflexivity]. rewrite rest_none by exact F. reflexivity. }
    rewrite E. split; [exact F|lia].
  - assert (Hj : exists j w c, ws !! j = Some w /\ cw !! j = Some c /\ (c < w)%Z).
    { clearbody cw. clear - F Lc. revert cw Lc F. induction ws as [|w ws IH]; intros [|c cw] Lc F; try discriminate; [destruct F; constructor|].
      destruct (decide (w <= c)%Z) as [G|G].
      - destruct (IH cw) as (j & w' & c' & H1 & H2 & H3); [injection Lc as Lc; exact Lc|intros K; apply F; constructor; assumption|].
        exists (S j), w', c'. auto.
      - exists 0, w, c. split; [reflexivity|]. split; [reflexivity|lia]. }
    destruct Hj as (j & w & c & Hw & Hc & Hlt).
    destruct (lookup_lt_is_Some_2 ms j) as [m Hm]; [apply lookup_lt_Some in Hw; lia|].
    destruct (lookup_lt_is_Some_2 bs j) as [b Hbj]; [apply lookup_lt_Some in Hw; lia|].
    pose proof (Hb j w b Hw Hbj) as Hwb.
    assert (Ec : c = Z.max m (Z.min w (share t (length ws) j))) by (rewrite (Hcw j m w Hm Hw) in Hc; congruence).
    assert (Ho : forall i w' c', i <> j -> ws !! i = Some w' -> cw !! i = Some c' -> (w' <= c')%Z).
    { intros i w' c' Hij Hw' Hc'. destruct (decide (w' <= c')%Z) as [|G]; [assumption|]. exfalso. apply Hij.
      destruct (lookup_lt_is_Some_2 ms i) as [m' Hm']; [apply lookup_lt_Some in Hw'; lia|].
      destruct (lookup_lt_is_Some_2 bs i) as [b' Hb']; [apply lookup_lt_Some in Hw'; lia|].
      pose proof (Hb i w' b' Hw' Hb'). rewrite (Hcw i m' w' Hm' Hw') in Hc'. injection Hc' as <-.
      apply (Huniq i j b' b m' m Hb' Hbj Hm' Hm); lia. }
    (* replacing the width of column j by what it needs stays within the bound *)
    assert (Hle' : (total cw - c + w <= total (zip_with Z.max ms bs))%Z).
    { rewrite <- (total_insert cw j c w Hc). apply total_mono. apply Forall2_same_length_lookup_2; [rewrite insert_length, zip_with_length; lia|].
      intros i x y Hx Hy. apply lookup_zip_with_Some in Hy as (m' & b' & -> & Hm' & Hb').
      destruct (decide (i = j)) as [->|Hij].
      - rewrite list_lookup_insert in Hx by (apply lookup_lt_Some in Hc; exact Hc). injection Hx as <-. assert (b' = b) by congruence. lia.
      - rewrite list_lookup_insert_ne in Hx by congruence. destruct (lookup_lt_is_Some_2 ws i) as [w' Hw']; [apply lookup_lt_Some in Hx; lia|].
        rewrite (Hcw i m' w' Hm' Hw') in Hx. injection Hx as <-. specialize (Hb i w' b' Hw' Hb'). lia. }
    set (rest := (t - 3 * (Z.of_nat (length ws) - 1) - total cw)%Z).
    assert (E : col_widths t ms ws = <[j := (c + rest)%Z]> cw).
    { unfold col_widths. fold cw. unfold total in *. fold rest. replace (0 <? rest)%Z with true by lia. rewrite (rest_one rest ws cw j w c); auto. }
    rewrite E. split.
    + apply Forall2_same_length_lookup_2; [rewrite insert_length; lia|]. intros i x y Hx Hy. destruct (decide (i = j)) as [->|Hij].
      * rewrite list_lookup_insert in Hy by (apply lookup_lt_Some in Hc; exact Hc). injection Hy as <-. assert (x = w) by congruence. lia.
      * rewrite list_lookup_insert_ne in Hy by congruence. exact (Ho i x y Hij Hx Hy).
    + rewrite (total_insert cw j c _ Hc). lia.
Qed.

Lemma length_of_total ws : ws <> [] -> Forall (Z.le 0) ws -> Z.of_nat (length_of (List.map Z.to_nat ws)) = (total ws + 3 * (Z.of_nat (length ws) - 1))%Z.
Proof.
  intros N H. induction H as [|w ws Hw H IH]; [congruence|]. destruct ws as [|w' ws]; [cbn; lia|].
  change (length_of (List.map Z.to_nat (w :: w' :: ws))) with (Z.to_nat w + 3 + length_of (List.map Z.to_nat (w' :: ws))).
  specialize (IH ltac:(discriminate)). change (total (w :: w' :: ws)) with (w + total (w' :: ws))%Z. cbn [length] in *. lia.
Qed.

(** The full statement: [forall on columns header rows min_width bounds, ... -> (total (zip_with Z.max min_width bounds) + 3 * (Z.of_nat (length header) - 1) <= Z.max columns 80)%Z ->
      aligned (List.map seen (print_table (colours on) columns header rows min_width))]: if there is a layout that fits the terminal,
    then the lines are aligned.  It holds if at most one column needs more than its share. *)
Theorem C77_aligned_partial : forall on columns header rows min_width bounds,
  header <> [] -> Forall (fun r => length r = length header) rows -> length min_width = length header -> length bounds = length header ->
  Forall cell_ok header -> Forall (Forall cell_ok) rows ->
  (forall r c, r ∈ header :: rows -> c ∈ r -> Forall (fun x => is_bar x = false) (cell_text c)) ->
  Forall (fun b => 0 <= b)%Z bounds -> Forall (fun r => Forall2 fits_cell r bounds) (header :: rows) ->
  (total (zip_with Z.max min_width bounds) + 3 * (Z.of_nat (length header) - 1) <= Z.max columns 80)%Z ->
  (forall i j b b' m m', bounds !! i = Some b -> bounds !! j = Some b' -> min_width !! i = Some m -> min_width !! j = Some m' ->
    (Z.max m (share (Z.max columns 80) (length header) i) < b)%Z -> (Z.max m' (share (Z.max columns 80) (length header) j) < b')%Z -> i = j) ->
  aligned (List.map seen (print_table (colours on) columns header rows min_width)) /\
  Forall (fun l => Z.of_nat (length l) <= Z.max columns 80)%Z (List.map seen (print_table (colours on) columns header rows min_width)).
Proof.
  intros on columns header rows mw bs Hne Hr Hm Hbs Hh Hc Hbar Hpos Hfit Htot Huniq.
  set (t := Z.max columns 80) in *. set (ms := max_value_width header rows).
  assert (Lms : length ms = length header) by (apply length_max, Hr).
  assert (Hms : forall i, i < length header -> exists w, ms !! i = Some w /\ (0 <= w)%Z /\
    (forall r c, r ∈ header :: rows -> r !! i = Some c -> (zlen c <= w)%Z) /\
    forall b, (0 <= b)%Z -> (forall r c, r ∈ header :: rows -> r !! i = Some c -> (zlen c <= b)%Z) -> (w <= b)%Z) by (intros i Hi; apply max_spec; assumption).
  assert (Hok : forall r c, r ∈ header :: rows -> c ∈ r -> cell_ok c).
  { intros r c Hin Hcin. apply elem_of_cons in Hin as [->|Hin]; [rewrite Forall_forall in Hh; auto|].
    rewrite Forall_forall in Hc. specialize (Hc r Hin). rewrite Forall_forall in Hc. auto. }
  assert (Hz : forall r c, r ∈ header :: rows -> c ∈ r -> zlen c = Z.of_nat (length (cell_text c))).
  { intros r c Hin Hcin. unfold zlen. rewrite (ansilen_text c (Hok r c Hin Hcin)). reflexivity. }
  destruct (widths_suffice t mw ms bs) as [Hge Hwid].
  - lia.
  - lia.
  - intros i w b Hw Hb. assert (Hi : i < length header) by (apply lookup_lt_Some in Hw; lia). destruct (Hms i Hi) as (w' & E & _ & _ & Hup).
    assert (w' = w) as -> by congruence. apply Hup; [rewrite Forall_forall in Hpos; apply Hpos, elem_of_list_lookup; eauto|].
    intros r c Hin Hrc. rewrite (Hz r c Hin) by (apply elem_of_list_lookup; eauto). rewrite Forall_forall in Hfit. specialize (Hfit r Hin).
    eapply Forall2_lookup_lr in Hfit; [|exact Hrc|exact Hb]. exact Hfit.
  - apply Forall_forall. intros w Hw. apply elem_of_list_lookup in Hw as [i Hw]. destruct (Hms i) as (w' & E & H0 & _); [apply lookup_lt_Some in Hw; lia|].
    assert (w' = w) as -> by congruence. exact H0.
  - rewrite Lms. exact Htot.
  - rewrite Lms. exact Huniq.
  - rewrite Lms in Hwid. set (ws := table_widths columns header rows mw).
    assert (Ews : ws = List.map Z.to_nat (col_widths t mw ms)) by reflexivity.
    assert (Hrow : forall r l, r ∈ header :: rows -> length r = length header -> row_of ws r l -> length l = length_of ws /\ forall k, bars k l = bars_of k ws).
    { intros r l Hin Lr Hl. apply (row_aligned ws r l Hl). apply Forall2_same_length_lookup_2.
      - rewrite Ews, map_length, length_cols; lia.
      - intros i w c Hw Hcl. assert (Hcin : c ∈ r) by (apply elem_of_list_lookup; eauto). split; [exact (Hbar r c Hin Hcin)|].
        rewrite Ews in Hw. change (List.map Z.to_nat (col_widths t mw ms)) with (Z.to_nat <$> col_widths t mw ms) in Hw.
        rewrite list_lookup_fmap in Hw. destruct (col_widths t mw ms !! i) as [z|] eqn:Ez; [|discriminate]. injection Hw as <-.
        assert (Hi : i < length header) by (apply lookup_lt_Some in Hcl; lia). destruct (Hms i Hi) as (w' & E & H0 & Hlow & _).
        specialize (Hlow r c Hin Hcl). rewrite (Hz r c Hin Hcin) in Hlow. eapply Forall2_lookup_lr in Hge; [|exact E|exact Ez]. lia. }
    destruct (cells_with on columns header rows mw Hne Hr Hm Hh Hc) as (head & rule & lines & E & H1 & H2 & H3). fold ws in H1, H2, H3. rewrite E.
    assert (Hall : Forall (fun l => length l = length_of ws /\ forall k, bars k l = bars_of k ws) (head :: rule :: lines)).
    { constructor; [apply (Hrow header); [left|reflexivity|exact H1]|]. constructor; [apply rule_aligned, H2|].
      apply Forall_forall. intros l Hl. apply elem_of_list_lookup in Hl as [i Hl]. eapply Forall2_lookup_r in H3 as (r & Hri & Hrl); [|exact Hl].
      assert (Hin : r ∈ rows) by (apply elem_of_list_lookup; eauto). apply (Hrow r); [right; exact Hin| |exact Hrl].
      rewrite Forall_forall in Hr. auto. }
    assert (Hlen : (Z.of_nat (length_of ws) <= t)%Z).
    { rewrite Ews, length_of_total.
      - rewrite length_cols by lia. rewrite Lms. exact Hwid.
      - intros K. apply (f_equal (@length Z)) in K. rewrite length_cols in K by lia. rewrite Lms in K. destruct header; [congruence|discriminate].
      - apply Forall_forall. intros z Hzin. apply elem_of_list_lookup in Hzin as [i Hzi]. eapply Forall2_lookup_r in Hge as (w & Hw & Hle); [|exact Hzi].
        destruct (Hms i) as (w' & E' & H0 & _); [apply lookup_lt_Some in Hw; lia|]. assert (w' = w) as -> by congruence. lia. }
    split.
    + exists (bars_of 0 ws), (length_of ws). eapply Forall_impl; [exact Hall|]. intros l [L B]. split; [apply B|exact L].
    + eapply Forall_impl; [exact Hall|]. intros l [L _]. cbn beta. rewrite L. exact Hlen.
Qed.
Print Assumptions C77_aligned_partial.

(** A table as "fora --inspect-inventory" prints it (main.py:180-185): on a terminal of 120 columns the widest cells need 25, 4, 17
    and 45 columns, with the bars 100.  But the bars are not below each other. *)
Definition blue (t : string) : list pystr := [esc ++ lit "34m"; lit t; esc ++ lit "m"].
Definition inspect_header : list (list pystr) := [blue "variable"; blue "type"; [esc ++ lit "90m"; lit "(prec) "; esc ++ lit "m"; esc ++ lit "34m"; lit "defined by"; esc ++ lit "m"]; blue "value"].
Definition inspect_min : list Z := [24; 0; 12; 0]%Z.
Definition long_row (n v : nat) : list (list pystr) :=
  [[esc ++ lit "33m"; replicate n 97%N; esc ++ lit "m"]; blue "str"; blue "(1) web"; [esc ++ lit "32m"; replicate v 98%N; esc ++ lit "m"]].
Definition alignedb (lines : list pystr) : bool :=
  match lines with [] => true | l :: r => forallb (fun x => bool_decide (bars 0 x = bars 0 l) && (length x =? length l)) r end.
Lemma alignedb_ok lines : aligned lines -> alignedb lines = true.
Proof.
  intros (ps & n & H). destruct H as [|l r [Hl1 Hl2] H]; [reflexivity|]. cbn [alignedb]. apply forallb_forall. intros x Hx.
  rewrite Forall_forall in H. apply elem_of_list_In, H in Hx as [H1 H2]. rewrite H1, Hl1, H2, Hl2, Nat.eqb_refl, bool_decide_true; reflexivity.
Qed.
Lemma piece_text s : forallb (fun c => negb (c =? 27)%N) s = true -> piece s.
Proof. intros H. right. intros K. rewrite forallb_forall in H. apply elem_of_list_In, H in K. discriminate. Qed.
Lemma piece_colour p : forallb (fun c => (48 <=? c) && (c <=? 63))%N p = true -> piece (esc ++ p ++ lit "m").
Proof.
  intros H. left. exists p. split; [reflexivity|]. apply Forall_forall. intros c Hc. rewrite forallb_forall in H. apply elem_of_list_In, H in Hc. lia.
Qed.
Definition pieceb (s : pystr) : bool :=
  forallb (fun c => negb (c =? 27)%N) s || bool_decide (s ∈ [esc ++ lit "34m"; esc ++ lit "m"; esc ++ lit "90m"; esc ++ lit "33m"; esc ++ lit "32m"]).
Lemma pieceb_ok s : pieceb s = true -> piece s.
Proof.
  intros H. apply orb_true_iff in H as [H|H]; [apply piece_text, H|]. apply bool_decide_eq_true in H. apply elem_of_list_In in H.
  destruct H as [<-|[<-|[<-|[<-|[<-|[]]]]]].
  - exact (piece_colour (lit "34") eq_refl).
  - exact (piece_colour [] eq_refl).
  - exact (piece_colour (lit "90") eq_refl).
  - exact (piece_colour (lit "33") eq_refl).
  - exact (piece_colour (lit "32") eq_refl).
Qed.
Lemma cells_okb r : forallb (forallb pieceb) r = true -> Forall cell_ok r.
Proof.
  intros H. apply Forall_forall. intros c Hc. rewrite forallb_forall in H. apply elem_of_list_In, H in Hc. apply Forall_forall. intros s Hs.
  rewrite forallb_forall in Hc. apply elem_of_list_In, Hc in Hs. apply pieceb_ok, Hs.
Qed.
Definition fitsb (r : list (list pystr)) (bs : list Z) : bool :=
  (length r =? length bs) && forallb (fun cb => Z.of_nat (length (cell_text cb.1)) <=? cb.2)%Z (zip r bs).
Lemma fitsb_ok r bs : fitsb r bs = true -> Forall2 fits_cell r bs.
Proof.
  unfold fitsb. intros H. apply andb_true_iff in H as [L H]. apply Nat.eqb_eq in L. apply Forall2_same_length_lookup_2; [exact L|].
  intros i c b Hc Hb. rewrite forallb_forall in H. specialize (H (c, b)). cbn [fst snd] in H. unfold fits_cell.
  assert (K : In (c, b) (zip r bs)); [|specialize (H K); lia]. apply elem_of_list_In, elem_of_list_lookup. exists i. rewrite lookup_zip_with, Hc. cbn. rewrite Hb. reflexivity.
Qed.
Theorem C77_aligned_refuted : exists on columns header rows min_width bounds,
  header <> [] /\ Forall (fun r => length r = length header) rows /\ length min_width = length header /\ length bounds = length header /\
  Forall cell_ok header /\ Forall (Forall cell_ok) rows /\
  (forall r c, r ∈ header :: rows -> c ∈ r -> Forall (fun x => is_bar x = false) (cell_text c)) /\
  Forall (fun b => 0 <= b)%Z bounds /\ Forall (fun r => Forall2 fits_cell r bounds) (header :: rows) /\
  (total (zip_with Z.max min_width bounds) + 3 * (Z.of_nat (length header) - 1) <= Z.max columns 80)%Z /\
  ~ aligned (List.map seen (print_table (colours on) columns header rows min_width)).
Proof.
  exists true, 120%Z, inspect_header, [long_row 25 3; long_row 3 45], inspect_min, [25; 4; 17; 45]%Z.
  split; [discriminate|]. split; [repeat constructor|]. split; [reflexivity|]. split; [reflexivity|].
  split; [apply cells_okb; vm_compute; reflexivity|].
  split; [repeat (apply Forall_cons; split; [apply cells_okb; vm_compute; reflexivity|]); apply Forall_nil; exact I|].
  split.
  { intros r c Hr Hc. assert (H : forallb (forallb (fun c => forallb (fun x => negb (is_bar x)) (cell_text c))) (inspect_header :: [long_row 25 3; long_row 3 45]) = true) by (vm_compute; reflexivity).
    rewrite forallb_forall in H. apply elem_of_list_In, H in Hr. rewrite forallb_forall in Hr. apply elem_of_list_In, Hr in Hc.
    apply Forall_forall. intros x Hx. rewrite forallb_forall in Hc. apply elem_of_list_In, Hc, negb_true_iff in Hx. exact Hx. }
  split; [repeat constructor; lia|]. split; [repeat (apply Forall_cons; split; [apply fitsb_ok; vm_compute; reflexivity|]); constructor|].
  split; [vm_compute; discriminate|].
  intros H. apply alignedb_ok in H. vm_compute in H. discriminate.
Qed.
Print Assumptions C77_aligned_refuted.

(** The same table with a shorter name, on a terminal of 80 columns: one column (the value) needs more than its share. *)
Example C77_case :
  let rows := [long_row 20 3; long_row 3 26] in let bounds := [20; 4; 17; 26]%Z in
  Forall cell_ok inspect_header /\ Forall (Forall cell_ok) rows /\
  Forall (fun r => Forall2 fits_cell r bounds) (inspect_header :: rows) /\
  (total (zip_with Z.max inspect_min bounds) + 3 * (Z.of_nat (length inspect_header) - 1) <= Z.max 0 80)%Z /\
  (forall i j b b' m m', bounds !! i = Some b -> bounds !! j = Some b' -> inspect_min !! i = Some m -> inspect_min !! j = Some m' ->
    (Z.max m (share (Z.max 0 80) (length inspect_header) i) < b)%Z -> (Z.max m' (share (Z.max 0 80) (length inspect_header) j) < b')%Z -> i = j) /\
  List.map length (List.map seen (print_table (colours true) 0 inspect_header rows inspect_min)) = [80; 80; 80; 80] /\
  List.map (bars 0) (List.map seen (print_table (colours true) 0 inspect_header rows inspect_min)) = replicate 4 [25; 32; 52].
Proof.
  cbn zeta. split; [apply cells_okb; vm_compute; reflexivity|].
  split; [repeat (apply Forall_cons; split; [apply cells_okb; vm_compute; reflexivity|]); apply Forall_nil; exact I|].
  split; [repeat (apply Forall_cons; split; [apply fitsb_ok; vm_compute; reflexivity|]); constructor|].
  split; [vm_compute; discriminate|]. split; [|split; vm_compute; reflexivity].
  intros [|[|[|[|i]]]] [|[|[|[|j]]]] b b' m m'; cbn; intros H1 H2 H3 H4; try discriminate; try reflexivity;
    injection H1 as <-; injection H2 as <-; injection H3 as <-; injection H4 as <-; vm_compute; discriminate.
Qed.

