(** C81, C82: colours can be switched off; each operation is shown once. *)
From Coq Require Import Lia ZifyBool ZifyN ZifyNat.
From stdpp Require Import list.
From Verif Require Import Base Utf8 Utf8_proofs Dict_proofs Op Spec_Op Logger Prop_Logger Inspect Spec_Table Prop_Table Spec_Report Prop_Report Output Spec_Terminal.
Local Open Scope nat_scope.

Lemma notin_app (c : N) a b : c ∉ a -> c ∉ b -> c ∉ a ++ b.
Proof. rewrite elem_of_app. tauto. Qed.
Lemma notin_cons (c x : N) a : c <> x -> c ∉ a -> c ∉ x :: a.
Proof. rewrite elem_of_cons. tauto. Qed.
Lemma notin_nil (c : N) : c ∉ [].
Proof. apply not_elem_of_nil. Qed.
Ltac fixed := apply (bool_decide_unpack _); vm_compute; exact I.
Ltac clean := repeat first [assumption | apply notin_app | apply notin_nil | match goal with |- _ ∉ lit _ => fixed end | apply notin_cons; [discriminate|]].

(** ** C81 *)
(** The user wants no colours: by the option, by the environment, or since the output goes to a file. *)
Definition unwanted (flag env tty : bool) : Prop := flag = true \/ env = true \/ tty = false.
(** What the operation is called and what it reports has no escape sequences. *)
Definition texts_clean (other : pv -> pystr) (op_name description : pystr) (name : option pystr) (r : opres) : Prop :=
  27%N ∉ op_name /\ 27%N ∉ description /\ (forall n, name = Some n -> 27%N ∉ n) /\ (forall m, or_message r = Some m -> 27%N ∉ m) /\
  esc_free other (or_initial r) /\ esc_free other (or_final r).

Lemma firstn_clean n (s : pystr) : 27%N ∉ s -> 27%N ∉ firstn n s.
Proof. intros H K. apply H. apply (elem_of_subseteq_take n s) in K || (rewrite <- (firstn_skipn n s), elem_of_app; left; exact K). Qed.
Lemma ellipsis_clean s z : 27%N ∉ s -> 27%N ∉ ellipsis s z.
Proof.
  intros H. unfold ellipsis. destruct (_ <? _)%Z; [|exact H]. apply notin_app; [|fixed]. unfold upto. destruct (_ <? _)%Z; apply firstn_clean, H.
Qed.
Lemma shorten_clean verbose z s : 27%N ∉ s -> 27%N ∉ shorten verbose z s.
Proof. intros H. unfold shorten. destruct (_ =? _)%N; [apply ellipsis_clean, H|exact H]. Qed.
Lemma dget_elem k (d : state) v : dget k d = Some v -> exists k', (k', v) ∈ d.
Proof.
  induction d as [|[k1 v1] d IH]; [discriminate|]. cbn [dget]. destruct (str_eqb k k1).
  - intros [= ->]. exists k1. left.
  - intros H. destruct (IH H) as [k' K]. exists k'. right. exact K.
Qed.
Lemma infos_clean other verbose initial final l : state_infos other false verbose initial final = Ok l -> esc_free other initial -> esc_free other final -> Forall (fun t => 27%N ∉ t) l.
Proof.
  revert l. induction final as [|[k f] final IH]; intros l H Hi Hf; [injection H as <-; constructor|]. cbn [state_infos] in H.
  assert (Hf' : esc_free other final) by (intros k' v' K; apply Hf; right; exact K).
  destruct (is_None f); [exact (IH l H Hi Hf')|]. destruct (dget k initial) as [i|] eqn:Ei; [|discriminate]. cbn [from_option mbind result_bind] in H.
  destruct (state_infos other false verbose initial final) as [t|e] eqn:Et; [|discriminate]. cbn [mbind result_bind] in H. specialize (IH t eq_refl Hi Hf').
  destruct (dget_elem _ _ _ Ei) as [k' Ki]. destruct (Hi _ _ Ki) as [_ Hv]. destruct (Hf k f ltac:(left)) as [Hk Hw]. rewrite text_of_spec in Hv, Hw.
  pose proof (shorten_clean verbose 12 k Hk) as Nk. pose proof (shorten_clean verbose 9 _ Hv) as Ni.
  pose proof (shorten_clean verbose (if is_None i then 21 else 9)%Z _ Hw) as Nf.
  set (a := shorten verbose 12 k) in *. set (b := shorten verbose 9 (to_str other i)) in *. set (c := shorten verbose (if is_None i then 21 else 9)%Z (to_str other f)) in *. clearbody a b c.
  unfold col in H. destruct (py_eq i f); [|destruct (is_None i)]; [destruct (1 <=? verbose)%N| |]; injection H as <-; try exact IH; (apply Forall_cons; split; [|exact IH]); clean.
Qed.
Lemma joined_clean sep l : 27%N ∉ sep -> Forall (fun t => 27%N ∉ t) l -> 27%N ∉ joined sep l.
Proof.
  intros Hs H. induction H as [|x l Hx H IH]; [apply notin_nil|]. destruct l as [|y l]; [exact Hx|]. change (27%N ∉ x ++ sep ++ joined sep (y :: l)). clean.
Qed.
Lemma indented_clean level t : 27%N ∉ t -> 27%N ∉ indented false level t.
Proof. intros H. unfold indented, indent_prefix. apply notin_app; [|exact H]. intros K. apply elem_of_list_In, repeat_spec in K. discriminate. Qed.
Lemma title_clean dry level op_name description name : 27%N ∉ op_name -> 27%N ∉ description -> (forall n, name = Some n -> 27%N ∉ n) ->
  27%N ∉ operation_title false dry level op_name description name [].
Proof.
  intros H1 H2 H3. unfold operation_title. apply indented_clean. unfold col. destruct dry, name as [n|]; try specialize (H3 n eq_refl); clean.
Qed.
Lemma written_clean l : Forall (fun t => 27%N ∉ t) l -> 27%N ∉ written l.
Proof. intros H. unfold written. induction H as [|x l Hx H IH]; [apply notin_nil|]. cbn [List.map List.concat]. apply notin_app; [clean|exact IH]. Qed.

(** Full statement (false): the same without [show_diff = false \/ diffs = []].  The diff is coloured in any case. *)
Theorem C81_plain_partial : forall unified other flag env tty changes show_diff dry debug verbose level op_name description name r diffs out,
  unwanted flag env tty -> texts_clean other op_name description name r -> show_diff = false \/ diffs = [] ->
  operation_output unified other (colours_in Running flag env tty) changes show_diff dry debug verbose level op_name description name r diffs = Ok out ->
  27%N ∉ out.
Proof.
  intros unified other flag env tty changes show_diff dry debug verbose level op_name description name r diffs out Hu (H1 & H2 & H3 & H4 & H5 & H6) Hd H.
  replace (colours_in Running flag env tty) with false in H by (destruct flag, env, tty; try reflexivity; exfalso; destruct Hu as [K|[K|K]]; discriminate K).
  unfold operation_output, result_output in H.
  destruct (print_operation unified other false changes show_diff dry verbose level op_name description name r diffs) as [lines|e] eqn:E; [|discriminate].
  cbn [mbind result_bind] in H. apply (f_equal (fun x => match x with Ok l => l | Err _ => [] end)) in H. cbv beta iota in H. subst out.
  pose proof (title_clean dry level op_name description name H1 H2 H3) as Ht.
  apply notin_app.
  - unfold desc_output, operation_early. rewrite app_nil_r. apply notin_app; [exact Ht|]. destruct debug; clean.
  - apply written_clean. unfold print_operation in E. cbv zeta in E.
    replace (if or_success r then if or_changed r then col false "[1;32m" else col false "[1;90m" else col false "[1;31m") with (@nil N) in E by (destruct (or_success r), (or_changed r); reflexivity).
    assert (Ht' : 27%N ∉ 13%N :: operation_title false dry level op_name description name []) by clean.
    set (title := 13%N :: operation_title false dry level op_name description name []) in *. clearbody title. clear Ht.
    destruct (or_success r); cbn [negb] in E.
    + destruct changes; cbn [negb] in E; [|injection E as <-; repeat constructor; exact Ht'].
      destruct (state_infos other false verbose (or_initial r) (or_final r)) as [es|e] eqn:Ee; [|discriminate]. cbn [mbind result_bind] in E.
      pose proof (infos_clean _ _ _ _ _ Ee H5 H6) as Hes.
      set (box := if length (if show_diff then diffs else []) =? 0 then 9492%N else 9500%N) in E. assert (Hb : 27%N <> box) by (subst box; destruct (_ =? _); discriminate). clearbody box.
      set (line := match es with [] => [] | _ => [indented false level (col false "[90m" ++ [box] ++ col false "[m" ++ lit " " ++ joined (col false "[90m" ++ lit "," ++ col false "[m" ++ lit " ") es)] end) in E.
      assert (Hl : Forall (fun t => 27%N ∉ t) line).
      { subst line. destruct es as [|e es]; [constructor|]. apply Forall_singleton, indented_clean. unfold col. apply notin_app; [clean|]. apply notin_app; [apply notin_cons; [exact Hb|clean]|].
        clean. apply joined_clean; [clean|exact Hes]. }
      clearbody line. destruct show_diff.
      * destruct Hd as [Hd|Hd]; [discriminate|]. subst diffs. cbn [all_diffs mbind result_bind boxed] in E. injection E as <-. rewrite app_nil_r. constructor; assumption.
      * injection E as <-. constructor; assumption.
    + apply (f_equal (fun x => match x with Ok l => l | Err _ => [] end)) in E. cbv beta iota in E. subst lines. constructor; [exact Ht'|]. apply Forall_singleton, indented_clean.
      unfold col. destruct (or_message r) as [m|]; [specialize (H4 m eq_refl); change (default (lit "None") (Some m)) with m|change (default (lit "None") None) with (lit "None")]; clean.
Qed.
Print Assumptions C81_plain_partial.

(** The diff of a file is coloured although the output goes to a file and --no-color is given. *)
Definition edited : opres := OpRes true true [(lit "content", VInt 1)] [(lit "content", VInt 2)] None.
Theorem C81_plain_refuted : exists flag env tty other op_name description r diffs,
  unwanted flag env tty /\ texts_clean other op_name description None r /\
  forall unified, difflib_ok unified -> exists out,
    operation_output unified other (colours_in Running flag env tty) true true false false 0 0 op_name description None r diffs = Ok out /\ 27%N ∈ out.
Proof.
  exists true, true, false, (fun _ => lit "1"), (lit "upload"), (lit "/etc/motd"), edited, [(lit "/etc/motd", Some (blit "a"), Some (blit "b"))].
  split; [left; reflexivity|]. split.
  { split; [fixed|]. split; [fixed|]. split; [discriminate|]. split; [discriminate|]. split; intros k v K; apply elem_of_list_singleton in K; injection K as -> ->; split; fixed. }
  intros unified Hu. change (colours_in Running true true false) with false.
  destruct (diffs_ok unified [(lit "/etc/motd", Some (blit "a"), Some (blit "b"))] Hu) as [l El].
  assert (E : exists lines, print_operation unified (fun _ => lit "1") false true true false 0 0 (lit "upload") (lit "/etc/motd") None edited [(lit "/etc/motd", Some (blit "a"), Some (blit "b"))] = Ok lines).
  { unfold print_operation. change (or_success edited) with true. cbn [negb].
    change (state_infos (fun _ => lit "1") false 0 (or_initial edited) (or_final edited)) with (Ok [lit "content: 1 " ++ [8594%N] ++ lit " 1"]).
    cbn [mbind result_bind]. rewrite El. cbn [mbind result_bind]. eexists. reflexivity. }
  destruct E as [lines E].
  destruct (C78_printed _ _ _ _ _ _ _ _ _ _ _ _ _ _ E) as (_ & _ & P). destruct (P eq_refl eq_refl) as (es & _ & _ & D). specialize (D eq_refl).
  apply Forall_cons in D as [(ls & Els & D) _]. cbn [fst snd] in Els.
  unfold operation_output, result_output. rewrite E. cbn [mbind result_bind]. eexists. split; [reflexivity|]. apply elem_of_app. right.
  unfold diff_shown in Els. destruct (color_all _) as [c|e]; [|discriminate]. cbn [mbind result_bind List.map app] in Els.
  apply (f_equal (fun x => match x with Ok l => l | Err _ => [] end)) in Els. cbv beta iota in Els. rewrite <- Els in D. apply Forall_cons in D as [(line & Hl & p & q & ->) _].
  unfold written. apply elem_of_list_In, in_concat. eexists. split; [apply in_map, elem_of_list_In, Hl|]. apply elem_of_list_In. unfold sgr.
  rewrite !elem_of_app. left. right. left. left. left.
Qed.
Print Assumptions C81_plain_refuted.
(** Debugging output is coloured in any case. *)
Theorem C81_debug_refuted : exists msg line, 27%N ∉ msg /\ debug_line true msg = Some line /\ 27%N ∈ line.
Proof. exists (lit "run"). eexists. split; [fixed|]. split; [reflexivity|]. fixed. Qed.
Print Assumptions C81_debug_refuted.

(** --inspect-inventory and --init run while the options are read: only NO_COLOR is heeded. *)
Theorem C81_inspect_refuted : exists flag env tty, unwanted flag env tty /\ flag = true /\ tty = false /\
  forall columns header rows min_width, exists line, line ∈ print_table (colours (colours_in Parsing flag env tty)) columns header rows min_width /\ 27%N ∈ line.
Proof.
  exists true, false, false. split; [left; reflexivity|]. split; [reflexivity|]. split; [reflexivity|]. intros columns header rows min_width. change (colours_in Parsing true false false) with true.
  eexists. split; [right; left|]. apply elem_of_app. left. left.
Qed.
Print Assumptions C81_inspect_refuted.
Lemma join_clean d l : 27%N ∉ d -> Forall (fun t => 27%N ∉ t) l -> 27%N ∉ join d l.
Proof. intros Hs H. induction H as [|x l Hx H IH]; [apply notin_nil|]. destruct l as [|y l]; [exact Hx|]. change (27%N ∉ x ++ d ++ join d (y :: l)). clean. Qed.
Lemma row_clean row ws : Forall (Forall (fun s => 27%N ∉ s)) row -> Forall (fun t => 27%N ∉ t) (zip_with ansipad row ws).
Proof.
  intros H. revert ws. induction H as [|c row Hc H IH]; intros [|w ws]; [constructor..|]. cbn [zip_with]. constructor; [|apply IH]. unfold ansipad. apply notin_app; [|apply no_esc_spaces].
  clear -Hc. induction Hc as [|s c Hs Hc IH]; [apply notin_nil|]. cbn [List.concat]. apply notin_app; assumption.
Qed.
(** With NO_COLOR, in all phases. *)
Theorem C81_inspect_partial : forall phase flag tty columns header rows min_width,
  Forall (Forall (fun s => 27%N ∉ s)) header -> Forall (Forall (Forall (fun s => 27%N ∉ s))) rows ->
  Forall (fun line => 27%N ∉ line) (print_table (colours (colours_in phase flag true tty)) columns header rows min_width).
Proof.
  intros phase flag tty columns header rows min_width Hh Hr. replace (colours_in phase flag true tty) with false by (destruct phase, flag, tty; reflexivity).
  unfold print_table, colours. repeat (apply Forall_app; split).
  - constructor; [|apply Forall_singleton].
    + apply join_clean; [clean|]. apply row_clean, Hh.
    + apply notin_app; [clean|]. apply notin_app; [|clean]. apply join_clean; [fixed|]. apply Forall_forall. intros t Ht. apply elem_of_list_In, in_map_iff in Ht as (w & <- & _). intros K. apply elem_of_replicate in K as [K _]. discriminate.
  - apply Forall_forall. intros t Ht. apply elem_of_list_In, in_map_iff in Ht as (r & <- & Hi). apply join_clean; [clean|]. apply row_clean. rewrite Forall_forall in Hr. apply Hr, elem_of_list_In, Hi.
Qed.
Print Assumptions C81_inspect_partial.

(** ** C82 *)
Lemma put_char w a r c x : x <> 10%N -> x <> 13%N -> c <> w -> put w (Screen a r c) x = Screen a (take c r ++ x :: drop (S c) r) (S c).
Proof.
  intros H1 H2 H3. unfold put. cbn [above row column]. replace (x =? 10)%N with false by lia. replace (x =? 13)%N with false by lia. replace (c =? w) with false by lia. reflexivity.
Qed.
Lemma put_text w a t : forall r c, printable t -> c <= length r -> c + length t <= w ->
  put_all w (Screen a r c) t = Screen a (take c r ++ t ++ drop (c + length t) r) (c + length t).
Proof.
  induction t as [|x t IH]; intros r c (H1 & H2 & H3) Hc Hw.
  - cbn [length app put_all foldl]. rewrite Nat.add_0_r, take_drop. reflexivity.
  - apply not_elem_of_cons in H1 as [N1 H1], H2 as [N2 H2], H3 as [N3 H3]. cbn [length] in *.
    change (put_all w (put w (Screen a r c) x) t = Screen a (take c r ++ (x :: t) ++ drop (c + S (length t)) r) (c + S (length t))).
    rewrite put_char by (congruence || lia).
    assert (L : length (take c r ++ [x]) = S c) by (rewrite app_length, take_length; cbn [length]; lia).
    rewrite IH; [|repeat split; assumption|rewrite app_length, take_length; cbn [length]; lia|lia].
    replace (take c r ++ x :: drop (S c) r) with ((take c r ++ [x]) ++ drop (S c) r) by (rewrite <- app_assoc; reflexivity).
    rewrite (take_app_alt _ _ (S c)), (drop_add_app _ _ (S c)), drop_drop by congruence. rewrite <- app_assoc. cbn [app].
    replace (c + S (length t)) with (S c + length t) by lia. reflexivity.
Qed.
Lemma put_app w s a b : put_all w s (a ++ b) = put_all w (put_all w s a) b.
Proof. apply foldl_app. Qed.
(** a text, the start of the line, and a text of the same length *)
Lemma put_again w a t t' rest : printable t -> printable t' -> length t = length t' -> length t <= w ->
  put_all w (Screen a [] 0) (t ++ 13%N :: t' ++ rest) = put_all w (Screen a [] 0) (t' ++ rest).
Proof.
  intros H H' L W. rewrite !put_app, put_text by (assumption || cbn [length]; lia). change (put_all w ?s (13%N :: ?l)) with (put_all w (put w s 13%N) l).
  cbn [take drop app length]. rewrite drop_nil, app_nil_r, Nat.add_0_l. change (put w (Screen a t (length t)) 13%N) with (Screen a t 0).
  rewrite !put_app, (put_text w a t' t) by (assumption || lia). rewrite (put_text w a t' [] 0) by (assumption || cbn [length]; lia).
  rewrite Nat.add_0_l, <- L, drop_all, drop_nil. reflexivity.
Qed.

Lemma col_133 c r : seen (col c "[1;33m" ++ r) = seen r.
Proof. destruct c; [|reflexivity]. apply (seen_colour (27 :: 91 :: lit "1;33" ++ [109])%N). apply sgr_colour. reflexivity. Qed.
Lemma col_132 c r : seen (col c "[1;32m" ++ r) = seen r.
Proof. destruct c; [|reflexivity]. apply (seen_colour (27 :: 91 :: lit "1;32" ++ [109])%N). apply sgr_colour. reflexivity. Qed.
Lemma col_190 c r : seen (col c "[1;90m" ++ r) = seen r.
Proof. destruct c; [|reflexivity]. apply (seen_colour (27 :: 91 :: lit "1;90" ++ [109])%N). apply sgr_colour. reflexivity. Qed.
Lemma col_131 c r : seen (col c "[1;31m" ++ r) = seen r.
Proof. destruct c; [|reflexivity]. apply (seen_colour (27 :: 91 :: lit "1;31" ++ [109])%N). apply sgr_colour. reflexivity. Qed.
Lemma col_reset c r : seen (col c "[m" ++ r) = seen r.
Proof. destruct c; [|reflexivity]. apply (seen_colour (27 :: 91 :: [] ++ [109])%N). apply sgr_colour. reflexivity. Qed.

Lemma seen_indent c level r : seen (indent_prefix c level ++ r) = indentation c level ++ seen r.
Proof.
  revert r. induction level as [|n IH]; intros r; [destruct c; reflexivity|]. unfold indent_prefix in *. destruct c; cbn [indentation].
  - rewrite seq_S, List.map_app, concat_app, <- app_assoc, IH, <- app_assoc. f_equal. cbn [List.map List.concat Nat.add app]. 
    destruct (Nat.even n); rewrite app_nil_r; reflexivity.
  - replace (2 * S n) with (2 * n + 2) by lia. rewrite repeat_app, <- app_assoc, IH, <- app_assoc. reflexivity.
Qed.
Definition recoloured (k : string) : Prop := forall c r, seen (col c k ++ r) = seen r.
Lemma seen_title c dry level op_name description name k r : recoloured k -> 27%N ∉ op_name -> 27%N ∉ description -> (forall n, name = Some n -> 27%N ∉ n) ->
  seen (operation_title c dry level op_name description name (col c k) ++ r) = heading c dry level op_name description name ++ seen r.
Proof.
  intros K H1 H2 H3. unfold operation_title, indented, heading. rewrite <- !app_assoc, seen_indent. f_equal. rewrite K, seen_plain by exact H1. f_equal. rewrite col_reset.
  assert (D : forall q, seen ((if dry then lit " " ++ col c "[90m" ++ lit "(dry)" ++ col c "[m" else []) ++ q) = (if dry then lit " (dry)" else []) ++ seen q).
  { intros q. destruct dry; [|reflexivity]. rewrite <- !app_assoc, seen_plain, col_90, seen_plain, col_reset by fixed. reflexivity. }
  rewrite D. f_equal. rewrite seen_plain by fixed. f_equal. rewrite seen_plain by exact H2. f_equal.
  destruct name as [n|]; [|reflexivity]. specialize (H3 n eq_refl). rewrite <- !app_assoc, seen_plain, col_90, seen_plain, seen_plain, seen_plain, col_reset by first [exact H3|fixed]. reflexivity.
Qed.
Lemma printable_app a b : printable a -> printable b -> printable (a ++ b).
Proof. intros (A1 & A2 & A3) (B1 & B2 & B3). repeat split; apply notin_app; assumption. Qed.
Ltac print_fixed := repeat split; fixed.
Lemma printable_indent c level : printable (indentation c level).
Proof.
  induction level as [|n IH]; [repeat split; apply notin_nil|]. cbn [indentation]. apply printable_app; [exact IH|]. apply printable_app; [|print_fixed]. destruct c; [destruct (Nat.even n)|]; print_fixed.
Qed.
Lemma printable_heading c dry level op_name description name : printable op_name -> printable description -> (forall n, name = Some n -> printable n) ->
  printable (heading c dry level op_name description name).
Proof.
  intros H1 H2 H3. unfold heading. repeat apply printable_app; try assumption; try print_fixed; [apply printable_indent|destruct dry; [print_fixed|repeat split; apply notin_nil]|].
  destruct name as [n|]; [|repeat split; apply notin_nil]. repeat apply printable_app; [print_fixed|apply H3; reflexivity|print_fixed].
Qed.

(** What is printed, in its order. *)
Lemma output_parts unified other colours changes show_diff dry verbose level op_name description name r diffs out :
  operation_output unified other colours changes show_diff dry false verbose level op_name description name r diffs = Ok out ->
  exists k lines, recoloured k /\
    print_operation unified other colours changes show_diff dry verbose level op_name description name r diffs = Ok ((13%N :: operation_title colours dry level op_name description name (col colours k)) :: lines) /\
    out = operation_title colours dry level op_name description name (col colours "[1;33m") ++ 13%N :: operation_title colours dry level op_name description name (col colours k) ++ 10%N :: written lines.
Proof.
  intros H. unfold operation_output, result_output in H.
  destruct (print_operation unified other colours changes show_diff dry verbose level op_name description name r diffs) as [all|e] eqn:E; [|discriminate].
  cbn [mbind result_bind] in H. apply (f_equal (fun x => match x with Ok l => l | Err _ => [] end)) in H. cbv beta iota in H. subst out.
  assert (X : exists k lines, recoloured k /\ all = (13%N :: operation_title colours dry level op_name description name (col colours k)) :: lines).
  { unfold print_operation in E. cbv zeta in E. set (k := if or_success r then if or_changed r then "[1;32m"%string else "[1;90m"%string else "[1;31m"%string).
    replace (if or_success r then if or_changed r then col colours "[1;32m" else col colours "[1;90m" else col colours "[1;31m") with (col colours k) in E by (subst k; destruct (or_success r), (or_changed r); reflexivity).
    assert (K : recoloured k). { subst k. destruct (or_success r); [destruct (or_changed r)|]; intros c q; [apply col_132|apply col_190|apply col_131]. }
    exists k. clearbody k. set (title := operation_title colours dry level op_name description name (col colours k)) in *. clearbody title.
    assert (Y : exists lines, all = (13%N :: title) :: lines); [|destruct Y as [lines ->]; exists lines; split; [exact K|reflexivity]].
    destruct (or_success r); cbn [negb] in E.
    - destruct changes; cbn [negb] in E; [|injection E as <-; eexists; reflexivity].
      destruct (state_infos other colours verbose (or_initial r) (or_final r)) as [es|e]; [|discriminate]. cbn [mbind result_bind] in E.
      destruct show_diff; [destruct (all_diffs unified diffs) as [d|e]; [|discriminate]; cbn [mbind result_bind] in E|];
        apply (f_equal (fun x => match x with Ok l => l | Err _ => [] end)) in E; cbv beta iota in E; subst all; eexists; reflexivity.
    - apply (f_equal (fun x => match x with Ok l => l | Err _ => [] end)) in E. cbv beta iota in E. subst all. eexists. reflexivity. }
  destruct X as (k & lines & K & ->). exists k, lines. split; [exact K|]. split; [reflexivity|].
  unfold desc_output, operation_early. rewrite !app_nil_r. f_equal. unfold written. cbn [List.map List.concat app]. rewrite <- app_assoc. reflexivity.
Qed.

(** Full statement (false): the same for all widths.
    On a terminal that is wide enough for the title the screen is the same as if the title was printed once. *)
Theorem C82_once_partial : forall unified other colours changes show_diff dry verbose level op_name description name r diffs out width,
  operation_output unified other colours changes show_diff dry false verbose level op_name description name r diffs = Ok out ->
  printable op_name -> printable description -> (forall n, name = Some n -> printable n) ->
  length (heading colours dry level op_name description name) <= width ->
  exists title lines, print_operation unified other colours changes show_diff dry verbose level op_name description name r diffs = Ok (title :: lines) /\
    screen_of width out = screen_of width (heading colours dry level op_name description name ++ [10%N] ++ written lines).
Proof.
  intros unified other colours changes show_diff dry verbose level op_name description name r diffs out width H H1 H2 H3 W.
  destruct (output_parts _ _ _ _ _ _ _ _ _ _ _ _ _ _ H) as (k & lines & K & E & ->). eexists _, lines. split; [exact E|].
  pose proof (printable_heading colours dry level op_name description name H1 H2 H3) as P.
  assert (H3' : forall n, name = Some n -> 27%N ∉ n) by (intros n Hn; apply H3, Hn). destruct H1 as (H1 & _). destruct H2 as (H2 & _).
  unfold screen_of. rewrite (seen_title _ _ _ _ _ _ _ _ col_133 H1 H2 H3').
  change (seen (13%N :: ?l)) with (13%N :: seen l). rewrite (seen_title _ _ _ _ _ _ _ _ K H1 H2 H3').
  rewrite (seen_plain (heading colours dry level op_name description name)) by apply P. change (seen (10%N :: ?l)) with (10%N :: seen l). change (seen ([10%N] ++ ?l)) with (10%N :: seen l).
  apply (put_again width [] _ _ ([10%N] ++ _)); auto.
Qed.
Print Assumptions C82_once_partial.
(** A title that is longer than the line: the first row is there twice. *)
Definition long_path : pystr := lit "/srv/www/www.example.com/releases/2022-03-14/application/config/environments/prod.yml".
Theorem C82_once_refuted : exists width op_name description r, width = 80 /\ printable op_name /\ printable description /\
  forall unified other, exists out first second, operation_output unified other true false false false false 0 1 op_name description None r [] = Ok out /\
    heading true false 1 op_name description None = first ++ second /\ rows width out = [first; first; second; []] /\
    rows width (heading true false 1 op_name description None ++ [10%N]) = [first; second; []].
Proof.
  exists 80, (lit "upload"), long_path, (OpRes true false [] [] None). split; [reflexivity|]. split; [print_fixed|]. split; [print_fixed|]. intros unified other.
  eexists _, (take 80 (heading true false 1 (lit "upload") long_path None)), (drop 80 (heading true false 1 (lit "upload") long_path None)).
  split; [reflexivity|]. split; [rewrite take_drop; reflexivity|]. split; vm_compute; reflexivity.
Qed.
Print Assumptions C82_once_refuted.
(** In a log the title is there twice, with a carriage return between. *)
Lemma title_plain dry level op_name description name : operation_title false dry level op_name description name [] = heading false dry level op_name description name.
Proof.
  assert (I : indent_prefix false level = indentation false level).
  { unfold indent_prefix. induction level as [|n IH]; [reflexivity|]. cbn [indentation]. rewrite <- IH. replace (2 * S n) with (2 * n + 2) by lia. rewrite repeat_app. reflexivity. }
  unfold operation_title, indented, heading, col. rewrite I. destruct dry, name; reflexivity.
Qed.
Theorem C82_log_refuted : exists op_name description r, printable op_name /\ printable description /\
  forall unified other flag env changes show_diff verbose level, exists h rest,
    h = heading false false level op_name description None /\
    operation_output unified other (colours_in Running flag env false) changes show_diff false false verbose level op_name description None r [] = Ok (h ++ 13%N :: h ++ 10%N :: rest).
Proof.
  exists (lit "upload"), (lit "/etc/motd"), (OpRes true false [] [] None). split; [print_fixed|]. split; [print_fixed|]. intros unified other flag env changes show_diff verbose level.
  eexists _, _. split; [reflexivity|]. replace (colours_in Running flag env false) with false by (destruct flag, env; reflexivity). rewrite <- title_plain.
  unfold operation_output, result_output, print_operation, desc_output, operation_early. cbn [or_success or_changed or_initial or_final or_message negb]. unfold col at 1 2 3 4. cbn [state_infos].
  destruct changes, show_diff; cbn [negb mbind result_bind all_diffs boxed app]; rewrite !app_nil_r; unfold written; cbn [List.map List.concat app]; rewrite app_nil_r, <- ?app_assoc; reflexivity.
Qed.
Print Assumptions C82_log_refuted.
(** An operation made of others (files.upload_dir): its title stands on its own line, and its own result is not printed. *)
Theorem C82_nested : forall unified other colours changes show_diff dry verbose level op_name description name r diffs,
  27%N ∉ op_name -> 27%N ∉ description -> (forall n, name = Some n -> 27%N ∉ n) ->
  seen (desc_output colours dry false level true op_name description name) = heading colours dry level op_name description name ++ [10%N] /\
  result_output unified other colours changes show_diff dry verbose level true op_name description name r diffs = Ok [].
Proof.
  intros unified other colours changes show_diff dry verbose level op_name description name r diffs H1 H2 H3. split; [|reflexivity].
  unfold desc_output, operation_early. rewrite app_nil_r. rewrite (seen_title _ _ _ _ _ _ _ _ col_133 H1 H2 H3). reflexivity.
Qed.
Print Assumptions C82_nested.

(** ** Cases *)
Definition tried : opres := OpRes true true [(lit "exists", VBool false); (lit "mode", VNone)] [(lit "exists", VBool true); (lit "mode", VStr (lit "644"))] None.
Definition shown_value (v : pv) : pystr := match v with VBool true => lit "True" | VBool false => lit "False" | _ => lit "None" end.
Example C81_case : unwanted false false false /\ texts_clean shown_value (lit "upload") (lit "/etc/motd") (Some (lit "greeting")) tried /\
  exists out, operation_output (fun _ _ => []) shown_value (colours_in Running false false false) true false true false 0 1 (lit "upload") (lit "/etc/motd") (Some (lit "greeting")) tried [] = Ok out /\
    rows 80 out = [lit "  upload (dry) /etc/motd (greeting)"; lit "  " ++ [9492%N] ++ lit " exists: False " ++ [8594%N] ++ lit " True, mode: 644"; []].
Proof.
  split; [right; right; reflexivity|]. split.
  - split; [fixed|]. split; [fixed|]. split; [intros n Hn; injection Hn as <-; fixed|]. split; [discriminate|]. split; intros k v K;
      apply elem_of_cons in K as [K|K]; [|apply elem_of_list_singleton in K| |apply elem_of_list_singleton in K]; injection K as -> ->; split; fixed.
  - eexists. split; [reflexivity|]. vm_compute. reflexivity.
Qed.
Example C82_case : printable (lit "upload") /\ printable (lit "/etc/motd") /\ length (heading true false 1 (lit "upload") (lit "/etc/motd") None) <= 80 /\
  exists out, operation_output (fun _ _ => []) shown_value true true false false false 0 1 (lit "upload") (lit "/etc/motd") None tried [] = Ok out /\
    rows 80 out = [[9474%N] ++ lit " upload /etc/motd"; [9474%N; 32%N; 9492%N] ++ lit " exists: False " ++ [8594%N] ++ lit " True, mode: 644"; []].
Proof.
  split; [print_fixed|]. split; [print_fixed|]. split; [vm_compute; lia|]. eexists. split; [reflexivity|]. vm_compute. reflexivity.
Qed.
