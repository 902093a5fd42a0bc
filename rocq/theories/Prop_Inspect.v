(** C76: the variables of hosts as shown by --inspect-inventory. *)
From Coq Require Import Lia ZifyBool ZifyNat Sorted.
From Verif Require Import Base Paths Urls Wrapper Spec_Wrapper Wrapper_proofs Ranks Dict_proofs Inventory Spec_Inventory
  Inventory_proofs Inventory_proofs2 Inventory_vars Inventory_values Inventory_main Inventory_examples Prop_Inventory Inspect Spec_Inspect Inspect_proofs.
Local Open Scope nat_scope.

Lemma index_in x l : x ∈ l -> exists i, index x l = Ok (Z.of_nat i) /\ l !! i = Some x.
Proof.
  induction l as [|y l IH]; intros H; [apply elem_of_nil in H; destruct H|]. cbn [index].
  destruct (str_eqb_spec x y) as [->|N]; [exists 0; split; reflexivity|].
  apply elem_of_cons in H as [->|H]; [congruence|]. destruct (IH H) as (i & E & L). exists (S i). rewrite E. split; [|exact L].
  cbn [mbind result_bind]. f_equal. lia.
Qed.
Section rows.
  Variable order : list pystr.
  Variable host : pystr.
  Hypothesis Hhost : host ∉ order.
  Lemma precedence_place a p : precedence order host a = Ok p -> place order host a p.
  Proof.
    unfold precedence. destruct (str_eqb_spec a host) as [->|N].
    - intros [= <-]. left. auto.
    - intros H. right. revert p H. induction order as [|y l IH]; intros p H; cbn [index] in H; [discriminate|].
      destruct (str_eqb_spec a y) as [->|N']; [injection H as <-; exists 0; auto|].
      destruct (index a l) as [i|]; [|discriminate]. cbn [mbind result_bind] in H. injection H as <-.
      destruct (IH ltac:(intros K; apply Hhost; right; exact K) i eq_refl) as (j & L & ->). exists (S j). split; [exact L|lia].
  Qed.
  Lemma precedence_ok a : a = host \/ a ∈ order -> exists p, precedence order host a = Ok p.
  Proof.
    intros H. unfold precedence. destruct (str_eqb_spec a host) as [->|N]; [eauto|]. destruct H as [->|H]; [congruence|].
    destruct (index_in _ _ H) as (i & E & _). eauto.
  Qed.
  Lemma collect_spec l : forall acc, (forall s, s ∈ l -> sn_actor s = host \/ sn_actor s ∈ order) ->
    Forall (fun pa => precedence order host pa.2 = Ok pa.1) acc ->
    exists r, collect order host l acc = Ok r /\ r.*2 = cn l acc.*2 /\ Forall (fun pa => precedence order host pa.2 = Ok pa.1) r.
  Proof.
    clear Hhost. induction l as [|s l IH]; intros acc Hl Ha; cbn [collect cn].
    - exists acc. auto.
    - destruct (precedence_ok (sn_actor s)) as [p E]; [apply Hl; left|]. rewrite E. cbn [mbind result_bind].
      destruct (sn_def s).
      + eexists. split; [reflexivity|]. split; [reflexivity|]. constructor; [exact E|exact Ha].
      + apply (IH ((p, sn_actor s) :: acc)); [intros s' Hs'; apply Hl; right; exact Hs'|constructor; [exact E|exact Ha]].
  Qed.
  Variable hist : history.
  Variable S : list pystr.
  Hypothesis HS : forall a, a ∈ S -> a = host \/ a ∈ order.
  Hypothesis Hhist : actors_in S hist.
  Lemma actions_ok x v s : s ∈ actions host hist x v -> sn_actor s = host \/ sn_actor s ∈ order.
  Proof.
    clear Hhost. unfold actions. destruct (dget x hist) as [l|] eqn:E; intros H.
    - apply HS. apply (Hhist x l E). exact H.
    - apply elem_of_list_singleton in H as ->. left. reflexivity.
  Qed.
  Lemma actions_ne x v : actions host hist x v <> [].
  Proof. clear Hhost. unfold actions. destruct (dget x hist) as [l|] eqn:E; [apply (Hhist x l E)|discriminate]. Qed.
  Lemma defined_by_spec x v : exists r, defined_by order host hist x v = Ok r /\ r.*2 = cn (rev (actions host hist x v)) [] /\
    Forall (fun pa => precedence order host pa.2 = Ok pa.1) r.
  Proof.
    clear Hhost. unfold defined_by. apply (collect_spec (rev (actions host hist x v)) []); [|constructor].
    intros s Hs. apply (actions_ok x v). apply elem_of_list_In, in_rev, elem_of_list_In. exact Hs.
  Qed.
  Lemma cn_last l s : last (cn (rev (l ++ [s])) []) = Some (sn_actor s).
  Proof. clear. rewrite cn_snoc. destruct (sn_def s); [reflexivity|apply last_snoc]. Qed.

  (** the row of an entry *)
  Definition row_of (en : entry) (r : row) : Prop :=
    r_attr r = en_attr en /\ r_value r = en_value en /\ Ok (r_defined_by r) = defined_by order host hist (en_attr en) (en_value en) /\
    en_declared en = declared_by_wrapper (en_attr en) /\ exists a, last (r_defined_by r) = Some (en_prec en, a).
  Definition fine_entry (en : entry) : Prop :=
    en_declared en = declared_by_wrapper (en_attr en) /\
    exists a, last_actor host hist (en_attr en) (en_value en) = Ok a /\ precedence order host a = Ok (en_prec en).
  Lemma entries_spec vs : exists l, entries order host hist vs = Ok l /\ Forall fine_entry l /\
    List.map (fun en => (en_attr en, en_value en)) l = List.filter (fun kv => negb (private kv.1 || is_module kv.2)) vs.
  Proof.
    clear Hhost. induction vs as [|[x v] vs (l & E & F & M)]; [exists []; repeat split; constructor|]. cbn [entries List.filter fst snd].
    destruct (private x || is_module v); cbn [negb]; [exists l; auto|].
    assert (La : exists a, last_actor host hist x v = Ok a /\ (a = host \/ a ∈ order)).
    { unfold last_actor. pose proof (actions_ne x v) as Hne. pose proof (actions_ok x v) as Hok.
      destruct (actions host hist x v) as [|s0 r0] using rev_ind; [congruence|]. rewrite last_snoc. eexists. split; [reflexivity|].
      apply Hok. apply elem_of_app. right. left. }
    destruct La as (a & La & Ha). rewrite La. cbn [mbind result_bind]. destruct (precedence_ok a Ha) as [p Ep]. rewrite Ep. cbn [mbind result_bind].
    rewrite E. cbn [mbind result_bind]. eexists. split; [reflexivity|]. split.
    - constructor; [|exact F]. split; [reflexivity|]. exists a. auto.
    - cbn [List.map en_attr en_value]. f_equal. exact M.
  Qed.
  Lemma rows_spec l : Forall fine_entry l -> exists rs, rows order host hist l = Ok rs /\ Forall2 row_of l rs.
  Proof.
    clear Hhost. induction 1 as [|en l (Hd & a & La & Ep) H (rs & E & F)]; [exists []; split; [reflexivity|constructor]|].
    cbn [rows]. destruct (defined_by_spec (en_attr en) (en_value en)) as (r & Er & Hr & Hp). rewrite Er. cbn [mbind result_bind].
    rewrite E. cbn [mbind result_bind]. eexists. split; [reflexivity|]. constructor; [|exact F].
    split; [reflexivity|]. split; [reflexivity|]. split; [symmetry; exact Er|]. split; [exact Hd|]. cbn [r_defined_by].
    exists a. unfold last_actor in La. destruct (actions host hist (en_attr en) (en_value en)) as [|h0 s0 _] using rev_ind; [discriminate|].
    rewrite last_snoc in La. injection La as <-.
    assert (L : last r.*2 = Some (sn_actor h0)) by (rewrite Hr; apply cn_last).
    destruct r as [|[p b] r0 _] using rev_ind; [discriminate|]. rewrite fmap_app in L.
    change ([(p, b)].*2) with [b] in L. rewrite last_snoc in L. rewrite last_snoc. injection L as ->. apply Forall_app in Hp as [_ Hp]. inversion Hp as [|? ? Hq _]. cbn in Hq. congruence.
  Qed.
End rows.

(** sorting *)
Lemma str_leb_total a : forall b, str_leb a b = true \/ str_leb b a = true.
Proof.
  induction a as [|x a IH]; intros [|y b]; cbn [str_leb]; auto. destruct (N.lt_trichotomy x y) as [H|[->|H]].
  - left. replace (x <? y)%N with true by lia. reflexivity.
  - rewrite N.eqb_refl, N.ltb_irrefl. cbn [orb andb]. apply IH.
  - right. replace (y <? x)%N with true by lia. reflexivity.
Qed.
Lemma str_leb_trans a : forall b c, str_leb a b = true -> str_leb b c = true -> str_leb a c = true.
Proof.
  induction a as [|x a IH]; intros [|y b] [|z c]; cbn [str_leb]; try discriminate; auto.
  intros H K. destruct (x <? y)%N eqn:E1, (y <? z)%N eqn:E2; cbn [orb] in *.
  - replace (x <? z)%N with true by lia. reflexivity.
  - apply andb_true_iff in K as [K _]. replace (x <? z)%N with true by lia. reflexivity.
  - apply andb_true_iff in H as [H _]. replace (x <? z)%N with true by lia. reflexivity.
  - apply andb_true_iff in H as [H H'], K as [K K']. replace (x =? z)%N with true by lia. cbn [andb]. rewrite (IH _ _ H' K'). apply orb_true_r.
Qed.
Lemma str_leb_alphabetical a : forall b, str_leb a b = true -> alphabetical a b.
Proof.
  induction a as [|x a IH]; intros [|y b]; cbn [str_leb]; try discriminate.
  - intros _. left. exists []. reflexivity.
  - intros _. left. exists (y :: b). reflexivity.
  - intros H. apply orb_true_iff in H as [H|H].
    + right. exists [], x, y, a, b. split; [reflexivity|]. split; [reflexivity|]. lia.
    + apply andb_true_iff in H as [H K]. assert (x = y) as -> by lia. destruct (IH _ K) as [[r ->]|(p & u & v & a' & b' & -> & -> & L)].
      * left. exists r. reflexivity.
      * right. exists (y :: p), u, v, a', b'. auto.
Qed.
Lemma entry_leb_total a b : entry_leb a b = true \/ entry_leb b a = true.
Proof.
  unfold entry_leb. destruct (en_declared a), (en_declared b); auto;
  (destruct (str_leb_total (en_attr a) (en_attr b)) as [->| ->]; rewrite ?andb_true_r; lia).
Qed.
Lemma entry_leb_trans a b c : entry_leb a b = true -> entry_leb b c = true -> entry_leb a c = true.
Proof.
  unfold entry_leb. intros H K.
  assert (T := str_leb_trans (en_attr a) (en_attr b) (en_attr c)).
  destruct (en_declared a), (en_declared b), (en_declared c); try discriminate; try reflexivity;
  (destruct (str_leb (en_attr a) (en_attr b)), (str_leb (en_attr b) (en_attr c)), (str_leb (en_attr a) (en_attr c));
   rewrite ?andb_true_r, ?andb_false_r in *; try (specialize (T eq_refl eq_refl); discriminate); lia).
Qed.
Lemma insert_entry_perm x l : insert_entry x l ≡ₚ x :: l.
Proof. induction l as [|y l IH]; [reflexivity|]. cbn [insert_entry]. destruct (entry_leb x y); [reflexivity|]. rewrite IH. apply perm_swap. Qed.
Lemma sort_entries_perm l : sort_entries l ≡ₚ l.
Proof. induction l as [|x l IH]; [reflexivity|]. cbn. rewrite insert_entry_perm, IH. reflexivity. Qed.
Definition le_entry a b := entry_leb a b = true.
Lemma insert_entry_sorted x l : StronglySorted le_entry l -> StronglySorted le_entry (insert_entry x l).
Proof.
  induction 1 as [|y l H IH F]; [repeat constructor|]. cbn [insert_entry]. destruct (entry_leb x y) eqn:E.
  - constructor; [constructor; assumption|]. constructor; [exact E|]. eapply Forall_impl; [exact F|]. intros z Hz. eapply entry_leb_trans; eassumption.
  - constructor; [exact IH|]. rewrite insert_entry_perm. constructor; [|exact F].
    destruct (entry_leb_total x y) as [K|K]; [congruence|exact K].
Qed.
Lemma sort_entries_sorted l : StronglySorted le_entry (sort_entries l).
Proof. induction l as [|x l IH]; [constructor|]. apply insert_entry_sorted, IH. Qed.
Lemma sorted_lookup l : StronglySorted le_entry l -> forall i j a b, i < j -> l !! i = Some a -> l !! j = Some b -> le_entry a b.
Proof.
  induction 1 as [|y l H IH F]; intros i j a b L A B; [discriminate|]. destruct j as [|j]; [lia|]. destruct i as [|i].
  - injection A as <-. rewrite Forall_forall in F. apply F. apply elem_of_list_lookup. exists j. exact B.
  - apply (IH i j); [lia|exact A|exact B].
Qed.

(** The order in which variables are shown: what every host has, then by the place of the module that changed them last, then by
    name. *)
Definition shown_before (a b : row) : Prop :=
  documented (r_attr a) /\ ~ documented (r_attr b) \/
  (documented (r_attr a) <-> documented (r_attr b)) /\
  exists p q m n, last (r_defined_by a) = Some (p, m) /\ last (r_defined_by b) = Some (q, n) /\
    ((p < q)%Z \/ p = q /\ alphabetical (r_attr a) (r_attr b)).

Lemma declared_documented x : declared_by_wrapper x = true <-> documented x.
Proof.
  unfold declared_by_wrapper, documented. rewrite orb_true_iff, !str_in_true. rewrite !elem_of_list_In. cbn. tauto.
Qed.

(** The tables can always be shown.  All the variables are in it, each once, with their values.  The numbers are the places of the
    modules. *)
Theorem C76_listed : forall e inv hs gs l host d w hist,
  set_ok e -> files_dict e -> wf inv -> load_decls e hs gs = Ok l -> dget host (l_hosts l) = Some d -> NoDup (lit "host" :: (hd_vars d).*1) ->
  host ∉ o_names (l_order l) -> instanciate_host e inv l host = Ok (w, hist) ->
  exists rs, host_rows (o_names (l_order l)) host hist w = Ok rs /\ NoDup (List.map r_attr rs) /\
    (forall x v, x <> lit "module" -> (exists r, r ∈ rs /\ r_attr r = x /\ r_value r = v) <-> own w x v /\ private x = false /\ is_module v = false) /\
    (forall i j a b, i < j -> rs !! i = Some a -> rs !! j = Some b -> shown_before a b) /\
    (forall r p m, r ∈ rs -> (p, m) ∈ r_defined_by r -> place (o_names (l_order l)) host m p).
Proof.
  intros e inv hs gs l host d w hist Hs Hf Hi Hl Hd Hn Hh Hin.
  pose proof (load_accepted _ _ _ _ Hs Hl) as Ha.
  destruct (host_life e inv Hf l host d Hd Hn w hist Hin) as (ms & _ & Hw & _ & Hact & _).
  assert (HS : forall a, a ∈ s_early :: in_order l d ++ [host] -> a = host \/ a ∈ o_names (l_order l)).
  { intros a H. apply elem_of_cons in H as [->|H]; [right; apply (acc_names _ _ _ Ha); unfold group_exists; auto|].
    apply elem_of_app in H as [H|H]; [right|left; apply elem_of_list_singleton in H; exact H].
    unfold in_order in H. apply elem_of_list_In, filter_In in H as [H _]. apply elem_of_list_In. exact H. }
  unfold host_rows. set (order := o_names (l_order l)) in *.
  destruct (entries_spec order host hist _ HS Hact (vars_hierarchical w None)) as (en & Een & Fen & Men). rewrite Een. cbn [mbind result_bind].
  assert (Fs : Forall (fine_entry order host hist) (sort_entries en)) by (rewrite sort_entries_perm; exact Fen).
  destruct (rows_spec order host hist _ HS Hact _ Fs) as (rs & Ers & Frs). exists rs. split; [exact Ers|].
  assert (Hmap : List.map (fun r => (r_attr r, r_value r)) rs = List.map (fun en => (en_attr en, en_value en)) (sort_entries en)).
  { clear - Frs. induction Frs as [|a r la lr (H1 & H2 & _) H IH]; [reflexivity|]. cbn [List.map]. rewrite H1, H2, IH. reflexivity. }
  set (vs := List.filter (fun kv => negb (private kv.1 || is_module kv.2)) (vars_hierarchical w None)) in *.
  assert (Hperm : List.map (fun r => (r_attr r, r_value r)) rs ≡ₚ vs).
  { rewrite Hmap, <- Men. apply Permutation_map, sort_entries_perm. }
  assert (Hnd : NoDup (vars_hierarchical w None).*1) by (unfold vars_hierarchical; apply dupdate_nodup; constructor).
  assert (Hndv : NoDup vs.*1) by (apply filter_nodup, Hnd).
  split.
  { assert (E : List.map r_attr rs = (List.map (fun r => (r_attr r, r_value r)) rs).*1).
    { clear. induction rs as [|r rs IH]; [reflexivity|]. cbn. f_equal. exact IH. }
    rewrite E. eapply NoDup_Permutation_proper; [|exact Hndv]. apply Permutation_map, Hperm. }
  split.
  { intros x v Hx. rewrite own_vars by assumption.
    transitivity ((x, v) ∈ vs).
    - rewrite <- Hperm. rewrite elem_of_list_In, in_map_iff. split.
      + intros (r & Hr & <- & <-). exists r. split; [reflexivity|]. apply elem_of_list_In. exact Hr.
      + intros (r & E & Hr). injection E as <- <-. exists r. split; [apply elem_of_list_In; exact Hr|auto].
    - unfold vs. rewrite elem_of_list_In, filter_In, <- elem_of_list_In. cbn [fst snd]. rewrite negb_true_iff, orb_false_iff.
      assert (E : dget x (vars_hierarchical w None) = match dget x (vars w) with Some v => if normal_var x v then Some v else None | None => None end).
      { rewrite dget_hierarchical by (try exact Hw; discriminate). rewrite dget_filter by (apply vars_nodup, Hw). cbn [fst snd].
        destruct (dget x (vars w)) as [o|]; [|reflexivity]. destruct (normal_var x o); reflexivity. }
      split.
      + intros [H [P M]]. apply dget_in in H; [|exact Hnd]. rewrite E in H. destruct (dget x (vars w)) as [o|]; [|discriminate].
        destruct (normal_var x o); [|discriminate]. injection H as ->. auto.
      + intros (H & P & M). rewrite H in E. unfold normal_var in E. rewrite P, M in E. cbn in E. split; [apply dget_Some_in; exact E|auto]. }
  split.
  { intros i j a b Hij Ra Rb.
    destruct (Forall2_lookup_r _ _ _ _ _ Frs Ra) as (ea & La & (A1 & _ & _ & A4 & (ma & A5))).
    destruct (Forall2_lookup_r _ _ _ _ _ Frs Rb) as (eb & Lb & (B1 & _ & _ & B4 & (mb & B5))).
    pose proof (sorted_lookup _ (sort_entries_sorted en) i j ea eb Hij La Lb) as Hle. unfold le_entry, entry_leb in Hle.
    unfold shown_before. rewrite <- !declared_documented, A1, B1, <- A4, <- B4.
    destruct (en_declared ea), (en_declared eb); try discriminate.
    - right. split; [tauto|]. exists (en_prec ea), (en_prec eb), ma, mb. split; [exact A5|]. split; [exact B5|].
      apply orb_true_iff in Hle as [Hle|Hle]; [left; lia|]. apply andb_true_iff in Hle as [H1 H2]. right. split; [lia|].
      apply str_leb_alphabetical, H2.
    - left. split; [reflexivity|discriminate].
    - right. split; [split; discriminate|]. exists (en_prec ea), (en_prec eb), ma, mb. split; [exact A5|]. split; [exact B5|].
      apply orb_true_iff in Hle as [Hle|Hle]; [left; lia|]. apply andb_true_iff in Hle as [H1 H2]. right. split; [lia|].
      apply str_leb_alphabetical, H2. }
  intros r p m Hr Hpm. apply elem_of_list_lookup in Hr as [i Hr].
  destruct (Forall2_lookup_r _ _ _ _ _ Frs Hr) as (er & _ & (_ & _ & R3 & _)).
  destruct (defined_by_spec order host hist _ HS Hact (en_attr er) (en_value er)) as (r' & E' & _ & F').
  rewrite E' in R3. injection R3 as R3. rewrite R3 in Hpm. rewrite Forall_forall in F'. apply (precedence_place order host Hh). apply (F' _ Hpm).
Qed.
Print Assumptions C76_listed.

(** Full statement: [forall e inv hs gs l host d w hist, ... -> exists ms, life e inv l host d (in_order l d) w ms /\
      forall x rs r, host_var x -> host_rows (o_names (l_order l)) host hist w = Ok rs -> r ∈ rs -> r_attr r = x ->
        (r_defined_by r).*2 = authors x None [] ms].
    That is: the column "defined by" names the module that bound the variable last and those that modified it since.  It holds for
    variables that are not unbound again and whose first value is not None. *)
Theorem C76_authors_partial : forall e inv hs gs l host d w hist,
  set_ok e -> files_dict e -> wf inv -> load_decls e hs gs = Ok l -> dget host (l_hosts l) = Some d -> NoDup (lit "host" :: (hd_vars d).*1) ->
  host ∉ o_names (l_order l) -> instanciate_host e inv l host = Ok (w, hist) ->
  exists ms, life e inv l host d (List.filter (fun g => str_in g (hd_groups d)) (o_names (l_order l))) w ms /\
    forall x rs r, host_var x -> (forall v, dget x (hd_vars d) = Some v -> is_module v = false) -> steady x ms ->
      host_rows (o_names (l_order l)) host hist w = Ok rs -> r ∈ rs -> r_attr r = x ->
      (r_defined_by r).*2 = authors x None [] ms /\ authors x None [] ms <> [].
Proof.
  intros e inv hs gs l host d w hist Hs Hf Hi Hl Hd Hn Hh Hin.
  destruct (C76_listed e inv hs gs l host d w hist Hs Hf Hi Hl Hd Hn Hh Hin) as (rs0 & Ers & _ & Hin0 & _ & _).
  pose proof (load_accepted _ _ _ _ Hs Hl) as Ha.
  destruct (host_life e inv Hf l host d Hd Hn w hist Hin) as (ms & Hlife & Hw & _ & Hact & Hmat).
  assert (HS : forall a, a ∈ s_early :: in_order l d ++ [host] -> a = host \/ a ∈ o_names (l_order l)).
  { intros a H. apply elem_of_cons in H as [->|H]; [right; apply (acc_names _ _ _ Ha); unfold group_exists; auto|].
    apply elem_of_app in H as [H|H]; [right|left; apply elem_of_list_singleton in H; exact H].
    unfold in_order in H. apply elem_of_list_In, filter_In in H as [H _]. apply elem_of_list_In. exact H. }
  exists ms. split; [exact Hlife|]. intros x rs r Hx Hm Hst Er Hr Ex.
  specialize (Hmat x Hx Hm Hst). pose proof (proj1 Hx) as Hgx. pose proof (group_var_ne_module x Hgx) as Hxm.
  assert (Erow : Ok (r_defined_by r) = defined_by (o_names (l_order l)) host hist x (r_value r)).
  { clear - Er Hr Ex. unfold host_rows in Er. destruct (entries _ _ _ _) as [en|]; cbn [mbind result_bind] in Er; [|discriminate].
    revert rs Er Hr. induction (sort_entries en) as [|a la IH]; intros rs Er Hr; cbn [rows] in Er.
    - injection Er as <-. apply elem_of_nil in Hr. destruct Hr.
    - destruct (defined_by _ _ _ (en_attr a) (en_value a)) as [db|] eqn:Edb; cbn [mbind result_bind] in Er; [|discriminate].
      destruct (rows _ _ _ la) as [l'|]; cbn [mbind result_bind] in Er; [|discriminate]. injection Er as <-.
      apply elem_of_cons in Hr as [->|Hr]; [cbn [r_attr r_value r_defined_by] in *; subst x; symmetry; exact Edb|]. apply (IH l' eq_refl Hr). }
  assert (rs0 = rs) as -> by congruence.
  assert (Hown : own w x (r_value r) /\ private x = false /\ is_module (r_value r) = false).
  { apply (Hin0 x (r_value r) Hxm). exists r. auto. }
  destruct Hown as (Hown & Hp & Hmo). apply own_vars in Hown; [|exact Hw|exact Hxm].
  assert (Hex : dget x (exported host_cls w) = Some (r_value r)).
  { rewrite dget_exported, Hown by exact Hw. unfold is_exported. rewrite Hp, Hmo.
    destruct Hx as (_ & _ & Hx). rewrite elem_of_app in Hx.
    replace (str_in x (c_annot host_cls)) with false; [replace (str_in x (c_own host_cls)) with false; [reflexivity|]|]; symmetry; apply str_in_false.
    - intros H. cbn [c_own host_cls] in H. apply elem_of_app in H as [H|H]; [|tauto]. apply Hx. left. revert H. clear.
      rewrite !elem_of_list_In. cbn. tauto.
    - intros H. cbn [c_annot host_cls] in H. apply elem_of_app in H as [H|H]; [tauto|]. apply elem_of_list_singleton in H. rewrite H in Hp. vm_compute in Hp. discriminate Hp. }
  rewrite authors_fold.
  assert (Hs1 : (foldl (step x) (None, []) ms).1 = Some (r_value r)).
  { destruct Hlife as (ms0 & init & vs & _ & _ & Ev & ->). apply exported_ok in Ev. rewrite app_comm_cons, foldl_app. cbn [foldl].
    unfold step at 1. cbn [fst snd]. rewrite Ev, Hex. reflexivity. }
  unfold matches in Hmat. rewrite Hs1 in Hmat. destruct Hmat as (Hne & _ & Hcn).
  destruct (defined_by_spec _ host hist _ HS Hact x (r_value r)) as (r' & E' & N' & _). rewrite E' in Erow. injection Erow as ->.
  assert (Eact : actions host hist x (r_value r) = hx hist x).
  { unfold actions, hx in *. destruct (dget x hist); [reflexivity|congruence]. }
  rewrite N', Eact, Hcn. split; [reflexivity|]. rewrite <- Hcn. destruct (hx hist x) as [|s h _] using rev_ind; [congruence|].
  rewrite cn_snoc. destruct (sn_def s); [discriminate|]. intros K. apply app_eq_nil in K as [_ K]. discriminate.
Qed.
Print Assumptions C76_authors_partial.

(** ** Concrete inventories *)
Lemma ex_files_dict files : files_dict (ex_env files).
Proof.
  intros p f m m' Hf Hm Hn. cbn in Hf. destruct (dget p files) as [a|]; [|discriminate]. injection Hf as <-. apply Ok_inj in Hm. subst m'.
  apply dupdate_nodup, Hn.
Qed.
Definition c76_gs := Some [grp "p" [] []; grp "q" ["p"] []].
Definition c76_hs := [hst "h" ["p"; "q"] [(lit "s", int 6)]].
(** the group p binds [v] to None *)
Definition c76_none := [(gfile "p", [(lit "v", Obj 7 VNone)])].

(** the history of a host, computed *)
Fixpoint chain_of (e : env) (inv : wrapper) (groups : list (pystr * groupdecl)) (init : wrapper) (gs : list pystr) : option (moments * wrapper) :=
  match gs with
  | [] => Some ([], init)
  | g :: r =>
      match load_group e inv groups g (Some init) with
      | Ok w =>
          match exported_variables group_cls w, chain_of e inv groups w r with
          | Ok vs, Some (ms, final) => Some ((g, vs) :: ms, final)
          | _, _ => None
          end
      | Err _ => None
      end
  end.
Lemma chain_of_spec e inv groups gs : forall init ms final, chain_of e inv groups init gs = Some (ms, final) -> chain e inv groups init gs ms final.
Proof.
  induction gs as [|g r IH]; intros init ms final; cbn [chain_of]; [intros [= <- <-]; constructor|].
  destruct (load_group e inv groups g (Some init)) as [w|] eqn:E1; [|discriminate].
  destruct (exported_variables group_cls w) as [vs|] eqn:E2; [|discriminate].
  destruct (chain_of e inv groups w r) as [[ms' f']|] eqn:E3; [|discriminate]. intros [= <- <-]. econstructor; eauto.
Qed.
Definition life_of (e : env) (inv : wrapper) (l : loaded) (host : pystr) (d : hostdecl) (gs : list pystr) : option (moments * wrapper) :=
  match chain_of e inv (l_groups l) (early_wrapper e host d) gs with
  | Some (ms0, init) =>
      match load_host e (l_hosts l) host init with
      | Ok w =>
          match exported_variables host_cls w with
          | Ok vs => Some ((s_early, exported group_cls (early_wrapper e host d)) :: ms0 ++ [(host, vs)], w)
          | Err _ => None
          end
      | Err _ => None
      end
  | None => None
  end.
Lemma life_of_spec e inv l host d gs ms w : life_of e inv l host d gs = Some (ms, w) -> life e inv l host d gs w ms.
Proof.
  unfold life_of. destruct (chain_of _ _ _ _ _) as [[ms0 init]|] eqn:E1; [|discriminate].
  destruct (load_host _ _ _ _) as [w'|] eqn:E2; [|discriminate]. destruct (exported_variables host_cls w') as [vs|] eqn:E3; [|discriminate].
  intros [= <- <-]. exists ms0, init, vs. split; [apply chain_of_spec; exact E1|]. auto.
Qed.
Definition groups_of (l : loaded) (d : hostdecl) : list pystr := List.filter (fun g => str_in g (hd_groups d)) (o_names (l_order l)).
Definition moments_or (e : env) (l : loaded) (h : string) : moments :=
  match life_of e (ex_inv []) l (lit h) (decl_or l h) (groups_of l (decl_or l h)) with Some (ms, _) => ms | None => [] end.
Definition host_or (e : env) (l : loaded) (h : string) : wrapper * history :=
  match instanciate_host e (ex_inv []) l (lit h) with Ok r => r | Err _ => (Wrapper [] None, []) end.
Definition rows_or (e : env) (l : loaded) (h : string) : list row :=
  match host_rows (o_names (l_order l)) (lit h) (host_or e l h).2 (host_or e l h).1 with Ok rs => rs | Err _ => [] end.
Definition shown (rs : list row) (x : string) : list (pyval * list (Z * pystr)) :=
  List.map (fun r => (oval (r_value r), r_defined_by r)) (List.filter (fun r => str_eqb (r_attr r) (lit x)) rs).

(** ... and it is said that the host does. *)
Definition c76_l := load_or (ex_env c76_none) c76_hs c76_gs.
Theorem C76_authors_refuted : exists e inv hs gs l host d w hist,
  set_ok e /\ files_dict e /\ wf inv /\ load_decls e hs gs = Ok l /\ dget host (l_hosts l) = Some d /\ NoDup (lit "host" :: (hd_vars d).*1) /\
  host ∉ o_names (l_order l) /\ instanciate_host e inv l host = Ok (w, hist) /\
  exists ms x rs r, life e inv l host d (List.filter (fun g => str_in g (hd_groups d)) (o_names (l_order l))) w ms /\ host_var x /\
    host_rows (o_names (l_order l)) host hist w = Ok rs /\ r ∈ rs /\ r_attr r = x /\
    authors x None [] ms = [lit "p"] /\ (r_defined_by r).*2 = [host].
Proof.
  exists (ex_env c76_none), (ex_inv []), c76_hs, c76_gs, c76_l, (lit "h"), (decl_or c76_l "h"), (host_or (ex_env c76_none) c76_l "h").1, (host_or (ex_env c76_none) c76_l "h").2.
  split; [apply ex_set|]. split; [apply ex_files_dict|]. split; [apply ex_inv_ok|].
  split; [vm_compute; reflexivity|]. split; [vm_compute; reflexivity|].
  split; [apply (bool_decide_unpack _); vm_compute; exact I|]. split; [apply (bool_decide_unpack _); vm_compute; exact I|].
  split; [vm_compute; reflexivity|].
  exists (moments_or (ex_env c76_none) c76_l "h"), (lit "v"), (rows_or (ex_env c76_none) c76_l "h").
  destruct (List.find (fun r => str_eqb (r_attr r) (lit "v")) (rows_or (ex_env c76_none) c76_l "h")) as [r|] eqn:E; [|exfalso; revert E; vm_compute; discriminate].
  exists r. split; [apply life_of_spec; vm_compute; reflexivity|]. split; [|split; [vm_compute; reflexivity|]].
  { split; [apply group_varb_true; vm_compute; reflexivity|]. split; [vm_compute; discriminate|]. apply (bool_decide_unpack _). vm_compute. exact I. }
  split; [apply find_some in E as [E _]; apply elem_of_list_In; exact E|].
  split; [apply find_some in E as [_ E]; destruct (str_eqb_spec (r_attr r) (lit "v")); [assumption|discriminate]|].
  split; [vm_compute; reflexivity|]. vm_compute in E. injection E as <-. vm_compute. reflexivity.
Qed.
Print Assumptions C76_authors_refuted.

(** A host of two groups: both set [v], p sets [u], the declaration sets [s] and the file of the host sets [t]. *)
Definition c76_files := [(gfile "p", [(lit "v", int 1); (lit "u", int 3)]); (gfile "q", [(lit "v", int 2)]);
                         (lit "/inv/hosts/h.py", [(lit "t", int 5); (lit "_x", int 8)])].
Definition c76_e := ex_env c76_files.
Definition c76_m := load_or c76_e c76_hs c76_gs.
Definition steadyb (x : pystr) : moments -> bool :=
  fix go l := match l with
              | [] => true
              | (m, vs) :: r =>
                  match dget x vs with
                  | None => go r
                  | Some v => negb (bool_decide (oval v = VNone)) && forallb (fun mv => match dget x mv.2 with Some _ => true | None => false end) r
                  end
              end.
Lemma steadyb_ok x l : steadyb x l = true -> steady x l.
Proof.
  induction l as [|[m vs] r IH]; cbn [steadyb].
  - intros _. exists [], []. split; [reflexivity|]. split; [intros ? ? H; apply elem_of_nil in H; destruct H|].
    split; [intros ? ? H; apply elem_of_nil in H; destruct H|]. discriminate.
  - destruct (dget x vs) as [v|] eqn:E.
    + intros H. apply andb_true_iff in H as [H1 H2]. exists [], ((m, vs) :: r). split; [reflexivity|].
      split; [intros ? ? H; apply elem_of_nil in H; destruct H|]. split.
      * intros m' vs' H. apply elem_of_cons in H as [[= -> ->]|H]; [eauto|]. rewrite forallb_forall in H2. apply elem_of_list_In, H2 in H.
        cbn [snd] in H. destruct (dget x vs'); [eauto|discriminate].
      * intros m' vs' v' [= <- <-] Hv. assert (v' = v) as -> by congruence. apply negb_true_iff in H1. intros K. rewrite bool_decide_eq_false in H1. auto.
    + intros H. destruct (IH H) as (pre & post & -> & H1 & H2 & H3). exists ((m, vs) :: pre), post. split; [reflexivity|]. split; [|auto].
      intros m' vs' K. apply elem_of_cons in K as [[= -> ->]|K]; [exact E|eauto].
Qed.
Example C76_case :
  set_ok c76_e /\ files_dict c76_e /\ wf (ex_inv []) /\ load_decls c76_e c76_hs c76_gs = Ok c76_m /\
  dget (lit "h") (l_hosts c76_m) = Some (decl_or c76_m "h") /\ NoDup (lit "host" :: (hd_vars (decl_or c76_m "h")).*1) /\
  lit "h" ∉ o_names (l_order c76_m) /\ instanciate_host c76_e (ex_inv []) c76_m (lit "h") = Ok (host_or c76_e c76_m "h") /\
  life c76_e (ex_inv []) c76_m (lit "h") (decl_or c76_m "h") (groups_of c76_m (decl_or c76_m "h")) (host_or c76_e c76_m "h").1 (moments_or c76_e c76_m "h") /\
  Forall (fun x => host_var (lit x) /\ steady (lit x) (moments_or c76_e c76_m "h")) ["v"; "u"; "s"; "t"]%string /\
  List.map (shown (rows_or c76_e c76_m "h")) ["u"; "v"; "s"; "t"; "_x"]%string =
    [[(VInt 3, [(2%Z, lit "p")])]; [(VInt 2, [(3%Z, lit "q")])]; [(VInt 6, [(0%Z, s_early)])]; [(VInt 5, [(4%Z, lit "h")])]; []].
Proof.
  split; [apply ex_set|]. split; [apply ex_files_dict|]. split; [apply ex_inv_ok|].
  split; [vm_compute; reflexivity|]. split; [vm_compute; reflexivity|].
  split; [apply (bool_decide_unpack _); vm_compute; exact I|]. split; [apply (bool_decide_unpack _); vm_compute; exact I|].
  split; [vm_compute; reflexivity|]. split; [apply life_of_spec; vm_compute; reflexivity|].
  split; [|vm_compute; reflexivity].
  repeat constructor; try (apply group_varb_true; vm_compute; reflexivity); try (vm_compute; discriminate);
    try (apply (bool_decide_unpack _); vm_compute; exact I); apply steadyb_ok; vm_compute; reflexivity.
Qed.
