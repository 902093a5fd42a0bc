(** Group order. *)
From Coq Require Import Lia ZifyBool ZifyNat.
From Verif Require Import Base Urls Wrapper Ranks Spec_Ranks Ranks_proofs Dict_proofs Inventory Spec_Inventory.

(** ** Sorting *)
Section sort.
  Variable key : pystr -> Z.
  Fixpoint sorted (l : list pystr) : Prop :=
    match l with [] => True | x :: r => (forall y, y ∈ r -> (key x <= key y)%Z) /\ sorted r end.

  Lemma insert_perm x l : insert_by key x l ≡ₚ x :: l.
  Proof.
    induction l as [|y l IH]; cbn; [reflexivity|]. destruct (key x <=? key y)%Z; [reflexivity|].
    rewrite IH. apply Permutation_swap.
  Qed.
  Lemma sort_perm l : sort_by key l ≡ₚ l.
  Proof. induction l as [|x l IH]; cbn; [reflexivity|]. rewrite insert_perm. f_equiv. exact IH. Qed.
  Lemma insert_sorted x l : sorted l -> sorted (insert_by key x l).
  Proof.
    induction l as [|y l IH]; cbn.
    - intros _. split; [|exact I]. intros y Hy. inversion Hy.
    - intros [Hy Hs]. destruct (Z.leb_spec (key x) (key y)) as [Hle|Hgt]; cbn.
      + split; [|auto]. intros z [->|Hz]%elem_of_cons; [assumption|]. specialize (Hy z Hz). lia.
      + split; [|auto]. intros z Hz. rewrite insert_perm in Hz. apply elem_of_cons in Hz as [->|Hz]; [lia|auto].
  Qed.
  Lemma sort_sorted l : sorted (sort_by key l).
  Proof. induction l as [|x l IH]; cbn; [exact I|]. apply insert_sorted, IH. Qed.
  Lemma sorted_precedes l u v : sorted l -> u ∈ l -> v ∈ l -> (key u < key v)%Z -> precedes l u v.
  Proof.
    induction l as [|x l IH]; cbn; intros Hss Hu Hv Hlt; [inversion Hu|]. destruct Hss as [Hx Hs].
    apply elem_of_cons in Hu as [->|Hu]; apply elem_of_cons in Hv as [->|Hv].
    - lia.
    - apply elem_of_list_split in Hv as (l2 & l3 & ->). exists [], l2, l3. reflexivity.
    - specialize (Hx u Hu). lia.
    - destruct (IH Hs Hu Hv Hlt) as (l1 & l2 & l3 & ->). exists (x :: l1), l2, l3. reflexivity.
  Qed.
End sort.

(** ** Reversed graphs *)
Section reverse.
  Context {T : Type} (vs : list T) (preds childs : T -> list T).
  Hypothesis Hg : graph_of vs preds childs.

  Lemma graph_of_sym : graph_of vs childs preds.
  Proof.
    destruct Hg as (H1 & H2 & H3). split_and!; [|intros u v Hv Hu; eapply H1; eauto|].
    - intros u v Hu Hv. eapply H2; eauto.
    - intros u v Hu Hv. symmetry. apply H3; assumption.
  Qed.
  Lemma edge_rev u v : edge_of vs preds u v <-> edge_of vs childs v u.
  Proof.
    destruct Hg as (H1 & H2 & H3). unfold edge_of. split; intros [Hu Hv].
    - assert (v ∈ vs) by eauto. split; [assumption|]. apply H3; assumption.
    - assert (v ∈ vs) by eauto. assert (u ∈ vs) by eauto. split; [assumption|]. apply H3; assumption.
  Qed.
  Lemma path_rev u n v : path (edge_of vs preds) u n v <-> path (edge_of vs childs) v n u.
  Proof.
    split.
    - induction 1 as [|u w v n He Hp IH]; [constructor|]. apply edge_rev in He. eapply path_snoc; eassumption.
    - induction 1 as [|u w v n He Hp IH]; [constructor|]. apply edge_rev in He. eapply path_snoc; eassumption.
  Qed.
  Lemma depth_rev v n : depth (edge_of vs preds) v n <-> height (edge_of vs childs) v n.
  Proof. unfold depth, height. setoid_rewrite path_rev. reflexivity. Qed.
  Lemma cyclic_rev : cyclic (edge_of vs preds) <-> cyclic (edge_of vs childs).
  Proof. unfold cyclic. setoid_rewrite path_rev. reflexivity. Qed.
End reverse.

Lemma max_rank_ge r names v : v ∈ names -> (r v <= max_rank r names)%Z.
Proof.
  unfold max_rank. induction names as [|x l IH]; intros H; [inversion H|]. cbn.
  apply elem_of_cons in H as [->|H]; [lia|]. specialize (IH H). lia.
Qed.
Lemma max_rank_attained r names : names <> [] -> (forall v, v ∈ names -> (0 <= r v)%Z) ->
  exists v, v ∈ names /\ max_rank r names = r v.
Proof.
  intros Hn Hr. induction names as [|x l IH]; [congruence|]. cbn. destruct l as [|y l].
  - exists x. cbn. split; [left|]. specialize (Hr x ltac:(left)). lia.
  - destruct IH as (v & Hv & E); [discriminate|intros; apply Hr; right; assumption|].
    unfold max_rank in E |- *. cbn in E |- *. rewrite E. destruct (Z.max_spec (r x) (r v)) as [[_ ->]|[_ ->]].
    + exists v. split; [right; assumption|reflexivity].
    + exists x. split; [left|reflexivity].
Qed.

(** ** The order of a graph *)
Section order.
  Variable G : list (pystr * groupdecl).
  Notation names := (G.*1).
  Notation dep := (edge_of names (befores G)).
  Hypothesis Hg : graph_of names (afters G) (befores G).
  Hypothesis Hne : names <> [].

  Lemma order_spec :
    match topological_order G with
    | Ok o =>
        ~ cyclic dep /\ o_names o ≡ₚ names /\ sorted (o_min o) (o_names o) /\
        (forall v, v ∈ names -> exists n, o_min o v = Z.of_nat n /\ depth dep v n) /\
        exists N, longest dep N /\ forall v, v ∈ names -> exists h, height dep v h /\ (o_max o v = Z.of_nat N - Z.of_nat h)%Z
    | Err e => cyclic dep /\ exists m, e = ValueError m
    end.
  Proof.
    unfold topological_order, ranks.
    pose proof (rank_sort_spec names (afters G) (befores G) Hg) as Ht.
    destruct (rank_sort names (afters G) (befores G)) as [rt|c| |]; try contradiction; cbn.
    2: { split; [assumption|eauto]. }
    pose proof (rank_sort_spec names (befores G) (afters G) (graph_of_sym _ _ _ Hg)) as Hb.
    destruct (rank_sort names (befores G) (afters G)) as [rb|c| |]; try contradiction; cbn.
    2: { split; [apply (cyclic_rev _ _ _ Hg); assumption|eauto]. }
    destruct Ht as [Hac Ht], Hb as [_ Hb].
    assert (Hb' : forall v, v ∈ names -> exists n, rb v = Z.of_nat n /\ height dep v n).
    { intros v Hv. destruct (Hb v Hv) as (n & E & Hd). exists n. split; [assumption|]. apply (depth_rev _ _ _ Hg). exact Hd. }
    clear Hb. rename Hb' into Hb.
    destruct (max_rank_attained rt names Hne) as (x & Hx & Ex).
    { intros v Hv. destruct (Ht v Hv) as (n & -> & _). lia. }
    destruct (max_rank_attained rb names Hne) as (y & Hy & Ey).
    { intros v Hv. destruct (Hb v Hv) as (n & -> & _). lia. }
    assert (Hpt : forall u m v, path dep u m v -> (Z.of_nat m <= max_rank rt names)%Z).
    { intros u m v Hp. destruct m as [|m].
      - rewrite Ex. destruct (Ht x Hx) as (n & -> & _). lia.
      - assert (Hv : v ∈ names).
        { apply path_last in Hp as (w & _ & [Hw Hvw]). destruct Hg as (H1 & _ & _). eauto. }
        destruct (Ht v Hv) as (n & En & [_ Hd]). pose proof (Hd _ _ Hp). pose proof (max_rank_ge rt names v Hv). lia. }
    assert (Hpb : forall u m v, path dep u m v -> (Z.of_nat m <= max_rank rb names)%Z).
    { intros u m v Hp. destruct m as [|m].
      - rewrite Ey. destruct (Hb y Hy) as (n & -> & _). lia.
      - assert (Hu : u ∈ names) by (inversion Hp as [|? ? ? ? [? ?] ?]; subst; assumption).
        destruct (Hb u Hu) as (n & En & [_ Hd]). pose proof (Hd _ _ Hp). pose proof (max_rank_ge rb names u Hu). lia. }
    destruct (Ht x Hx) as (nx & Enx & [[ux Hux] _]). destruct (Hb y Hy) as (ny & Eny & [[vy Hvy] _]).
    pose proof (Hpb _ _ _ Hux). pose proof (Hpt _ _ _ Hvy).
    assert (E : max_rank rt names = max_rank rb names) by lia.
    rewrite E, Z.eqb_refl. cbn. split_and!.
    - assumption.
    - apply sort_perm.
    - apply sort_sorted.
    - assumption.
    - exists ny. split.
      + split; [eauto|]. intros u v m Hp. apply Hpb in Hp. lia.
      + intros v Hv. destruct (Hb v Hv) as (n & En & Hh). exists n. split; [assumption|]. lia.
  Qed.
End order.

(** ** The dictionary of groups *)
Section groups.
  Variable e : env.
  Hypothesis Hset : set_ok e.
  Implicit Types G : list (pystr * groupdecl).

  Definition wfG G : Prop := NoDup G.*1 /\ forall k d, (k, d) ∈ G -> gd_name d = k.

  Lemma in_set x l : x ∈ e_set e l <-> x ∈ l.
  Proof. apply Hset. Qed.

  (** preprocessing *)
  Definition spec_decl (s : groupspec) : option groupdecl :=
    match s with GStr n => Some (GroupDecl n None [] []) | GDecl d => Some d | _ => None end.
  Definition norm (d : groupdecl) : pystr * groupdecl :=
    (gd_name d, GroupDecl (gd_name d) (gd_file d)
       (e_set e (gd_after d ++ (if str_eqb (gd_name d) s_all then [] else [s_all]))) (e_set e (gd_before d))).

  Lemma dset_absent {V} k (v : V) d : k ∉ d.*1 -> dset k v d = d ++ [(k, v)].
  Proof.
    induction d as [|[k' v'] d IH]; intros H; cbn; [reflexivity|]. cbn in H. rewrite elem_of_cons in H.
    rewrite (proj2 (str_eqb_false k k')) by tauto. f_equal. apply IH. tauto.
  Qed.

  Lemma preprocess_list_ok l : forall G G', preprocess_group_list e G l = Ok G' ->
    exists ds, List.map spec_decl l = List.map Some ds /\ G' = G ++ List.map norm ds /\ (NoDup G.*1 -> NoDup G'.*1).
  Proof.
    induction l as [|s l IH]; intros G G' H; cbn in H.
    { injection H as <-. exists []. cbn. rewrite app_nil_r. auto. }
    unfold preprocess_group in H. destruct s as [n|d| |]; cbn in H; try discriminate.
    all: destruct (dhas _ G) eqn:Eh; cbn in H; [discriminate|]; apply dhas_false in Eh.
    all: apply IH in H as (ds & E1 & -> & Hnd).
    - exists (GroupDecl n None [] [] :: ds). split_and!; [cbn; congruence| |].
      + rewrite dset_absent by assumption. rewrite <- (assoc_L app). reflexivity.
      + intros Hn. apply Hnd, dset_nodup, Hn.
    - exists (d :: ds). split_and!; [cbn; congruence| |].
      + rewrite dset_absent by assumption. rewrite <- (assoc_L app). reflexivity.
      + intros Hn. apply Hnd, dset_nodup, Hn.
  Qed.
  Lemma preprocess_list_complete l ds : forall G, List.map spec_decl l = List.map Some ds ->
    NoDup (G.*1 ++ List.map gd_name ds) -> preprocess_group_list e G l = Ok (G ++ List.map norm ds).
  Proof.
    revert ds. induction l as [|s l IH]; intros [|d ds] G E Hn; cbn in E; try discriminate; cbn.
    { rewrite app_nil_r. reflexivity. }
    injection E as E1 E2.
    assert (Hd : gd_name d ∉ G.*1).
    { apply NoDup_app in Hn as (_ & Hn & _). intros Hin. apply (Hn _ Hin). left. }
    assert (Hstep : preprocess_group e G s = Ok (G ++ [norm d])).
    { unfold preprocess_group. destruct s as [n|d'| |]; cbn in E1; try discriminate; injection E1 as <-; cbn.
      all: rewrite (proj2 (dhas_false _ G)) by assumption; rewrite dset_absent by assumption; reflexivity. }
    rewrite Hstep. cbn. rewrite (IH ds); [|assumption|].
    - rewrite <- (assoc_L app). reflexivity.
    - rewrite fmap_app. cbn. rewrite <- (assoc_L app). exact Hn.
  Qed.

  Lemma norm_keys ds : (List.map norm ds).*1 = List.map gd_name ds.
  Proof. induction ds as [|d ds IH]; cbn; [reflexivity|]. f_equal. exact IH. Qed.

  (** merging *)
  Definition grows_after (P : pystr -> pystr -> Prop) G G' : Prop :=
    G'.*1 = G.*1 /\ forall g d', dget g G' = Some d' -> exists d, dget g G = Some d /\ gd_name d' = gd_name d /\
      gd_file d' = gd_file d /\ gd_before d' = gd_before d /\ forall y, y ∈ gd_after d' <-> y ∈ gd_after d \/ P g y.
  Definition grows_before (P : pystr -> pystr -> Prop) G G' : Prop :=
    G'.*1 = G.*1 /\ forall g d', dget g G' = Some d' -> exists d, dget g G = Some d /\ gd_name d' = gd_name d /\
      gd_file d' = gd_file d /\ gd_after d' = gd_after d /\ forall y, y ∈ gd_before d' <-> y ∈ gd_before d \/ P g y.

  Lemma grows_after_trans P Q G1 G2 G3 : grows_after P G1 G2 -> grows_after Q G2 G3 ->
    grows_after (fun g y => P g y \/ Q g y) G1 G3.
  Proof.
    intros [K1 H1] [K2 H2]. split; [congruence|]. intros g d3 E3.
    destruct (H2 _ _ E3) as (d2 & E2 & ? & ? & ? & A2). destruct (H1 _ _ E2) as (d1 & E1 & ? & ? & ? & A1).
    exists d1. split_and!; try congruence. intros y. rewrite A2, A1. tauto.
  Qed.
  Lemma grows_before_trans P Q G1 G2 G3 : grows_before P G1 G2 -> grows_before Q G2 G3 ->
    grows_before (fun g y => P g y \/ Q g y) G1 G3.
  Proof.
    intros [K1 H1] [K2 H2]. split; [congruence|]. intros g d3 E3.
    destruct (H2 _ _ E3) as (d2 & E2 & ? & ? & ? & A2). destruct (H1 _ _ E2) as (d1 & E1 & ? & ? & ? & A1).
    exists d1. split_and!; try congruence. intros y. rewrite A2, A1. tauto.
  Qed.
  Lemma grows_after_equiv P Q G G' : (forall g y, P g y <-> Q g y) -> grows_after P G G' -> grows_after Q G G'.
  Proof.
    intros HPQ [K H]. split; [assumption|]. intros g d' E. destruct (H _ _ E) as (d & ? & ? & ? & ? & A).
    exists d. split_and!; try assumption. intros y. rewrite <- HPQ. apply A.
  Qed.
  Lemma grows_before_equiv P Q G G' : (forall g y, P g y <-> Q g y) -> grows_before P G G' -> grows_before Q G G'.
  Proof.
    intros HPQ [K H]. split; [assumption|]. intros g d' E. destruct (H _ _ E) as (d & ? & ? & ? & ? & A).
    exists d. split_and!; try assumption. intros y. rewrite <- HPQ. apply A.
  Qed.
  Lemma dget_map_keys (f : pystr * groupdecl -> groupdecl) G g :
    dget g (List.map (fun kd => (kd.1, f kd)) G) = (fun d => f (g, d)) <$> dget g G.
  Proof.
    induction G as [|[k d] G IH]; cbn; [reflexivity|]. destruct (str_eqb_spec g k) as [->|]; [reflexivity|exact IH].
  Qed.
  Lemma map_keys (f : pystr * groupdecl -> groupdecl) G : (List.map (fun kd => (kd.1, f kd)) G).*1 = G.*1.
  Proof. induction G as [|[k d] G IH]; cbn; [reflexivity|]. f_equal. exact IH. Qed.

  Lemma add_after_map b x G : add_after b x G = List.map (fun kd => (kd.1,
    if str_eqb kd.1 b then GroupDecl (gd_name kd.2) (gd_file kd.2) (gd_after kd.2 ++ [x]) (gd_before kd.2) else kd.2)) G.
  Proof. apply List.map_ext. intros [k d]. cbn. destruct (str_eqb k b); reflexivity. Qed.
  Lemma add_before_map b x G : add_before b x G = List.map (fun kd => (kd.1,
    if str_eqb kd.1 b then GroupDecl (gd_name kd.2) (gd_file kd.2) (gd_after kd.2) (gd_before kd.2 ++ [x]) else kd.2)) G.
  Proof. apply List.map_ext. intros [k d]. cbn. destruct (str_eqb k b); reflexivity. Qed.

  Lemma add_after_grows b x G : grows_after (fun g y => g = b /\ y = x) G (add_after b x G).
  Proof.
    rewrite add_after_map. split; [apply (map_keys (fun kd => if str_eqb kd.1 b then _ else kd.2))|].
    intros g d' E. rewrite (dget_map_keys (fun kd => if str_eqb kd.1 b then _ else kd.2)) in E. cbn [fst snd] in E.
    destruct (dget g G) as [d|]; cbn in E; [|discriminate]. injection E as <-. exists d. split; [reflexivity|].
    destruct (str_eqb_spec g b) as [->|Hne]; cbn; split_and!; try reflexivity; intros y.
    - rewrite elem_of_app, elem_of_list_singleton. tauto.
    - tauto.
  Qed.
  Lemma add_before_grows b x G : grows_before (fun g y => g = b /\ y = x) G (add_before b x G).
  Proof.
    rewrite add_before_map. split; [apply (map_keys (fun kd => if str_eqb kd.1 b then _ else kd.2))|].
    intros g d' E. rewrite (dget_map_keys (fun kd => if str_eqb kd.1 b then _ else kd.2)) in E. cbn [fst snd] in E.
    destruct (dget g G) as [d|]; cbn in E; [|discriminate]. injection E as <-. exists d. split; [reflexivity|].
    destruct (str_eqb_spec g b) as [->|Hne]; cbn; split_and!; try reflexivity; intros y.
    - rewrite elem_of_app, elem_of_list_singleton. tauto.
    - tauto.
  Qed.
  Lemma grows_after_refl G : grows_after (fun _ _ => False) G G.
  Proof. split; [reflexivity|]. intros g d E. exists d. split_and!; try reflexivity; [assumption|tauto]. Qed.
  Lemma grows_before_refl G : grows_before (fun _ _ => False) G G.
  Proof. split; [reflexivity|]. intros g d E. exists d. split_and!; try reflexivity; [assumption|tauto]. Qed.

  Lemma fold_after x bs : forall G, grows_after (fun g y => g ∈ bs /\ y = x) G (foldl (fun acc b => add_after b x acc) G bs).
  Proof.
    induction bs as [|b bs IH]; intros G; cbn [foldl].
    - eapply grows_after_equiv; [|apply grows_after_refl]. intros g y. split; [tauto|]. intros [H _]. inversion H.
    - eapply grows_after_equiv; [|eapply grows_after_trans; [apply add_after_grows|apply IH]].
      intros g y. cbn. rewrite elem_of_cons. tauto.
  Qed.
  Lemma fold_before x bs : forall G, grows_before (fun g y => g ∈ bs /\ y = x) G (foldl (fun acc b => add_before b x acc) G bs).
  Proof.
    induction bs as [|b bs IH]; intros G; cbn [foldl].
    - eapply grows_before_equiv; [|apply grows_before_refl]. intros g y. split; [tauto|]. intros [H _]. inversion H.
    - eapply grows_before_equiv; [|eapply grows_before_trans; [apply add_before_grows|apply IH]].
      intros g y. cbn. rewrite elem_of_cons. tauto.
  Qed.
  Lemma merge1_grows_gen (L : list (pystr * groupdecl)) : forall G, grows_after (fun g y => exists kd, kd ∈ L /\ g ∈ gd_before kd.2 /\ y = gd_name kd.2) G
    (foldl (fun acc kd => foldl (fun acc b => add_after b (gd_name kd.2) acc) acc (gd_before kd.2)) G L).
  Proof.
    induction L as [|kd L IH]; intros G; cbn [foldl].
    - eapply grows_after_equiv; [|apply grows_after_refl]. intros g y. split; [tauto|]. intros (kd & H & _). inversion H.
    - eapply grows_after_equiv; [|eapply grows_after_trans; [apply fold_after|apply IH]].
      intros g y. cbn. setoid_rewrite elem_of_cons. split.
      + intros [[? ?]|(kd' & ? & ? & ?)]; [exists kd; auto|exists kd'; auto].
      + intros (kd' & [->|?] & ? & ?); [left; auto|right; exists kd'; auto].
  Qed.
  Lemma merge3_grows_gen (L : list (pystr * groupdecl)) : forall G, grows_before (fun g y => exists kd, kd ∈ L /\ g ∈ gd_after kd.2 /\ y = gd_name kd.2) G
    (foldl (fun acc kd => foldl (fun acc b => add_before b (gd_name kd.2) acc) acc (gd_after kd.2)) G L).
  Proof.
    induction L as [|kd L IH]; intros G; cbn [foldl].
    - eapply grows_before_equiv; [|apply grows_before_refl]. intros g y. split; [tauto|]. intros (kd & H & _). inversion H.
    - eapply grows_before_equiv; [|eapply grows_before_trans; [apply fold_before|apply IH]].
      intros g y. cbn. setoid_rewrite elem_of_cons. split.
      + intros [[? ?]|(kd' & ? & ? & ?)]; [exists kd; auto|exists kd'; auto].
      + intros (kd' & [->|?] & ? & ?); [left; auto|right; exists kd'; auto].
  Qed.

  (** who comes after whom, before merging *)
  Definition pre_after G (v u : pystr) : Prop :=
    (exists d, dget v G = Some d /\ u ∈ gd_after d) \/ (exists d, dget u G = Some d /\ v ∈ gd_before d).

  Lemma kd_in G kd : wfG G -> kd ∈ G <-> dget (gd_name kd.2) G = Some kd.2 /\ kd.1 = gd_name kd.2.
  Proof.
    intros [Hn Hk]. destruct kd as [k d]. cbn. split.
    - intros H. rewrite (Hk _ _ H). split; [apply dget_in; [assumption|exact H]|reflexivity].
    - intros [H ->]. apply dget_Some_in in H. exact H.
  Qed.

  Lemma merge_spec G : wfG G ->
    let M := merge_dependencies e G in
    M.*1 = G.*1 /\
    forall g d', dget g M = Some d' -> exists d, dget g G = Some d /\ gd_name d' = g /\ gd_file d' = gd_file d /\
      (forall u, u ∈ gd_after d' <-> pre_after G g u) /\
      (forall v, v ∈ gd_before d' <-> v ∈ G.*1 /\ pre_after G v g).
  Proof.
    intros Hwf. cbn zeta.
    pose proof (merge1_grows_gen G G) as [K1 H1]. fold (merge1 G) in K1, H1.
    set (G2 := merge2 e (merge1 G)).
    assert (K2 : G2.*1 = G.*1).
    { unfold G2, merge2. rewrite (map_keys (fun kd => GroupDecl _ _ _ _)). exact K1. }
    assert (H2 : forall g d', dget g G2 = Some d' -> exists d, dget g G = Some d /\ gd_name d' = gd_name d /\ gd_file d' = gd_file d /\
       gd_before d' = [] /\ forall u, u ∈ gd_after d' <-> pre_after G g u).
    { intros g d' E. unfold G2, merge2 in E. rewrite (dget_map_keys (fun kd => GroupDecl _ _ _ _)) in E. cbn [fst snd] in E.
      destruct (dget g (merge1 G)) as [d1|] eqn:E1; cbn in E; [|discriminate]. injection E as <-. cbn.
      destruct (H1 _ _ E1) as (d & Ed & ? & ? & ? & A). exists d. split_and!; try assumption; try reflexivity.
      intros u. rewrite in_set, A. unfold pre_after. split.
      - intros [Hu|(kd & Hkd & Hg & ->)]; [left; eauto|]. right. exists kd.2. split; [apply kd_in; assumption|assumption].
      - intros [(d0 & Hd0 & Hu)|(d0 & Hd0 & Hu)]; [left; congruence|]. right. exists (u, d0).
        assert (Hin : (u, d0) ∈ G) by (apply dget_Some_in; exact Hd0).
        split_and!; [exact Hin|exact Hu|]. cbn. symmetry. apply Hwf. exact Hin. }
    assert (Hwf2 : wfG G2).
    { split; [rewrite K2; apply Hwf|]. intros k d' Hin. apply dget_in in Hin; [|rewrite K2; apply Hwf].
      destruct (H2 _ _ Hin) as (d & Ed & -> & _). apply dget_Some_in in Ed. apply Hwf. exact Ed. }
    pose proof (merge3_grows_gen G2 G2) as [K3 H3]. fold (merge3 G2) in K3, H3.
    unfold merge_dependencies. fold G2. split.
    { unfold merge4. rewrite (map_keys (fun kd => GroupDecl _ _ _ _)). congruence. }
    intros g d' E. unfold merge4 in E. rewrite (dget_map_keys (fun kd => GroupDecl _ _ _ _)) in E. cbn [fst snd] in E.
    destruct (dget g (merge3 G2)) as [d3|] eqn:E3; cbn in E; [|discriminate]. injection E as <-. cbn.
    destruct (H3 _ _ E3) as (d2 & Ed2 & N3 & F3 & A3 & B3). destruct (H2 _ _ Ed2) as (d & Ed & N2 & F2 & B2 & A2).
    exists d. split_and!; [assumption| |congruence| |].
    - rewrite N3, N2. apply Hwf. apply dget_Some_in. exact Ed.
    - intros u. rewrite A3. apply A2.
    - intros v. rewrite in_set, B3, B2. split.
      + intros [H|(kd & Hkd & Hg & ->)]; [inversion H|]. apply (kd_in G2 kd Hwf2) in Hkd as [Hkd _].
        destruct (H2 _ _ Hkd) as (d0 & Ed0 & _ & _ & _ & A). split; [|apply A; exact Hg].
        apply dget_is_Some. eauto.
      + intros [Hv Hp]. right. rewrite <- K2 in Hv. apply dget_is_Some in Hv as [d0 Hd0]. exists (v, d0).
        destruct (H2 _ _ Hd0) as (d1 & Ed1 & N & _ & _ & A). split_and!; [apply dget_Some_in; exact Hd0|apply A; exact Hp|].
        cbn. symmetry. apply Hwf2. apply dget_Some_in. exact Hd0.
  Qed.

  Lemma afters_merge G v u : wfG G -> v ∈ G.*1 -> u ∈ afters (merge_dependencies e G) v <-> pre_after G v u.
  Proof.
    intros Hwf Hv. destruct (merge_spec G Hwf) as [K H]. unfold afters.
    destruct (dget v (merge_dependencies e G)) as [d'|] eqn:E.
    - destruct (H _ _ E) as (d & _ & _ & _ & A & _). apply A.
    - apply dget_None in E. rewrite K in E. contradiction.
  Qed.
  Lemma befores_merge G u v : wfG G -> u ∈ G.*1 -> v ∈ befores (merge_dependencies e G) u <-> v ∈ G.*1 /\ pre_after G v u.
  Proof.
    intros Hwf Hv. destruct (merge_spec G Hwf) as [K H]. unfold befores.
    destruct (dget u (merge_dependencies e G)) as [d'|] eqn:E.
    - destruct (H _ _ E) as (d & _ & _ & _ & _ & B). apply B.
    - apply dget_None in E. rewrite K in E. contradiction.
  Qed.
  Definition closedG G : Prop := forall k d x, (k, d) ∈ G -> x ∈ gd_after d \/ x ∈ gd_before d -> x ∈ G.*1.
  Lemma pre_after_closed G v u : closedG G -> pre_after G v u -> u ∈ G.*1 /\ v ∈ G.*1.
  Proof.
    intros Hc [(d & E & Hu)|(d & E & Hu)].
    - split; [eapply Hc; [apply dget_Some_in; exact E|auto]|apply dget_is_Some; eauto].
    - split; [apply dget_is_Some; eauto|eapply Hc; [apply dget_Some_in; exact E|auto]].
  Qed.
  Lemma merge_graph G : wfG G -> closedG G ->
    graph_of (merge_dependencies e G).*1 (afters (merge_dependencies e G)) (befores (merge_dependencies e G)).
  Proof.
    intros Hwf Hc. destruct (merge_spec G Hwf) as [K _]. rewrite K. split_and!.
    - intros u v Hu Hv. apply befores_merge in Hv; tauto.
    - intros u v Hv Hu. apply afters_merge in Hu; [|assumption..]. apply (pre_after_closed G v u Hc Hu).
    - intros u v Hu Hv. rewrite befores_merge, afters_merge by assumption. tauto.
  Qed.
  Lemma merge_edge G u v : wfG G -> closedG G ->
    edge_of (merge_dependencies e G).*1 (befores (merge_dependencies e G)) u v <-> pre_after G v u.
  Proof.
    intros Hwf Hc. destruct (merge_spec G Hwf) as [K _]. unfold edge_of. rewrite K. split.
    - intros [Hu Hv]. apply befores_merge in Hv; tauto.
    - intros H. destruct (pre_after_closed G v u Hc H). rewrite befores_merge by assumption. tauto.
  Qed.

  (** checks *)
  Lemma all_declared_ok G l msg : all_declared G l msg = Ok tt <-> forall x, x ∈ l -> x ∈ G.*1.
  Proof.
    induction l as [|x l IH]; cbn.
    - split; [|reflexivity]. intros _ x H. inversion H.
    - setoid_rewrite elem_of_cons. destruct (dhas x G) eqn:E.
      + apply dhas_true in E. rewrite IH. split; [intros H y [->|Hy]; auto|auto].
      + apply dhas_false in E. split; [discriminate|]. intros H. exfalso. apply E. auto.
  Qed.
  Lemma check_hosts_ok G hosts : check_hosts G hosts = Ok tt <-> forall n h g, (n, h) ∈ hosts -> g ∈ hd_groups h -> g ∈ G.*1.
  Proof.
    induction hosts as [|[n h] hosts IH]; cbn.
    - split; [|reflexivity]. intros _ n h g H. inversion H.
    - setoid_rewrite elem_of_cons. destruct (all_declared G (hd_groups h) _) as [[]|] eqn:E; cbn.
      + rewrite all_declared_ok in E. rewrite IH. split.
        * intros H n' h' g [[= -> ->]|Hin]; eauto.
        * intros H n' h' g Hin. eauto.
      + split; [discriminate|]. intros H. exfalso.
        assert (E2 : forall x, x ∈ hd_groups h -> x ∈ G.*1) by (intros; eapply H; [left; reflexivity|assumption]).
        rewrite <- all_declared_ok in E2. erewrite E2 in E. discriminate.
  Qed.
  Lemma check_groups_ok G L : check_groups G L = Ok tt <-> forall k d x, (k, d) ∈ L -> x ∈ gd_after d \/ x ∈ gd_before d -> x ∈ G.*1.
  Proof.
    induction L as [|[n d] L IH]; cbn.
    - split; [|reflexivity]. intros _ n h g H. inversion H.
    - setoid_rewrite elem_of_cons. destruct (all_declared G (gd_after d) _) as [[]|] eqn:E; cbn.
      + rewrite all_declared_ok in E. destruct (all_declared G (gd_before d) _) as [[]|] eqn:E'; cbn.
        * rewrite all_declared_ok in E'. rewrite IH. split.
          -- intros H n' h' g [[= -> ->]|Hin]; [intros [?|?]; auto|eauto].
          -- intros H n' h' g Hin. eauto.
        * split; [discriminate|]. intros H. exfalso.
          assert (E2 : forall x, x ∈ gd_before d -> x ∈ G.*1) by (intros; eapply H; [left; reflexivity|auto]).
          rewrite <- all_declared_ok in E2. erewrite E2 in E'. discriminate.
      + split; [discriminate|]. intros H. exfalso.
        assert (E2 : forall x, x ∈ gd_after d -> x ∈ G.*1) by (intros; eapply H; [left; reflexivity|auto]).
        rewrite <- all_declared_ok in E2. erewrite E2 in E. discriminate.
  Qed.
  Lemma ensure_ok G hosts : ensure_declared hosts G = Ok tt <->
    (forall n h g, (n, h) ∈ hosts -> g ∈ hd_groups h -> g ∈ G.*1) /\ closedG G.
  Proof.
    unfold ensure_declared, closedG. rewrite <- check_hosts_ok, <- (check_groups_ok G G).
    destruct (check_hosts G hosts) as [[]|]; cbn; [tauto|]. split; [discriminate|intros [? _]; discriminate].
  Qed.
  Lemma detect_self_ok G : detect_self G = Ok tt <-> forall k d, (k, d) ∈ G -> gd_name d ∉ gd_before d /\ gd_name d ∉ gd_after d.
  Proof.
    induction G as [|[k d] G IH]; cbn.
    - split; [|reflexivity]. intros _ k d H. inversion H.
    - setoid_rewrite elem_of_cons.
      destruct (str_in (gd_name d) (gd_before d) || str_in (gd_name d) (gd_after d)) eqn:E.
      + split; [discriminate|]. intros H. exfalso. destruct (H k d) as [Hb Ha]; [auto|].
        apply orb_prop in E. rewrite !str_in_true in E. tauto.
      + apply orb_false_elim in E. rewrite !str_in_false in E. rewrite IH. split.
        * intros H k' d' [[= -> ->]|Hin]; eauto.
        * intros H k' d' Hin. eauto.
  Qed.
  Lemma detect_self_acyclic G : wfG G -> closedG G ->
    ~ cyclic (edge_of (merge_dependencies e G).*1 (befores (merge_dependencies e G))) -> detect_self (merge_dependencies e G) = Ok tt.
  Proof.
    intros Hwf Hc Ha. destruct (merge_spec G Hwf) as [K H]. apply detect_self_ok. intros k d Hin.
    apply dget_in in Hin; [|rewrite K; apply Hwf]. destruct (H _ _ Hin) as (d0 & E0 & -> & _ & A & B).
    assert (Hn : ~ pre_after G k k).
    { intros Hp. apply Ha. exists k, 0%nat. econstructor; [|constructor]. apply merge_edge; assumption. }
    rewrite A, B. tauto.
  Qed.
End groups.
