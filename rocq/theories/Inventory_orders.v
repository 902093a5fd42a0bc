(** Two ways to load the same inventory. *)
From Coq Require Import Lia ZifyBool ZifyNat.
From Verif Require Import Base Paths Urls Wrapper Spec_Wrapper Wrapper_proofs Ranks Spec_Ranks Ranks_proofs Dict_proofs Inventory
  Spec_Inventory Inventory_proofs Inventory_proofs2 Inventory_vars Inventory_values Inventory_ties.

Lemma astep_nxt e A inv groups x st g : (astep e A inv groups x st g).1 = nxt e A inv groups x st.1 g.
Proof. unfold astep, nxt. destruct (eff _ _ _ _ _ _ _); reflexivity. Qed.
Lemma astep_fold e A inv groups x l : forall st, (foldl (astep e A inv groups x) st l).1 = foldl (nxt e A inv groups x) st.1 l.
Proof. induction l as [|g l IH]; intros st; [reflexivity|]. cbn [foldl]. rewrite IH, astep_nxt. reflexivity. Qed.

Lemma astep_in e A inv groups x st g p : p ∈ (astep e A inv groups x st g).2 -> p ∈ st.2 \/ p = g.
Proof.
  unfold astep. destruct (eff _ _ _ _ _ _ _); [|auto]. cbn [snd]. destruct (changed _ _); [|auto].
  rewrite elem_of_app, elem_of_list_singleton. auto.
Qed.

(** the course only depends on values and ranks *)
Lemma aoks_ext e1 e2 A inv G1 G2 o1 o2 x l : forall st,
  (forall g cur, g ∈ l -> eff e1 A inv G1 x g cur = eff e2 A inv G2 x g cur) ->
  (forall g, g ∈ l \/ g ∈ st.2 -> o_min o1 g = o_min o2 g /\ o_max o1 g = o_max o2 g) ->
  (aoks e1 A inv G1 o1 x st l <-> aoks e2 A inv G2 o2 x st l) /\
  foldl (astep e1 A inv G1 x) st l = foldl (astep e2 A inv G2 x) st l.
Proof.
  induction l as [|g l IH]; intros st He Ho; [cbn; tauto|]. cbn [aoks foldl].
  assert (Es : astep e1 A inv G1 x st g = astep e2 A inv G2 x st g).
  { unfold astep. rewrite He by left. reflexivity. }
  rewrite Es. destruct (IH (astep e2 A inv G2 x st g)) as [I1 I2].
  { intros g' cur Hg'. apply He. right. exact Hg'. }
  { intros g' [Hg'|Hg']; [apply Ho; left; right; exact Hg'|]. apply astep_in in Hg' as [Hg'| ->]; apply Ho; [auto|left; left]. }
  split; [|exact I2]. rewrite I1.
  enough (Ha : aok e1 A inv G1 o1 x st g <-> aok e2 A inv G2 o2 x st g) by tauto.
  unfold aok. rewrite He by left. split; intros H v Hv Hc p Hp; specialize (H v Hv Hc p Hp).
  - rewrite <- (proj1 (Ho g ltac:(left; left))), <- (proj2 (Ho p ltac:(right; exact Hp))). exact H.
  - rewrite (proj1 (Ho g ltac:(left; left))), (proj2 (Ho p ltac:(right; exact Hp))). exact H.
Qed.

Section accepted.
  Variable hs : list hostspec.
  Variable gs : option (list groupspec).
  Variable l : loaded.
  Hypothesis Hacc : accepted hs gs l.
  Notation o := (l_order l).

  Lemma rank_min_max g : group_exists hs gs g -> (o_min o g <= o_max o g)%Z.
  Proof.
    intros Hg. destruct (acc_min _ _ _ Hacc g Hg) as (n & -> & [[u Hu] _]).
    destruct (acc_max _ _ _ Hacc) as (N & [_ HN] & Hmax). destruct (Hmax g Hg) as (h & [[w Hw] _] & ->).
    pose proof (HN u w (n + h) ltac:(eapply path_app; eassumption)). lia.
  Qed.
  Lemma rank_lt u v : group_exists hs gs u -> group_exists hs gs v -> direct hs gs u v -> (o_min o u < o_min o v)%Z.
  Proof.
    intros Hu Hv Hd. destruct (acc_min _ _ _ Hacc u Hu) as (n & -> & [[w Hw] _]).
    destruct (acc_min _ _ _ Hacc v Hv) as (m & -> & [_ Hm]).
    pose proof (Hm w (S n) ltac:(eapply path_snoc; eassumption)). lia.
  Qed.
  Lemma early_exists : group_exists hs gs s_early.
  Proof. unfold group_exists. auto. Qed.
  Lemma all_exists : group_exists hs gs s_all.
  Proof. unfold group_exists. auto. Qed.

  Lemma host_groups_exist d g : g ∈ host_groups l d -> group_exists hs gs g /\ g ∈ hd_groups d.
  Proof.
    unfold host_groups. intros H. apply elem_of_list_In, filter_In in H as [H1 H2]. apply str_in_true in H2.
    apply elem_of_list_In in H1. split; [apply (acc_names _ _ _ Hacc); exact H1|exact H2].
  Qed.
  Lemma host_groups_in d g : g ∈ host_groups l d <-> group_exists hs gs g /\ g ∈ hd_groups d.
  Proof.
    split; [apply host_groups_exist|]. intros [H1 H2]. unfold host_groups. apply elem_of_list_In, filter_In. split.
    - apply elem_of_list_In, (acc_names _ _ _ Hacc). exact H1.
    - apply str_in_true. exact H2.
  Qed.
  Lemma filter_sorted key (f : pystr -> bool) k : sorted key k -> sorted key (List.filter f k).
  Proof.
    induction k as [|g k IH]; [auto|]. cbn. intros [H1 H2]. destruct (f g); [|auto]. split; [|auto].
    intros y Hy. apply H1. apply elem_of_list_In, filter_In in Hy as [Hy _]. apply elem_of_list_In. exact Hy.
  Qed.
  Lemma host_groups_sorted d : sorted (o_min o) (host_groups l d).
  Proof. apply filter_sorted, (acc_sorted _ _ _ Hacc). Qed.
  Lemma host_groups_nodup d : NoDup (host_groups l d).
  Proof.
    unfold host_groups. apply NoDup_ListNoDup, List.NoDup_filter, NoDup_ListNoDup. apply (acc_names _ _ _ Hacc).
  Qed.
  Lemma host_groups_all host d : dget host (l_hosts l) = Some d -> s_early ∉ hd_groups d ->
    exists r, host_groups l d = s_all :: r /\ s_all ∉ r.
  Proof.
    intros Hd Hne. destruct (host_all _ _ _ _ _ Hacc Hd) as [Hall _].
    pose proof (host_groups_sorted d) as Hs. pose proof (host_groups_nodup d) as Hn. pose proof (host_groups_exist d) as He.
    destruct (host_groups l d) as [|g r]; [inversion Hall|]. destruct (decide (g = s_all)) as [->|Hg].
    - apply NoDup_cons in Hn as [Hn _]. eauto.
    - exfalso. apply elem_of_cons in Hall as [Hall|Hall]; [congruence|].
      destruct (He g ltac:(left)) as [Hex Hin]. destruct Hs as [Hs _]. specialize (Hs _ Hall).
      assert (Hge : g <> s_early) by (intros ->; contradiction).
      assert (Hd' : direct hs gs s_all g).
      { unfold direct. right. right. left. split_and!; auto. destruct Hex as [H|[H|H]]; [exact H|contradiction..]. }
      pose proof (rank_lt _ _ all_exists Hex Hd'). lia.
  Qed.
End accepted.

Section two.
  Variables e1 e2 : env.
  Hypothesis Hsame : same_surroundings e1 e2.
  Variable A : pystr -> option ns.
  Hypothesis HA : files_constant e1 A.
  Variable inv : wrapper.
  Hypothesis Hinv : wf inv.
  Variable hs : list hostspec.
  Variables gs1 gs2 : option (list groupspec).
  Hypothesis Hgs : same_groups gs1 gs2.
  Variables l1 l2 : loaded.
  Hypothesis A1 : accepted hs gs1 l1.
  Hypothesis A2 : accepted hs gs2 l2.

  Lemma same_in k1 k2 s : same_groups (Some k1) (Some k2) -> s ∈ k1 <-> s ∈ k2.
  Proof. cbn. intros ->. reflexivity. Qed.
  Lemma same_declared g : declared hs gs1 g <-> declared hs gs2 g.
  Proof.
    unfold declared. destruct gs1 as [k1|], gs2 as [k2|]; cbn in Hgs; try contradiction; [|reflexivity].
    setoid_rewrite Hgs. reflexivity.
  Qed.
  Lemma same_exists g : group_exists hs gs1 g <-> group_exists hs gs2 g.
  Proof. unfold group_exists. rewrite same_declared. reflexivity. Qed.
  Lemma same_direct u v : direct hs gs1 u v <-> direct hs gs2 u v.
  Proof.
    unfold direct. rewrite !same_declared. destruct gs1 as [k1|], gs2 as [k2|]; cbn in Hgs; try contradiction; [|reflexivity].
    split.
    all: intros [(k & s & a & b & [= <-] & Hs & H)|[(k & s & a & b & [= <-] & Hs & H)|H]]; [left|right; left|right; right; exact H].
    1-2: rewrite Hgs in Hs. 3-4: rewrite <- Hgs in Hs.
    all: eauto 10.
  Qed.
  Lemma same_file g f : has_file gs1 g f <-> has_file gs2 g f.
  Proof.
    unfold has_file. destruct gs1 as [k1|], gs2 as [k2|]; cbn in Hgs; try contradiction; [|reflexivity].
    split; intros (k & d & [= <-] & Hd & H); [rewrite Hgs in Hd|rewrite <- Hgs in Hd]; eauto 10.
  Qed.
  Lemma same_path g : group_exists hs gs1 g -> group_path e1 (l_groups l1) g = group_path e2 (l_groups l2) g.
  Proof.
    intros Hg. destruct Hsame as (Eb & Eg & _). unfold group_path. rewrite Eb, Eg.
    pose proof Hg as Hg2. apply same_exists in Hg2. apply (acc_keys _ _ _ A1), dget_is_Some in Hg as [d1 E1].
    apply (acc_keys _ _ _ A2), dget_is_Some in Hg2 as [d2 E2]. rewrite E1, E2.
    destruct (acc_file _ _ _ A1 _ _ E1) as [_ F1]. destruct (acc_file _ _ _ A2 _ _ E2) as [_ F2].
    destruct d1 as [? [f1|] ? ?], d2 as [? [f2|] ? ?]; cbn in F1, F2.
    - pose proof (proj1 (F1 f1) eq_refl) as H. apply same_file, F2 in H. congruence.
    - pose proof (proj1 (F1 f1) eq_refl) as H. apply same_file, F2 in H. congruence.
    - pose proof (proj1 (F2 f2) eq_refl) as H. apply same_file, F1 in H. congruence.
    - reflexivity.
  Qed.
  Lemma same_ranks g : group_exists hs gs1 g ->
    o_min (l_order l1) g = o_min (l_order l2) g /\ o_max (l_order l1) g = o_max (l_order l2) g.
  Proof.
    intros Hg. pose proof Hg as Hg2. apply same_exists in Hg2. split.
    - destruct (acc_min _ _ _ A1 g Hg) as (n & -> & Hn), (acc_min _ _ _ A2 g Hg2) as (m & -> & Hm).
      apply (depth_equiv _ _ same_direct) in Hn. f_equal. eapply depth_unique; eassumption.
    - destruct (acc_max _ _ _ A1) as (N & HN & HNg), (acc_max _ _ _ A2) as (M & HM & HMg).
      destruct (HNg g Hg) as (n & Hn & ->), (HMg g Hg2) as (m & Hm & ->).
      apply (height_equiv _ _ same_direct) in Hn. apply (longest_equiv _ _ same_direct) in HN.
      rewrite (height_unique _ _ _ _ Hn Hm). destruct HN as [(u & v & P1) U1], HM as [(u' & v' & P2) U2].
      pose proof (U1 _ _ _ P2). pose proof (U2 _ _ _ P1). lia.
  Qed.
  Lemma same_inventory x : inventory_value e1 inv x = inventory_value e2 inv x.
  Proof. destruct Hsame as (_ & _ & _ & _ & Eo). unfold inventory_value, fora_managed. rewrite Eo. reflexivity. Qed.
  Lemma same_eff x g cur : group_exists hs gs1 g -> eff e1 A inv (l_groups l1) x g cur = eff e2 A inv (l_groups l2) x g cur.
  Proof. intros Hg. unfold eff, gasg. rewrite same_path, same_inventory by exact Hg. reflexivity. Qed.

  Lemma host_entry_fun h n d n' d' : host_entry h (n, d) -> host_entry h (n', d') ->
    n = n' /\ hd_vars d = hd_vars d' /\ hd_file d = hd_file d' /\ (forall g, g ∈ hd_groups d <-> g ∈ hd_groups d').
  Proof.
    intros (_ & _ & G1 & _ & H1) (_ & _ & G2 & _ & H2).
    assert (HG : forall g, g ∈ hd_groups d <-> g ∈ hd_groups d') by (intros g; rewrite G1, G2; reflexivity).
    destruct h as [u|d0| |]; try contradiction.
    - destruct H1 as (E1 & F1 & V1), H2 as (E2 & F2 & V2). split_and!; congruence || exact HG.
    - destruct H1 as (E1 & F1 & V1), H2 as (E2 & F2 & V2). split_and!; try congruence; [|exact HG].
      destruct (hd_name d0); [congruence|]. destruct E1 as (u & U1 & E1), E2 as (u' & U2 & E2). congruence.
  Qed.
  Lemma same_host host d1 d2 : dget host (l_hosts l1) = Some d1 -> dget host (l_hosts l2) = Some d2 ->
    hd_vars d1 = hd_vars d2 /\ hd_file d1 = hd_file d2 /\ (forall g, g ∈ hd_groups d1 <-> g ∈ hd_groups d2).
  Proof.
    intros E1 E2. apply dget_Some_in, elem_of_list_lookup in E1 as [i E1]. apply dget_Some_in, elem_of_list_lookup in E2 as [j E2].
    destruct (acc_hosts _ _ _ A1) as [F1 _], (acc_hosts _ _ _ A2) as [F2 N2].
    destruct (Forall2_lookup_r _ _ _ _ _ F1 E1) as (h & Hh & H1).
    destruct (Forall2_lookup_l _ _ _ _ _ F2 Hh) as ([n d'] & E3 & H3).
    destruct (host_entry_fun _ _ _ _ _ H1 H3) as (<- & Hv).
    assert (i = j).
    { eapply NoDup_lookup; [exact N2| |]; rewrite list_lookup_fmap; [rewrite E3|rewrite E2]; reflexivity. }
    subst j. rewrite E2 in E3. injection E3 as <-. exact Hv.
  Qed.

  Section host.
    Variable host : pystr.
    Variables d1 d2 : hostdecl.
    Hypothesis D1 : dget host (l_hosts l1) = Some d1.
    Hypothesis D2 : dget host (l_hosts l2) = Some d2.
    Hypothesis Hearly : s_early ∉ hd_groups d1.
    Hypothesis Hvars : NoDup (lit "host" :: (hd_vars d1).*1).
    Variable x : pystr.
    Hypothesis Hx : host_var x.
    Hypothesis Hobj : objects_ok (var_object e1 A inv d1 x).

    Lemma run_ok e hs' gs' l d w hist : files_constant e A -> accepted hs' gs' l -> dget host (l_hosts l) = Some d ->
      NoDup (lit "host" :: (hd_vars d).*1) -> objects_ok (var_object e A inv d x) ->
      instanciate_host e inv l host = Ok (w, hist) -> aoks e A inv (l_groups l) (l_order l) x (early_st e host d x) (host_groups l d).
    Proof.
      intros HAe Ha Hd Hnd (Hid & Hn & Hm) E. unfold instanciate_host in E. rewrite Hd in E. fold (host_groups l d) in E.
      destruct (early_history e (l_order l) host d) as [h0 c0] eqn:Eh0.
      destruct (load_groups e inv (l_groups l) (l_order l) (host_groups l d) _ _) as [[init [h c]]|] eqn:El; cbn in E; [|discriminate].
      destruct c; [|discriminate].
      assert (Hg : forall k dd, dget k (l_groups l) = Some dd -> gd_name dd = k).
      { intros k dd Hk. apply (acc_file _ _ _ Ha). exact Hk. }
      pose proof (early_inv e (l_order l) host d Hnd x (var_object e A inv d x) (proj1 Hx)) as Hinit.
      rewrite Eh0 in Hinit. cbn [fst] in Hinit.
      apply (load_groups_attr e A HAe inv Hinv (l_groups l) Hg (l_order l) x (var_object e A inv d x)) with (st := early_st e host d x) in El.
      - destruct El as [_ Hc]. apply (Hc eq_refl).
      - apply Hx.
      - intros g. split; [intros v Hv; apply Hm; left; eauto|intros v Hv; apply Hm; right; left; exact Hv].
      - intros v [[g Hg']|Hv]; [left; eauto|right; left; exact Hv].
      - exact Hid.
      - apply Hinit. intros v Hv. unfold early_ns in Hv. cbn [dget] in Hv.
        rewrite (proj2 (str_eqb_false _ _) (proj1 (proj2 Hx))) in Hv.
        assert (Hk : var_object e A inv d x v) by (right; right; exact Hv). auto.
    Qed.

    Theorem orders_agree w1 h1 w2 h2 :
      instanciate_host e1 inv l1 host = Ok (w1, h1) -> instanciate_host e2 inv l2 host = Ok (w2, h2) ->
      forall v, own w1 x v <-> own w2 x v.
    Proof.
      intros R1 R2 v. destruct (same_host _ _ _ D1 D2) as (Ev & Ef & Eg).
      assert (HA2 : files_constant e2 A).
      { intros p. destruct Hsame as (_ & _ & _ & E & _). rewrite <- E. apply HA. }
      assert (Hvars2 : NoDup (lit "host" :: (hd_vars d2).*1)) by (rewrite <- Ev; exact Hvars).
      assert (Hv2 : forall v, var_object e2 A inv d2 x v <-> var_object e1 A inv d1 x v).
      { intros v0. unfold var_object. rewrite same_inventory, Ev. reflexivity. }
      assert (Hobj2 : objects_ok (var_object e2 A inv d2 x)).
      { destruct Hobj as (O1 & O2 & O3). split_and!; intros; [apply O1|apply O2|apply O3]; try apply Hv2; assumption. }
      pose proof (run_ok e1 hs gs1 l1 d1 w1 h1 HA A1 D1 Hvars Hobj R1) as K1.
      pose proof (run_ok e2 hs gs2 l2 d2 w2 h2 HA2 A2 D2 Hvars2 Hobj2 R2) as K2.
      destruct Hobj as (O1 & O2 & O3).
      rewrite (host_values e1 A HA inv Hinv hs gs1 l1 host d1 w1 h1 x A1 D1 Hvars Hx); [| | |exact R1].
      2: { intros v0 p Hp. apply O3. left. eauto. }
      2: { intros v0 Hv0. apply O3. right. exact Hv0. }
      rewrite (host_values e2 A HA2 inv Hinv hs gs2 l2 host d2 w2 h2 x A2 D2 Hvars2 Hx); [| | |exact R2].
      2: { intros v0 p Hp. apply O3. left. eauto. }
      2: { intros v0 Hv0. apply O3, Hv2. right. exact Hv0. }
      enough (E : latest (contributions e1 A inv l1 d1 host x) = latest (contributions e2 A inv l2 d2 host x)) by (rewrite E; reflexivity).
      unfold contributions. rewrite !(assoc_L app _ _ [_]), !(latest_app (_ ++ _) [_]). cbn [latest].
      assert (Ep : host_path e1 d1 host = host_path e2 d2 host).
      { destruct Hsame as (Eb & _ & Eh & _). unfold host_path. rewrite Ef, Eb, Eh. reflexivity. }
      rewrite Ep. destruct (assigned A (host_path e2 d2 host) x); [reflexivity|].
      destruct (host_all _ _ _ _ _ A1 D1) as [Hall1 _]. destruct (host_all _ _ _ _ _ A2 D2) as [Hall2 _].
      assert (Hfold : forall e l d, s_all ∈ host_groups l d ->
        latest ([inventory_value e inv x; dget x (hd_vars d)] ++
          List.map (fun g => assigned A (group_path e (l_groups l) g) x) (host_groups l d)) =
        (foldl (astep e A inv (l_groups l) x) (early_st e host d x) (host_groups l d)).1).
      { intros e l d Hall. rewrite astep_fold, nxt_latest, (proj2 (str_in_true _ _) Hall). unfold early_st. cbn [fst].
        unfold early_ns. cbn [dget]. rewrite (proj2 (str_eqb_false _ _) (proj1 (proj2 Hx))). reflexivity. }
      transitivity ((foldl (astep e1 A inv (l_groups l1) x) (early_st e1 host d1 x) (host_groups l1 d1)).1); [apply Hfold; exact Hall1|].
      transitivity ((foldl (astep e2 A inv (l_groups l2) x) (early_st e2 host d2 x) (host_groups l2 d2)).1); [|symmetry; apply Hfold; exact Hall2].
      assert (Est : early_st e1 host d1 x = early_st e2 host d2 x).
      { unfold early_st, early_ns. cbn [dget]. rewrite (proj2 (str_eqb_false _ _) (proj1 (proj2 Hx))), Ev. reflexivity. }
      rewrite <- Est in *.
      assert (Hg2 : forall g, g ∈ host_groups l2 d2 <-> g ∈ host_groups l1 d1).
      { intros g. rewrite (host_groups_in _ _ _ A2), (host_groups_in _ _ _ A1), same_exists, Eg. reflexivity. }
      destruct (aoks_ext e1 e2 A inv (l_groups l1) (l_groups l2) (l_order l1) (l_order l2) x (host_groups l2 d2) (early_st e1 host d1 x)) as [X1 X2].
      { intros g cur Hg. apply same_eff. apply (host_groups_exist _ _ _ A1 d1). apply Hg2. exact Hg. }
      { intros g [Hg|Hg]; apply same_ranks.
        - apply (host_groups_exist _ _ _ A1 d1). apply Hg2. exact Hg.
        - unfold early_st in Hg. cbn [snd] in Hg. destruct (dget x (early_ns e1 host d1)); [|inversion Hg].
          apply elem_of_list_singleton in Hg as ->. apply early_exists. }
      rewrite <- X2. apply X1 in K2.
      destruct (host_groups_all _ _ _ A1 _ _ D1 Hearly) as (r1 & E1 & N1).
      assert (Hearly2 : s_early ∉ hd_groups d2) by (rewrite <- Eg; exact Hearly).
      destruct (host_groups_all _ _ _ A2 _ _ D2 Hearly2) as (r2 & E2 & N2).
      pose proof (host_groups_nodup _ _ _ A1 d1) as U1. pose proof (host_groups_nodup _ _ _ A2 d2) as U2.
      pose proof (host_groups_sorted _ _ _ A1 d1) as S1. pose proof (host_groups_sorted _ _ _ A2 d2) as S2.
      pose proof (host_groups_exist _ _ _ A1 d1) as X. rewrite E1, E2 in *. cbn [foldl]. destruct K1 as [_ K1], K2 as [_ K2].
      apply NoDup_cons in U1 as [_ U1], U2 as [_ U2].
      assert (Hr : forall g, g ∈ r1 <-> g ∈ r2).
      { intros g. specialize (Hg2 g). rewrite !elem_of_cons in Hg2. split; intros Hg.
        - destruct (proj2 Hg2 (or_intror Hg)) as [->|]; [contradiction|assumption].
        - destruct (proj1 Hg2 (or_intror Hg)) as [->|]; [contradiction|assumption]. }
      assert (Hperm : r1 ≡ₚ r2) by (apply NoDup_Permutation; assumption).
      apply (ties_same e1 A inv (l_groups l1) (l_order l1) x (var_object e1 A inv d1 x)) with (n := length r1); auto.
      - intros g v0 Hv0. left. eauto.
      - apply S1.
      - destruct S2 as [_ S2]. clear - S2 Hr X A1 A2 Hgs. assert (Hex : forall g, g ∈ r2 -> group_exists hs gs1 g).
        { intros g Hg. apply X. right. apply Hr. exact Hg. }
        clear Hr X. induction r2 as [|g r2 IH]; [exact I|]. destruct S2 as [H1 H2]. split.
        + intros y Hy. rewrite (proj1 (same_ranks g (Hex g ltac:(left)))), (proj1 (same_ranks y (Hex y ltac:(right; exact Hy)))). apply H1. exact Hy.
        + apply IH; [exact H2|]. intros g' Hg'. apply Hex. right. exact Hg'.
      - intros g Hg. split; [|intros ->; contradiction]. apply (rank_min_max _ _ _ A1). apply X. right. exact Hg.
      - intros c Hc. rewrite astep_nxt in Hc. unfold nxt in Hc.
        destruct (eff e1 A inv (l_groups l1) x s_all (early_st e1 host d1 x).1) as [v0|] eqn:Ee.
        + injection Hc as <-. unfold eff in Ee. destruct (gasg e1 A (l_groups l1) s_all x) eqn:Eg1; [left; eexists; rewrite <- Ee; exact Eg1|].
          destruct (early_st e1 host d1 x).1; [discriminate|]. rewrite str_eqb_refl in Ee. right. left. exact Ee.
        + unfold early_st, early_ns in Hc. cbn [dget fst] in Hc. rewrite (proj2 (str_eqb_false _ _) (proj1 (proj2 Hx))) in Hc.
          right. right. exact Hc.
    Qed.
  End host.
End two.
