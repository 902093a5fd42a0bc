(** Accepted orders of the groups of a host give the same values. *)
From Coq Require Import Lia ZifyBool ZifyNat.
From Verif Require Import Base Paths Urls Wrapper Spec_Wrapper Wrapper_proofs Ranks Spec_Ranks Ranks_proofs Dict_proofs Inventory
  Spec_Inventory Inventory_proofs Inventory_proofs2 Inventory_vars Inventory_values.

Section ties.
  Variable e : env.
  Variable A : pystr -> option ns.
  Variable inv : wrapper.
  Variable groups : list (pystr * groupdecl).
  Variable o : order.
  Variable x : pystr.
  Notation a g := (gasg e A groups g x).
  Notation step := (astep e A inv groups x).
  Notation oks := (aoks e A inv groups o x).
  Variable known : obj -> Prop.
  Hypothesis Hknown : forall g v, a g = Some v -> known v.
  Hypothesis Hid : forall v w, known v -> known w -> oid v = oid w -> v = w.
  Hypothesis Hnone : forall v w, known v -> known w -> oval v = VNone -> oval w = VNone -> v = w.

  Lemma eff_plain g cur : g <> s_all -> eff e A inv groups x g cur = a g.
  Proof.
    intros H. unfold eff. destruct (a g); [reflexivity|]. destruct cur; [reflexivity|].
    rewrite (proj2 (str_eqb_false _ _) H). reflexivity.
  Qed.
  Lemma changed_some c v : known c -> known v -> changed (Some c) v = false <-> v = c.
  Proof.
    intros Hc Hv. cbn. split.
    - intros E. apply negb_false_iff, N.eqb_eq in E. symmetry. apply Hid; assumption.
    - intros ->. rewrite N.eqb_refl. reflexivity.
  Qed.
  Lemma changed_none v : changed None v = false <-> oval v = VNone.
  Proof. cbn. rewrite negb_false_iff, bool_decide_eq_true. reflexivity. Qed.

  Section block.
    Variable k : Z.
    Lemma block_after : forall B st v, st.1 = Some v -> known v -> (exists p, p ∈ st.2 /\ (k <= o_max o p)%Z) ->
      (forall g, g ∈ B -> o_min o g = k /\ g <> s_all) -> oks st B ->
      (foldl step st B).1 = Some v /\ forall g v', g ∈ B -> a g = Some v' -> v' = v.
    Proof.
      induction B as [|g B IH]; intros st v Ev Hk (p & Hp & Hpk) HB Hok; cbn [foldl].
      { split; [exact Ev|]. intros g v' Hg. inversion Hg. }
      destruct Hok as [Hg Hok]. destruct (HB g ltac:(left)) as [Hmin Hne].
      assert (Hsame : forall v', a g = Some v' -> v' = v).
      { intros v' Ea. unfold aok in Hg. rewrite eff_plain, Ev in Hg by exact Hne.
        destruct (changed (Some v) v') eqn:Ec; [|apply changed_some in Ec; eauto].
        specialize (Hg v' Ea Ec p Hp). lia. }
      assert (Hst : (step st g).1 = Some v /\ exists p, p ∈ (step st g).2 /\ (k <= o_max o p)%Z).
      { unfold astep. rewrite eff_plain by exact Hne. destruct (a g) as [v'|] eqn:Ea; [|eauto]. rewrite (Hsame v' eq_refl).
        rewrite Ev. cbn [fst snd]. rewrite (proj2 (changed_some v v Hk Hk) eq_refl). eauto. }
      destruct Hst as [Hs1 Hs2].
      destruct (IH (step st g) v Hs1 Hk Hs2) as [H1 H2]; [intros g' Hg'; apply HB; right; exact Hg'|exact Hok|].
      split; [exact H1|]. intros g' v' Hg' Ea. apply elem_of_cons in Hg' as [->|Hg']; eauto.
    Qed.

    Definition eqv (c0 cur : option obj) : Prop :=
      cur = c0 \/ (c0 = None /\ exists n, cur = Some n /\ oval n = VNone /\ known n).
    Lemma eqv_changed c0 cur v : eqv c0 cur -> (forall c, c0 = Some c -> known c) -> known v -> changed cur v = changed c0 v.
    Proof.
      intros [->|(-> & n & -> & Hn & Hk)] H0 Hv; [reflexivity|].
      destruct (changed None v) eqn:E.
      - destruct (changed (Some n) v) eqn:E2; [reflexivity|]. apply changed_some in E2; [|assumption..]. subst v.
        apply changed_none in Hn. congruence.
      - apply changed_none in E. apply changed_some; [assumption..|]. apply Hnone; assumption.
    Qed.

    Lemma block_run c0 : (forall c, c0 = Some c -> known c) -> forall B st, eqv c0 st.1 ->
      (forall g, g ∈ B -> o_min o g = k /\ (k <= o_max o g)%Z /\ g <> s_all) -> oks st B ->
      let f := (foldl step st B).1 in
      (exists v, f = Some v /\ changed c0 v = true /\ (exists g, g ∈ B /\ a g = Some v) /\
         forall g v', g ∈ B -> a g = Some v' -> changed c0 v' = true -> v' = v) \/
      ((forall g v', g ∈ B -> a g = Some v' -> changed c0 v' = false) /\ eqv c0 f /\
         (f = None <-> st.1 = None /\ forall g, g ∈ B -> a g = None)).
    Proof.
      intros H0. induction B as [|g B IH]; intros st He HB Hok; cbv zeta; cbn [foldl].
      { right. split_and!; [intros g v' Hg; inversion Hg|exact He|]. split; [|tauto]. intros E. split; [exact E|]. intros g Hg. inversion Hg. }
      destruct Hok as [Hg Hok]. destruct (HB g ltac:(left)) as (Hmin & Hmax & Hne).
      assert (HB' : forall g', g' ∈ B -> o_min o g' = k /\ (k <= o_max o g')%Z /\ g' <> s_all) by (intros g' Hg'; apply HB; right; exact Hg').
      destruct (a g) as [v|] eqn:Ea.
      - pose proof (Hknown _ _ Ea) as Hkv. pose proof (eqv_changed c0 st.1 v He H0 Hkv) as Hch.
        destruct (changed c0 v) eqn:Ec.
        + assert (Est : step st g = (Some v, st.2 ++ [g])).
          { unfold astep. rewrite eff_plain, Ea, Hch by exact Hne. reflexivity. }
          rewrite Est in *. left. exists v.
          destruct (block_after B (Some v, st.2 ++ [g]) v eq_refl Hkv) as [Hf Hs].
          { exists g. split; [cbn; rewrite elem_of_app, elem_of_list_singleton; auto|exact Hmax]. }
          { intros g' Hg'. destruct (HB' g' Hg') as (? & _ & ?). auto. }
          { exact Hok. }
          split_and!; [exact Hf|exact Ec|exists g; split; [left|exact Ea]|].
          intros g' v' Hg' Ea' _. apply elem_of_cons in Hg' as [->|Hg']; [congruence|eauto].
        + assert (Est : step st g = (Some v, st.2)).
          { unfold astep. rewrite eff_plain, Ea, Hch by exact Hne. reflexivity. }
          rewrite Est in *.
          assert (He' : eqv c0 (Some v)).
          { destruct c0 as [c|].
            - left. f_equal. apply changed_some; auto.
            - right. split; [reflexivity|]. exists v. split_and!; auto. apply changed_none. exact Ec. }
          destruct (IH (Some v, st.2) He' HB' Hok) as [(w & Hf & Hcw & (g' & Hg' & Ea') & Hu)|(Hno & Hf & Hn)].
          * left. exists w. split_and!; auto; [exists g'; split; [right|]; assumption|].
            intros g2 v2 Hg2 Ea2 Hc2. apply elem_of_cons in Hg2 as [->|Hg2]; [congruence|eauto].
          * right. split_and!; [|exact Hf|].
            { intros g2 v2 Hg2 Ea2. apply elem_of_cons in Hg2 as [->|Hg2]; [congruence|eauto]. }
            { cbn [fst] in Hn. split.
              - intros E. apply Hn in E as [E _]. discriminate.
              - intros [_ E]. specialize (E g ltac:(left)). congruence. }
      - assert (Est : step st g = st) by (unfold astep; rewrite eff_plain, Ea by exact Hne; reflexivity).
        rewrite Est in *.
        destruct (IH st He HB' Hok) as [(w & Hf & Hcw & (g' & Hg' & Ea') & Hu)|(Hno & Hf & Hn)].
        + left. exists w. split_and!; auto; [exists g'; split; [right|]; assumption|].
          intros g2 v2 Hg2 Ea2 Hc2. apply elem_of_cons in Hg2 as [->|Hg2]; [congruence|eauto].
        + right. split_and!; [|exact Hf|].
          { intros g2 v2 Hg2 Ea2. apply elem_of_cons in Hg2 as [->|Hg2]; [congruence|eauto]. }
          { rewrite Hn. setoid_rewrite elem_of_cons. split; intros [E1 E2]; (split; [exact E1|]).
            - intros g2 [->|Hg2]; auto.
            - intros g2 Hg2. auto. }
    Qed.

    Lemma block_same B1 B2 st1 st2 : st1.1 = st2.1 -> (forall c, st1.1 = Some c -> known c) -> B1 ≡ₚ B2 ->
      (forall g, g ∈ B1 -> o_min o g = k /\ (k <= o_max o g)%Z /\ g <> s_all) -> oks st1 B1 -> oks st2 B2 ->
      (foldl step st1 B1).1 = (foldl step st2 B2).1.
    Proof.
      intros Es H0 HP HB H1 H2.
      assert (HB2 : forall g, g ∈ B2 -> o_min o g = k /\ (k <= o_max o g)%Z /\ g <> s_all) by (intros g Hg; apply HB; rewrite HP; exact Hg).
      pose proof (block_run st1.1 H0 B1 st1 ltac:(left; reflexivity) HB H1) as R1.
      pose proof (block_run st1.1 H0 B2 st2 ltac:(left; congruence) HB2 H2) as R2. cbv zeta in R1, R2.
      revert R1 R2. generalize (foldl step st1 B1).1 (foldl step st2 B2).1. intros f1 f2 R1 R2. setoid_rewrite <- HP in R2.
      destruct R1 as [(v1 & F1 & C1 & (g1 & G1 & A1) & U1)|(N1 & E1 & Z1)], R2 as [(v2 & F2 & C2 & (g2 & G2 & A2) & U2)|(N2 & E2 & Z2)].
      - rewrite F1, F2. f_equal. eauto.
      - rewrite (N2 _ _ G1 A1) in C1. discriminate.
      - rewrite (N1 _ _ G2 A2) in C2. discriminate.
      - rewrite Es in Z1. destruct E1 as [E1|(Ec & n1 & E1 & V1 & K1)], E2 as [E2|(Ec' & n2 & E2 & V2 & K2)].
        + congruence.
        + rewrite Ec' in E1. rewrite E1. symmetry. apply Z2. apply Z1. exact E1.
        + rewrite Ec in E2. rewrite E2. apply Z1. apply Z2. exact E2.
        + rewrite E1, E2. f_equal. auto.
    Qed.
  End block.

  Lemma sorted_split k l : sorted (o_min o) l -> (forall g, g ∈ l -> (k <= o_min o g)%Z) ->
    exists B T, l = B ++ T /\ (forall g, g ∈ B -> o_min o g = k) /\ (forall g, g ∈ T -> (k < o_min o g)%Z) /\ sorted (o_min o) T.
  Proof.
    induction l as [|g l IH]; intros Hs Hk.
    { exists [], []. split_and!; try (intros ? H; inversion H). - reflexivity. - exact I. }
    destruct Hs as [Hall Hs'].
    destruct (Z.eq_dec (o_min o g) k) as [Eg|Ng].
    - destruct IH as (B & T & -> & HB & HT & HsT); [exact Hs'|intros; apply Hk; right; assumption|].
      exists (g :: B), T. split_and!; auto. intros g' Hg'. apply elem_of_cons in Hg' as [->|Hg']; auto.
    - exists [], (g :: l). split_and!; [reflexivity|intros ? H; inversion H| |split; assumption].
      pose proof (Hk g ltac:(left)). intros g' Hg'. apply elem_of_cons in Hg' as [->|Hg']; [lia|].
      specialize (Hall g' Hg'). lia.
  Qed.

  Lemma oks_app st l1 l2 : oks st (l1 ++ l2) <-> oks st l1 /\ oks (foldl step st l1) l2.
  Proof.
    revert st. induction l1 as [|g l1 IH]; intros st; cbn; [tauto|]. rewrite IH. tauto.
  Qed.
  Lemma known_fold l st : (forall g, g ∈ l -> g <> s_all) -> (forall c, st.1 = Some c -> known c) ->
    forall c, (foldl step st l).1 = Some c -> known c.
  Proof.
    revert st. induction l as [|g l IH]; intros st Hl H; cbn [foldl]; [exact H|].
    apply IH; [intros g' Hg'; apply Hl; right; exact Hg'|]. intros c. unfold astep. rewrite eff_plain by (apply Hl; left).
    destruct (a g) eqn:Ea; cbn [fst]; [intros [= <-]; eauto|apply H].
  Qed.
  Lemma perm_split B1 T1 B2 T2 (k : Z) : B1 ++ T1 ≡ₚ B2 ++ T2 ->
    (forall g, g ∈ B1 -> o_min o g = k) -> (forall g, g ∈ T1 -> (k < o_min o g)%Z) ->
    (forall g, g ∈ B2 -> o_min o g = k) -> (forall g, g ∈ T2 -> (k < o_min o g)%Z) -> B1 ≡ₚ B2 /\ T1 ≡ₚ T2.
  Proof.
    intros HP HB1 HT1 HB2 HT2.
    assert (F : forall B T, (forall g, g ∈ B -> o_min o g = k) -> (forall g, g ∈ T -> (k < o_min o g)%Z) ->
      filter (fun g => o_min o g = k) (B ++ T) = B /\ filter (fun g => o_min o g <> k) (B ++ T) = T).
    { intros B T HB HT. rewrite !filter_app.
      assert (FB : forall P `{forall g, Decision (P g)} (l : list pystr), (forall g, g ∈ l -> P g) -> filter P l = l).
      { intros P ? l. induction l as [|g l IH]; intros HP'; [reflexivity|]. rewrite filter_cons_True by (apply HP'; left).
        f_equal. apply IH. intros; apply HP'; right; assumption. }
      assert (FT : forall P `{forall g, Decision (P g)} (l : list pystr), (forall g, g ∈ l -> ~ P g) -> filter P l = []).
      { intros P ? l. induction l as [|g l IH]; intros HP'; [reflexivity|]. rewrite filter_cons_False by (apply HP'; left).
        apply IH. intros; apply HP'; right; assumption. }
      rewrite (FB _ _ B) by exact HB. rewrite (FT _ _ T), app_nil_r by (intros g Hg; specialize (HT g Hg); lia).
      rewrite (FT _ _ B) by (intros g Hg; specialize (HB g Hg); lia). rewrite (FB _ _ T) by (intros g Hg; specialize (HT g Hg); lia).
      split; reflexivity. }
    destruct (F B1 T1 HB1 HT1) as [F1 F1']. destruct (F B2 T2 HB2 HT2) as [F2 F2'].
    split; [rewrite <- F1, <- F2|rewrite <- F1', <- F2']; rewrite HP; reflexivity.
  Qed.

  Theorem ties_same : forall n r1 r2 st1 st2, length r1 <= n -> r1 ≡ₚ r2 -> sorted (o_min o) r1 -> sorted (o_min o) r2 ->
    (forall g, g ∈ r1 -> (o_min o g <= o_max o g)%Z /\ g <> s_all) ->
    st1.1 = st2.1 -> (forall c, st1.1 = Some c -> known c) -> oks st1 r1 -> oks st2 r2 ->
    (foldl step st1 r1).1 = (foldl step st2 r2).1.
  Proof.
    induction n as [|n IH]; intros r1 r2 st1 st2 Hlen HP S1 S2 Hg Es Hk O1 O2.
    { destruct r1; [|cbn in Hlen; lia]. apply Permutation_nil in HP as ->. exact Es. }
    destruct r1 as [|g0 r1]; [apply Permutation_nil in HP as ->; exact Es|].
    set (k := o_min o g0).
    assert (K1 : forall g, g ∈ g0 :: r1 -> (k <= o_min o g)%Z).
    { intros g Hin. apply elem_of_cons in Hin as [->|Hin]; [reflexivity|]. apply S1. exact Hin. }
    assert (K2 : forall g, g ∈ r2 -> (k <= o_min o g)%Z) by (intros g Hin; apply K1; rewrite HP; exact Hin).
    destruct (sorted_split k _ S1 K1) as (B1 & T1 & E1 & HB1 & HT1 & ST1).
    destruct (sorted_split k _ S2 K2) as (B2 & T2 & E2 & HB2 & HT2 & ST2).
    rewrite E1, E2 in *. destruct (perm_split _ _ _ _ k HP HB1 HT1 HB2 HT2) as [PB PT].
    rewrite !foldl_app. apply oks_app in O1 as [O1 O1'], O2 as [O2 O2'].
    apply IH; auto.
    - assert (Hb : 1 <= length B1).
      { destruct B1; [|cbn; lia]. cbn in E1. subst T1. specialize (HT1 g0 ltac:(left)). unfold k in HT1. lia. }
      rewrite app_length in Hlen. lia.
    - intros g Hin. apply Hg. apply elem_of_app. auto.
    - apply (block_same k); auto. intros g Hin. destruct (Hg g) as [H1 H2]; [apply elem_of_app; auto|].
      pose proof (HB1 g Hin). split_and!; [assumption|lia|assumption].
    - apply known_fold; [|exact Hk]. intros g Hin. apply Hg, elem_of_app. auto.
  Qed.
End ties.
