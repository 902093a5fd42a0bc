(** Correctness of [rank_sort]. *)
From Coq Require Import Lia ZifyBool ZifyNat.
From Verif Require Import Base Ranks Spec_Ranks.

Section paths.
  Context {T : Type} (edge : T -> T -> Prop).

  Lemma path_app u n w m v : path edge u n w -> path edge w m v -> path edge u (n + m) v.
  Proof. induction 1; cbn; intros; [assumption|]. econstructor; eauto. Qed.

  Lemma path_snoc u n w v : path edge u n w -> edge w v -> path edge u (S n) v.
  Proof. intros H He. replace (S n) with (n + 1) by lia. eapply path_app; [exact H|]. econstructor; [exact He|constructor]. Qed.

  Lemma path_last u n v : path edge u (S n) v -> exists w, path edge u n w /\ edge w v.
  Proof.
    revert u. induction n as [|n IH]; intros u H; inversion H as [|? w ? ? He Hp]; subst.
    - inversion Hp; subst. exists u. split; [constructor|assumption].
    - destruct (IH _ Hp) as (x & H1 & H2). exists x. split; [econstructor; eauto|assumption].
  Qed.

  Lemma path_split u n m v : path edge u (n + m) v -> exists w, path edge u n w /\ path edge w m v.
  Proof.
    revert u. induction n as [|n IH]; intros u H; cbn in H.
    - exists u. split; [constructor|assumption].
    - inversion H as [|? w ? ? He Hp]; subst. destruct (IH _ Hp) as (x & ? & ?).
      exists x. split; [econstructor; eauto|assumption].
  Qed.

  Lemma depth_unique v n m : depth edge v n -> depth edge v m -> n = m.
  Proof. intros [[u Hu] Hn] [[w Hw] Hm]. apply Hn in Hw. apply Hm in Hu. lia. Qed.
  Lemma height_unique v n m : height edge v n -> height edge v m -> n = m.
  Proof. intros [[u Hu] Hn] [[w Hw] Hm]. apply Hn in Hw. apply Hm in Hu. lia. Qed.
End paths.

Section proofs.
  Context {T : Type} `{EqDecision T}.
  Variable vertices : list T.
  Variable preds : T -> list T.
  Variable childs : T -> list T.
  Hypothesis Hg : graph_of vertices preds childs.

  Notation E := (edge_of vertices childs).
  Notation len := (length vertices).
  Notation cyc := (cyclic E).

  Lemma is_vertex_true v : is_vertex vertices v = true <-> v ∈ vertices.
  Proof. apply bool_decide_eq_true. Qed.

  Lemma edge_in u v : E u v -> u ∈ vertices /\ v ∈ vertices.
  Proof. destruct Hg as (H1 & _ & _). intros [Hu Hc]. eauto. Qed.

  Lemma path_vertices u n v : path E u n v -> u ∈ vertices -> 
    exists l, length l = S n /\ (forall x, x ∈ l -> x ∈ vertices /\ exists k, path E u k x) /\ (NoDup l \/ cyc).
  Proof.
    induction 1 as [v|u w v n He Hp IH]; intros Hu.
    { exists [v]. split; [reflexivity|]. split.
      - intros x ->%elem_of_list_singleton. split; [assumption|]. exists 0%nat. constructor.
      - left. apply NoDup_singleton. }
    destruct (edge_in _ _ He) as [_ Hw]. destruct (IH Hw) as (l & Hl & Hx & Hd).
    exists (u :: l). split; [cbn; lia|]. split.
    - intros x [->|Hin]%elem_of_cons; [split; [assumption|exists 0%nat; constructor]|].
      destruct (Hx x Hin) as [? [k ?]]. split; [assumption|]. exists (S k). econstructor; eauto.
    - destruct Hd as [Hd|]; [|auto]. destruct (decide (u ∈ l)) as [Hin|Hin]; [|left; constructor; assumption].
      right. destruct (Hx u Hin) as [_ [k Hk]]. exists u, k. econstructor; eauto.
  Qed.

  Lemma long_path_cyclic u n v : path E u n v -> u ∈ vertices -> (len <= n)%nat -> cyc.
  Proof.
    intros Hp Hu Hn. destruct (path_vertices _ _ _ Hp Hu) as (l & Hl & Hx & [Hd|]); [|assumption].
    exfalso. assert (length l <= len)%nat; [|lia].
    apply submseteq_length. apply NoDup_submseteq; [assumption|]. intros x Hin. apply Hx, Hin.
  Qed.

  (** ** find_root *)
  Lemma find_root_spec fuel : forall visited root start,
    NoDup visited -> (forall x, x ∈ visited -> x ∈ vertices /\ exists k, path E root k x) ->
    root ∈ visited -> start ∈ visited -> (S len <= length visited + fuel)%nat ->
    match find_root vertices preds fuel visited root with
    | Done r => preds r = [] /\ r ∈ vertices /\ exists k, path E r k start
    | Cycle _ => cyc
    | _ => False
    end.
  Proof.
    induction fuel as [|fuel IH]; intros visited root start Hnd Hv Hr Hs Hf; cbn [find_root].
    all: destruct (preds root) as [|p ps] eqn:Hp;
      [split; [assumption|split; [apply (Hv root Hr)|apply (Hv start Hs)]]|].
    all: destruct (Hv root Hr) as [Hroot _].
    all: assert (Hpv : p ∈ vertices) by (destruct Hg as (_ & H2 & _); apply (H2 p root Hroot); rewrite Hp; left).
    all: assert (He : E p root)
      by (split; [assumption|]; destruct Hg as (_ & _ & H3); apply H3; auto; rewrite Hp; left).
    all: rewrite (proj2 (is_vertex_true p) Hpv); cbn [negb].
    all: case_bool_decide as Hvis; [destruct (Hv p Hvis) as [_ [k Hk]]; exists p, k; econstructor; eauto|].
    - exfalso. assert (length (p :: visited) <= len)%nat.
      { apply submseteq_length, NoDup_submseteq; [constructor; assumption|].
        intros x [->|Hx]%elem_of_cons; [assumption|]. apply Hv, Hx. }
      cbn in *. lia.
    - apply IH; try (cbn; lia).
      + constructor; assumption.
      + intros x [->|Hx]%elem_of_cons; [split; [assumption|exists 0%nat; constructor]|].
        destruct (Hv x Hx) as [? [k ?]]. split; [assumption|]. exists (S k). econstructor; eauto.
      + left.
      + right. assumption.
  Qed.

  (** ** bfs *)
  Record inv (m : T -> Z) (q : list (T * T)) : Prop := {
    inv_range : forall v, (-1 <= m v <= Z.of_nat len)%Z;
    inv_path : forall v, (0 <= m v)%Z -> v ∈ vertices /\ exists u, u ∈ vertices /\ path E u (Z.to_nat (m v)) v;
    inv_closed : forall v c, (0 <= m v)%Z -> c ∈ childs v -> (m v + 1 <= m c)%Z \/ (c, v) ∈ q;
    inv_queue : forall n p, (n, p) ∈ q -> (0 <= m p)%Z /\ n ∈ childs p
  }.

  Definition weight (m : T -> Z) : nat :=
    sum_list_with (fun v => Z.to_nat (Z.of_nat len - m v) * length (childs v)) vertices.

  Lemma weight_upd m n r : n ∈ vertices -> (m n < r <= Z.of_nat len)%Z ->
    (weight (upd m n r) + length (childs n) <= weight m)%nat.
  Proof.
    unfold weight. intros Hin Hr.
    assert (Hle : forall l, (sum_list_with (fun v => Z.to_nat (Z.of_nat len - upd m n r v) * length (childs v)) l
      <= sum_list_with (fun v => Z.to_nat (Z.of_nat len - m v) * length (childs v)) l)%nat).
    { induction l as [|x l IH]; cbn; [lia|]. unfold upd at 1. destruct (decide (x = n)); [subst|lia].
      assert (Z.to_nat (Z.of_nat len - r) * length (childs n) <= Z.to_nat (Z.of_nat len - m n) * length (childs n))%nat;
        [apply Nat.mul_le_mono_r; lia|lia]. }
    generalize dependent len. intros L Hr Hle. clear -Hin Hr Hle.
    induction vertices as [|x l IH]; [inversion Hin|]. apply elem_of_cons in Hin as [->|Hin]; cbn.
    - unfold upd at 1. destruct (decide (x = x)); [|congruence].
      assert (Z.to_nat (Z.of_nat L - r) * length (childs x) + length (childs x) <= Z.to_nat (Z.of_nat L - m x) * length (childs x))%nat; [|specialize (Hle l); lia].
      replace (Z.to_nat (Z.of_nat L - r) * length (childs x) + length (childs x))%nat with ((Z.to_nat (Z.of_nat L - r) + 1) * length (childs x))%nat by lia.
      apply Nat.mul_le_mono_r. lia.
    - specialize (IH Hin). unfold upd at 1. destruct (decide (x = n)); [subst|lia].
      assert (Z.to_nat (Z.of_nat L - r) * length (childs n) <= Z.to_nat (Z.of_nat L - m n) * length (childs n))%nat;
        [apply Nat.mul_le_mono_r; lia|lia].
  Qed.

  Lemma weight_bound m : (forall v, (-1 <= m v)%Z) -> (weight m <= (len + 1) * deg_sum vertices childs)%nat.
  Proof.
    unfold weight, deg_sum. intros H. generalize len. intros L. clear Hg.
    induction vertices as [|x l IH]; cbn; [lia|]. rewrite Nat.mul_add_distr_l.
    apply Nat.add_le_mono; [apply Nat.mul_le_mono_r; specialize (H x); lia|exact IH].
  Qed.

  Lemma bfs_spec fuel : forall m q, inv m q -> (length q + weight m <= fuel)%nat ->
    match bfs vertices childs fuel m q with
    | Done m' => inv m' [] /\ forall v, (m v <= m' v)%Z
    | Cycle _ => cyc
    | _ => False
    end.
  Proof.
    induction fuel as [|fuel IH]; intros m q Hinv Hf; cbn [bfs].
    { destruct q; [|cbn in Hf; lia]. split; [assumption|reflexivity]. }
    destruct q as [|[n p] q]; [split; [assumption|reflexivity]|].
    destruct (inv_queue _ _ Hinv n p) as [Hp Hnp]; [left|].
    destruct (inv_path _ _ Hinv p Hp) as [Hpv (u & Hu & Hpath)].
    assert (Hnv : n ∈ vertices) by (destruct Hg as (H1 & _ & _); eauto).
    destruct (Z.ltb_spec (Z.of_nat len) (m p + 1)) as [Hlt|Hge].
    { pose proof (inv_range _ _ Hinv p). apply (long_path_cyclic _ _ _ Hpath Hu). lia. }
    rewrite (proj2 (is_vertex_true n) Hnv). cbn [negb].
    destruct (Z.leb_spec (m p + 1) (m n)) as [Hle|Hgt].
    - apply IH; [|cbn in Hf; lia]. split; try apply Hinv.
      + intros v c Hv Hc. destruct (inv_closed _ _ Hinv v c Hv Hc) as [|Hin]; [auto|].
        apply elem_of_cons in Hin as [[= -> ->]|]; auto.
      + intros n' p' Hin. apply (inv_queue _ _ Hinv). right. assumption.
    - assert (Hinv' : inv (upd m n (m p + 1)) (q ++ List.map (fun c => (c, n)) (childs n))).
      { split.
        - intros v. unfold upd. destruct (decide (v = n)); [lia|apply Hinv].
        - intros v. unfold upd. destruct (decide (v = n)) as [->|]; [|apply Hinv].
          intros _. split; [assumption|]. exists u. split; [assumption|].
          replace (Z.to_nat (m p + 1)) with (S (Z.to_nat (m p))) by lia.
          eapply path_snoc; [exact Hpath|]. split; assumption.
        - intros v c. unfold upd at 1 2. destruct (decide (v = n)) as [->|Hne].
          + intros _ Hc. right. apply elem_of_app. right. apply elem_of_list_fmap. eauto.
          + intros Hv Hc. destruct (inv_closed _ _ Hinv v c Hv Hc) as [Hle|Hin].
            * left. unfold upd. destruct (decide (c = n)); [subst; lia|assumption].
            * apply elem_of_cons in Hin as [[= -> ->]|]; [|right; apply elem_of_app; auto].
              left. unfold upd. destruct (decide (n = n)); [lia|congruence].
        - intros n' p' [Hin|Hin]%elem_of_app.
          + destruct (inv_queue _ _ Hinv n' p') as [? ?]; [right; assumption|].
            split; [|assumption]. unfold upd. destruct (decide (p' = n)); lia.
          + apply elem_of_list_fmap in Hin as (c & [= -> ->] & Hc). split; [|assumption].
            unfold upd. destruct (decide (n = n)); [lia|congruence]. }
      pose proof (weight_upd m n (m p + 1) Hnv) as Hw.
      specialize (IH _ _ Hinv'). rewrite app_length, map_length in IH. cbn [length] in Hf.
      assert (Hrange : (m n < m p + 1 <= Z.of_nat len)%Z) by lia. specialize (Hw Hrange).
      assert (Hfuel : (length q + length (childs n) + weight (upd m n (m p + 1)) <= fuel)%nat) by lia.
      specialize (IH Hfuel).
      destruct (bfs _ _ _ _ _); try assumption. destruct IH as [? Hm]. split; [assumption|].
      intros v. specialize (Hm v). unfold upd in Hm. destruct (decide (v = n)); [subst; lia|assumption].
  Qed.

  Lemma closed_path m : inv m [] -> forall u n v, path E u n v -> (0 <= m u)%Z -> (m u + Z.of_nat n <= m v)%Z.
  Proof.
    intros Hinv. induction 1 as [|u w v n [Hu Hc] Hp IH]; intros H; [lia|].
    destruct (inv_closed _ _ Hinv u w H Hc) as [|Hin]; [|inversion Hin]. lia.
  Qed.

  Definition unranked (m : T -> Z) : list T := filter (fun v => m v = (-1)%Z) vertices.

  Lemma filter_strict (P Q : T -> Prop) `{!forall x, Decision (P x), !forall x, Decision (Q x)} l x :
    (forall y, Q y -> P y) -> x ∈ l -> P x -> ~ Q x -> (length (filter Q l) < length (filter P l))%nat.
  Proof.
    intros HQP Hx HP HQ.
    assert (Hle : forall l, (length (filter Q l) <= length (filter P l))%nat).
    { induction l0 as [|y l0 IH]; [reflexivity|]. rewrite !filter_cons.
      destruct (decide (Q y)); destruct (decide (P y)); cbn; try lia. exfalso; auto. }
    induction l as [|y l IH]; [inversion Hx|]. rewrite !filter_cons.
    apply elem_of_cons in Hx as [->|Hx].
    - destruct (decide (Q y)); [contradiction|]. destruct (decide (P y)); [|contradiction].
      cbn. specialize (Hle l). lia.
    - specialize (IH Hx). destruct (decide (Q y)); destruct (decide (P y)); cbn; try lia. exfalso; auto.
  Qed.

  Lemma rank_loop_spec fuel : forall m, inv m [] -> (length (unranked m) <= fuel)%nat ->
    match rank_loop vertices preds childs fuel m with
    | Done m' => inv m' [] /\ forall v, v ∈ vertices -> (0 <= m' v)%Z
    | Cycle _ => cyc
    | _ => False
    end.
  Proof.
    assert (Hnone : forall m, inv m [] -> List.find (fun v => (m v =? -1)%Z) vertices = None ->
      forall v, v ∈ vertices -> (0 <= m v)%Z).
    { intros m Hinv Hn v Hv. pose proof (List.find_none _ _ Hn v) as H. cbn in H.
      rewrite <- elem_of_list_In in H. specialize (H Hv). pose proof (inv_range _ _ Hinv v). lia. }
    induction fuel as [|fuel IH]; intros m Hinv Hf; cbn [rank_loop].
    all: destruct (List.find (fun v => (m v =? -1)%Z) vertices) as [start|] eqn:Hfind; [|split; [assumption|eauto]].
    all: apply List.find_some in Hfind as [Hin%elem_of_list_In Hs].
    { assert (Hu : start ∈ unranked m) by (apply elem_of_list_filter; split; [lia|assumption]).
      destruct (unranked m); [inversion Hu|cbn in Hf; lia]. }
    pose proof (find_root_spec len [start] start start) as Hroot.
    destruct (find_root vertices preds len [start] start) as [root|c| |].
    2: { apply Hroot; auto using NoDup_singleton; try (cbn; lia); try left.
         intros x ->%elem_of_list_singleton. split; [assumption|exists 0%nat; constructor]. }
    2,3: apply Hroot; auto using NoDup_singleton; try (cbn; lia); try left;
         intros x ->%elem_of_list_singleton; split; [assumption|exists 0%nat; constructor].
    destruct Hroot as (Hp & Hrv & k & Hpath).
    { apply NoDup_singleton. }
    { intros x ->%elem_of_list_singleton. split; [assumption|exists 0%nat; constructor]. }
    { left. } { left. } { cbn; lia. }
    assert (Hnoedge : forall v, ~ (v ∈ vertices /\ root ∈ childs v)).
    { intros v [Hv Hc]. destruct Hg as (_ & _ & H3). apply H3 in Hc; auto. rewrite Hp in Hc. inversion Hc. }
    assert (Hm0 : (m root <= 0)%Z).
    { destruct (Z.leb_spec (m root) 0) as [|Hgt]; [assumption|].
      destruct (inv_path _ _ Hinv root) as [_ (u & _ & Hu)]; [lia|].
      destruct (Z.to_nat (m root)) as [|n] eqn:En; [lia|].
      apply path_last in Hu as (w & _ & He). exfalso. apply (Hnoedge w). exact He. }
    set (queue := List.map (fun c => (c, root)) (childs root)).
    assert (Hinv' : inv (upd m root 0) queue).
    { split.
      - intros v. unfold upd. destruct (decide (v = root)); [lia|apply Hinv].
      - intros v. unfold upd. destruct (decide (v = root)) as [->|]; [|apply Hinv].
        intros _. split; [assumption|]. exists root. split; [assumption|constructor].
      - intros v c. unfold upd at 1 2. destruct (decide (v = root)) as [->|].
        + intros _ Hc. right. apply elem_of_list_fmap. eauto.
        + intros Hv Hc. destruct (inv_closed _ _ Hinv v c Hv Hc) as [Hle|Hq]; [|inversion Hq].
          left. unfold upd. destruct (decide (c = root)); [|assumption]. subst c.
          exfalso. apply (Hnoedge v). split; [|assumption]. apply (inv_path _ _ Hinv v Hv).
      - intros n p (c & [= -> ->] & Hc)%elem_of_list_fmap. split; [|assumption].
        unfold upd. destruct (decide (root = root)); [lia|congruence]. }
    pose proof (bfs_spec (bfs_fuel vertices childs queue) (upd m root 0) queue Hinv') as Hb.
    assert (Hfuel : (length queue + weight (upd m root 0) <= bfs_fuel vertices childs queue)%nat).
    { unfold bfs_fuel. pose proof (weight_bound (upd m root 0)) as Hw.
      assert (forall v, (-1 <= upd m root 0 v)%Z) by (intros v; apply (inv_range _ _ Hinv' v)). specialize (Hw ltac:(assumption)). lia. }
    specialize (Hb Hfuel).
    destruct (bfs vertices childs _ (upd m root 0) queue) as [m'|c| |]; try assumption.
    destruct Hb as [Hinv'' Hmono].
    apply IH; [assumption|].
    assert (Hroot0 : (0 <= m' root)%Z).
    { specialize (Hmono root). unfold upd in Hmono. destruct (decide (root = root)); [lia|congruence]. }
    pose proof (closed_path m' Hinv'' _ _ _ Hpath Hroot0) as Hst.
    assert (length (unranked m') < length (unranked m))%nat; [|lia].
    unfold unranked. apply (filter_strict _ _ vertices start); [|assumption|lia|lia].
    intros y Hy. specialize (Hmono y). unfold upd in Hmono.
    pose proof (inv_range _ _ Hinv y). destruct (decide (y = root)); [lia|lia].
  Qed.

  Lemma late_ok m : inv m [] -> (forall v, v ∈ vertices -> (0 <= m v)%Z) ->
    forall vs, (forall v, v ∈ vs -> v ∈ vertices) -> late_check vertices childs m vs = Done tt.
  Proof.
    intros Hinv Hr. induction vs as [|v vs IH]; intros Hvs; cbn [late_check]; [reflexivity|].
    assert (Hv : v ∈ vertices) by (apply Hvs; left).
    assert (G : forall cs, (forall c, c ∈ cs -> c ∈ childs v) -> late_edges vertices m v cs = Done tt).
    { induction cs as [|c cs IHc]; intros Hcs; cbn [late_edges]; [reflexivity|].
      assert (Hc : c ∈ childs v) by (apply Hcs; left).
      assert (Hcv : c ∈ vertices) by (destruct Hg as (H1 & _ & _); eauto).
      rewrite (proj2 (is_vertex_true c) Hcv). cbn [negb].
      destruct (inv_closed _ _ Hinv v c (Hr v Hv) Hc) as [|Hq]; [|inversion Hq].
      destruct (Z.leb_spec (m c) (m v)); [lia|]. apply IHc. intros; apply Hcs; right; assumption. }
    rewrite G by auto. apply IH. intros; apply Hvs; right; assumption.
  Qed.

  Theorem rank_sort_spec :
    match rank_sort vertices preds childs with
    | Done m => ~ cyc /\ forall v, v ∈ vertices -> exists n, m v = Z.of_nat n /\ depth E v n
    | Cycle _ => cyc
    | _ => False
    end.
  Proof.
    unfold rank_sort.
    assert (Hinit : inv (fun _ => (-1)%Z) []).
    { split; intros; try lia. match goal with H : _ ∈ [] |- _ => inversion H end. }
    pose proof (rank_loop_spec len (fun _ => (-1)%Z) Hinit) as H.
    assert (Hl : (length (unranked (fun _ => (-1)%Z)) <= len)%nat).
    { unfold unranked. apply filter_length. }
    specialize (H Hl).
    destruct (rank_loop vertices preds childs len _) as [m|c| |]; try assumption.
    destruct H as [Hinv Hr]. rewrite (late_ok m Hinv Hr vertices) by auto. split.
    - intros (v & n & Hp). assert (Hv : v ∈ vertices) by (inversion Hp as [|? ? ? ? [? ?] ?]; subst; assumption).
      pose proof (closed_path m Hinv _ _ _ Hp (Hr v Hv)). lia.
    - intros v Hv. exists (Z.to_nat (m v)). pose proof (Hr v Hv). split; [lia|]. split.
      + destruct (inv_path _ _ Hinv v (Hr v Hv)) as [_ (u & _ & Hu)]. eauto.
      + intros u k Hp.
        destruct k as [|k]; [lia|].
        assert (Hu : u ∈ vertices) by (inversion Hp as [|? ? ? ? [? ?] ?]; subst; assumption).
        pose proof (closed_path m Hinv _ _ _ Hp (Hr u Hu)). pose proof (Hr u Hu). lia.
  Qed.
End proofs.
