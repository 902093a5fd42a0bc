(** Lemmas about values and the operation API. *)
From Coq Require Import Lia.
From stdpp Require Import gmap.
From Verif Require Import Base Dict_proofs Control Control_proofs Op Spec_Op.
Local Open Scope nat_scope.

(** ** Values *)
Section ind.
  Variable P : pv -> Prop.
  Hypothesis (HN : P VNone) (HB : forall b, P (VBool b)) (HI : forall z, P (VInt z)) (HS : forall s, P (VStr s)) (HY : forall s, P (VBytes s)).
  Hypothesis HL : forall l, Forall P l -> P (VList l).
  Hypothesis HD : forall d, Forall (fun kv => P (snd kv)) d -> P (VDict d).
  Fixpoint pv_ind' (v : pv) : P v :=
    match v with
    | VNone => HN | VBool b => HB b | VInt z => HI z | VStr s => HS s | VBytes s => HY s
    | VList l => HL l ((fix go (l : list pv) : Forall P l := match l with [] => Forall_nil_2 _ | v :: r => Forall_cons_2 _ _ _ (pv_ind' v) (go r) end) l)
    | VDict d => HD d ((fix go (d : state) : Forall (fun kv => P (snd kv)) d :=
        match d with [] => Forall_nil_2 _ | kv :: r => Forall_cons_2 _ _ _ (pv_ind' (snd kv)) (go r) end) d)
    end.
End ind.

Lemma dget_in {V} k (v : V) d : dget k d = Some v -> (k, v) ∈ d.
Proof.
  induction d as [|[k' v'] d IH]; [discriminate|]. cbn. destruct (str_eqb_spec k k') as [-> |].
  - intros [= ->]. left.
  - intros H. right. auto.
Qed.
Lemma in_dget {V} k (v : V) d : NoDup (fst <$> d) -> (k, v) ∈ d -> dget k d = Some v.
Proof.
  induction d as [|[k' v'] d IH]; [intros _ H; inversion H|]. cbn. intros [H1 H2]%NoDup_cons H. apply elem_of_cons in H as [[= -> ->]|H].
  - destruct (str_eqb_spec k' k'); [reflexivity|congruence].
  - destruct (str_eqb_spec k k') as [-> |]; [|auto]. destruct H1. apply elem_of_list_fmap. exists (k', v). auto.
Qed.
Lemma dget_none {V} k (d : list (pystr * V)) : dget k d = None <-> k ∉ (fst <$> d).
Proof.
  induction d as [|[k' v'] d IH]; cbn; [split; [intros _ H; inversion H|auto]|]. destruct (str_eqb_spec k k') as [-> |Hne].
  - split; [discriminate|]. intros H. destruct H. left.
  - rewrite IH. rewrite not_elem_of_cons. tauto.
Qed.

Lemma py_eq_dict (x y : state) : py_eq (VDict x) (VDict y) = (length x =? length y) && forallb (fun kv => match dget (fst kv) y with Some w => py_eq (snd kv) w | None => false end) x.
Proof. cbn. f_equal. induction x as [|[k v] r IH]; [reflexivity|]. cbn. rewrite IH. reflexivity. Qed.
Lemma py_eq_list_cons a b x y : py_eq (VList (a :: x)) (VList (b :: y)) = py_eq a b && py_eq (VList x) (VList y).
Proof. reflexivity. Qed.

Lemma NoDup_subset_length {A} `{EqDecision A} (l k : list A) : NoDup l -> (forall x, x ∈ l -> x ∈ k) -> length l <= length k.
Proof. intros H1 H2. apply submseteq_length. apply NoDup_submseteq; assumption. Qed.
Lemma NoDup_same_length {A} `{EqDecision A} (l k : list A) : NoDup l -> length k <= length l -> (forall x, x ∈ l -> x ∈ k) -> NoDup k -> forall x, x ∈ k -> x ∈ l.
Proof.
  intros H1 H2 H3 H4 x Hx. assert (Hs : l ⊆+ k) by (apply NoDup_submseteq; assumption).
  rewrite (submseteq_Permutation_length_le _ _ H2 Hs). assumption.
Qed.
Lemma py_eq_same a : forall b, proper a -> proper b -> py_eq a b = true <-> same a b.
Proof.
  induction a as [|a|z|s|s|l IH|d IH] using pv_ind'; intros b Ha Hb.
  - destruct b; cbn; split; intros H; try discriminate; try (inversion H; fail); constructor.
  - destruct b as [|b'| | | | |]; cbn; split; intros H; try discriminate; try (inversion H; fail).
    + apply Bool.eqb_prop in H. subst. constructor.
    + inversion H. apply Bool.eqb_reflx.
  - destruct b as [| |z'| | | |]; cbn; split; intros H; try discriminate; try (inversion H; fail).
    + apply Z.eqb_eq in H. subst. constructor.
    + inversion H. apply Z.eqb_refl.
  - destruct b as [| | |s'| | |]; cbn [py_eq]; split; intros H; try discriminate; try (inversion H; fail).
    + destruct (str_eqb_spec s s'); [subst; constructor|discriminate].
    + inversion H. subst. destruct (str_eqb_spec s' s'); congruence.
  - destruct b as [| | | |s'| |]; cbn [py_eq]; split; intros H; try discriminate; try (inversion H; fail).
    + apply bool_decide_eq_true in H. subst. constructor.
    + inversion H. apply bool_decide_eq_true_2. reflexivity.
  - destruct b as [| | | | |l'|]; try (cbn; split; intros H; [discriminate|inversion H]; fail).
    inversion Ha as [| | | | |? Hl|]; subst. inversion Hb as [| | | | |? Hl'|]; subst. clear Ha Hb. revert l' Hl'.
    induction l as [|x l IHl]; intros [|y l'] Hl'.
    + split; [constructor|reflexivity].
    + split; intros H; [discriminate|inversion H].
    + split; intros H; [discriminate|inversion H].
    + apply Forall_cons in IH as [IH1 IH2], Hl as [Hl1 Hl2], Hl' as [Hl'1 Hl'2]. rewrite py_eq_list_cons, andb_true_iff.
      rewrite (IH1 y Hl1 Hl'1), (IHl IH2 Hl2 l' Hl'2). split; [intros [H1 H2]; constructor; assumption|intros H; inversion H; auto].
  - destruct b as [| | | | | |e]; try (cbn; split; intros H; [discriminate|inversion H]; fail).
    inversion Ha as [| | | | | |? Hk Hp]; subst. inversion Hb as [| | | | | |? Hk' Hp']; subst.
    rewrite py_eq_dict, andb_true_iff, Nat.eqb_eq, forallb_forall. rewrite Forall_forall in IH, Hp, Hp'. split.
    + intros [Hlen Hall].
      assert (Hsub : forall k, k ∈ keys d -> k ∈ keys e).
      { intros k H. apply elem_of_list_fmap in H as ([k' v] & -> & H). apply elem_of_list_In in H. specialize (Hall _ H). cbn in *.
        destruct (dget k' e) eqn:E; [|discriminate]. apply dget_in in E. apply elem_of_list_fmap. eexists (_, _). eauto. }
      constructor.
      * intros k. split; [auto|]. apply NoDup_same_length; auto. unfold keys. rewrite !fmap_length. lia.
      * intros k v w Hv Hw. pose proof Hv as Hv'. apply elem_of_list_In in Hv'. specialize (Hall _ Hv'). cbn in Hall.
        rewrite (in_dget k w e Hk' Hw) in Hall. apply (IH _ Hv) in Hall; [exact Hall|exact (Hp _ Hv)|exact (Hp' _ Hw)].
    + intros H. inversion H as [| | | | | | |? ? Hkeys Hvals]; subst. split.
      * assert (length (keys d) <= length (keys e)) by (apply NoDup_subset_length; [assumption|intros; apply Hkeys; assumption]).
        assert (length (keys e) <= length (keys d)) by (apply NoDup_subset_length; [assumption|intros; apply Hkeys; assumption]).
        unfold keys in *. rewrite !fmap_length in *. lia.
      * intros [k v] Hv. apply elem_of_list_In in Hv. cbn.
        assert (Hin : k ∈ keys e) by (apply Hkeys, elem_of_list_fmap; exists (k, v); auto).
        apply elem_of_list_fmap in Hin as ([k' w] & E & Hw). cbn in E. subst k'.
        rewrite (in_dget k w e Hk' Hw). apply (IH _ Hv); [exact (Hp _ Hv)|exact (Hp' _ Hw)|]. eapply Hvals; eassumption.
Qed.

(** ** Operations *)
Lemma obind_spec {A B} (m : O A) (f : A -> O B) o c r c' : (m ≫= f) o c = (r, c') ->
  (exists a o1 c1, m o c = (Ok (a, o1), c1) /\ f a o1 c1 = (r, c')) \/ (exists e, m o c = (Err e, c') /\ r = Err e).
Proof.
  intros E. unfold mbind, O_bind in E. apply bind_spec in E as [([a o1] & c1 & E1 & E2)|(e & E & ->)]; [left; eauto 8|right; eauto].
Qed.
Lemma obind_ok {A B} (m : O A) (f : A -> O B) o c a o1 c1 : m o c = (Ok (a, o1), c1) -> (m ≫= f) o c = f a o1 c1.
Proof. intros E. unfold mbind, O_bind. unfold mbind, W_bind. rewrite E. reflexivity. Qed.

(** what is recorded *)
Definition recorded (l : list call) (o : opst) : Prop :=
  initials l = option_list (op_initial o) /\ finals l = option_list (op_final o).
Definition set_nested_flag (l : list call) (b : bool) : bool := default b (last (nestings l)).
Lemma calls_snoc l x o c r c' : calls (l ++ [x]) o c = (r, c') ->
  (exists o1 c1, calls l o c = (Ok (tt, o1), c1) /\ call_ x o1 c1 = (r, c')) \/ (exists e, calls l o c = (Err e, c') /\ r = Err e).
Proof.
  revert o c. induction l as [|y l IH]; intros o c E; cbn [calls app] in E.
  - apply obind_spec in E as [([] & o1 & c1 & E1 & E2)|(e & E1 & ->)].
    + injection E2 as <- <-. left. exists o, c. auto.
    + left. exists o, c. auto.
  - apply obind_spec in E as [([] & o1 & c1 & E1 & E2)|(e & E1 & ->)].
    + apply IH in E2. destruct E2 as [(o2 & c2 & E2 & E3)|(e & E2 & ->)].
      * left. exists o2, c2. split; [|assumption]. cbn [calls]. rewrite (obind_ok _ _ _ _ _ _ _ E1). assumption.
      * right. exists e. split; [|reflexivity]. cbn [calls]. rewrite (obind_ok _ _ _ _ _ _ _ E1). assumption.
    + right. exists e. split; [|reflexivity]. cbn [calls]. unfold mbind, O_bind, mbind, W_bind. rewrite E1. reflexivity.
Qed.

Ltac api E := cbv [call_ nested add_nested_result initial_state final_state changed unchanged diff success failure
  mbind mret O_bind O_ret W_bind W_ret getO putO oraise olift wraise liftW] in E; cbn in E.

Lemma getO_bind {A} (f : opst -> O A) o c : (getO ≫= f) o c = f o o c.
Proof. reflexivity. Qed.
Lemma unchanged_spec b o c r c' : unchanged b o c = (r, c') -> c' = c /\
  match r with
  | Ok (x, o') => o' = o /\ exists i f, op_initial o = Some i /\ op_final o = Some f /\ (b = false -> x = py_eq (VDict i) (VDict f))
  | Err _ => True
  end.
Proof.
  unfold unchanged. rewrite getO_bind. destruct (op_initial o) as [i|]; [|intros [= <- <-]; auto].
  destruct (op_final o) as [f|]; [|intros [= <- <-]; auto]. destruct b.
  - unfold olift. intros E. apply bind_spec in E as [(x & c1 & E1 & E)|(e & E & ->)].
    + injection E1 as E1 <-. injection E as <- <-. split; [reflexivity|]. split; [reflexivity|]. exists i, f. split_and!; auto. discriminate.
    + injection E as _ <-. auto.
  - intros [= <- <-]. split; [reflexivity|]. split; [reflexivity|]. exists i, f. auto.
Qed.
Lemma changed_spec k o c r c' : changed k o c = (r, c') -> c' = c /\
  match r with
  | Ok (x, o') => o' = o /\ op_nested o = false
  | Err _ => True
  end.
Proof.
  unfold changed. rewrite getO_bind. destruct (op_nested o); [intros [= <- <-]; auto|]. destruct (op_initial o) as [i|]; [|intros [= <- <-]; auto].
  destruct (op_final o) as [f|]; [|intros [= <- <-]; auto]. destruct (dget k i), (dget k f); intros [= <- <-]; auto.
Qed.

(** one call *)
Lemma call_spec x o c o' c' : call_ x o c = (Ok (tt, o'), c') -> c' = c /\
  match x with
  | CNested b => op_nested o' = b /\ op_initial o' = op_initial o /\ op_final o' = op_final o
  | CAdd k r => op_nested o = true /\ op_nested o' = true /\ k ∉ keys (default [] (op_initial o)) /\ k ∉ keys (default [] (op_final o)) /\
      op_initial o' = Some (default [] (op_initial o) ++ [(k, VDict (or_initial r))]) /\
      op_final o' = Some (default [] (op_final o) ++ [(k, VDict (or_final r))])
  | CInitial kw => op_nested o = false /\ op_initial o = None /\ o' = Op false (Some kw) (op_final o) (op_diffs o)
  | CFinal kw => op_nested o = false /\ op_final o = None /\ o' = Op false (op_initial o) (Some kw) (op_diffs o)
  | CDiff _ _ _ => op_nested o = false /\ op_nested o' = false /\ op_initial o' = op_initial o /\ op_final o' = op_final o
  | CUnchanged _ | CChanged _ => o' = o
  end.
Proof.
  assert (Hset : forall k (v : pv) d, dget k d = None -> dset k v d = d ++ [(k, v)]).
  { intros k v. induction d as [|[k' v'] d IH]; [reflexivity|]. cbn. destruct (str_eqb k k'); [discriminate|]. intros H. rewrite IH by assumption. reflexivity. }
  destruct x as [b|k r|kw|kw|b|k|f a b]; cbn [call_]; intros E.
  - injection E as <- <-. auto.
  - unfold add_nested_result in E. rewrite getO_bind in E. destruct (op_nested o) eqn:En; [|discriminate]. cbn [negb] in E.
    destruct (dhas k (default [] (op_initial o)) || dhas k (default [] (op_final o))) eqn:Eh; [discriminate|].
    apply orb_false_iff in Eh as [H1 H2]. unfold dhas in H1, H2.
    destruct (dget k (default [] (op_initial o))) eqn:E1; [discriminate|]. destruct (dget k (default [] (op_final o))) eqn:E2; [discriminate|].
    injection E as <- <-. cbn. rewrite !Hset by assumption. apply dget_none in E1, E2. auto 10.
  - unfold initial_state in E. rewrite getO_bind in E. destruct (op_nested o) eqn:En; [discriminate|]. destruct (op_initial o); [discriminate|].
    injection E as <- <-. auto.
  - unfold final_state in E. rewrite getO_bind in E. destruct (op_nested o) eqn:En; [discriminate|]. destruct (op_final o); [discriminate|].
    injection E as <- <-. auto.
  - apply obind_spec in E as [(x & o1 & c1 & E1 & E)|(e & _ & [=])]. injection E as <- <-. apply unchanged_spec in E1 as [-> [-> _]]. auto.
  - apply obind_spec in E as [(x & o1 & c1 & E1 & E)|(e & _ & [=])]. injection E as <- <-. apply changed_spec in E1 as [-> [-> _]]. auto.
  - unfold diff in E. rewrite getO_bind in E. destruct (op_nested o) eqn:En; [discriminate|]. case_bool_decide; injection E as <- <-; auto.
Qed.
Lemma success_spec o c r o' c' : success o c = (Ok (r, o'), c') -> c' = c /\ o' = o /\
  exists i f, op_initial o = Some i /\ op_final o = Some f /\ r = OpRes true (negb (py_eq (VDict i) (VDict f))) i f None.
Proof.
  unfold success. rewrite getO_bind. destruct (op_initial o) as [i|] eqn:Ei; [|discriminate]. destruct (op_final o) as [f|] eqn:Ef; [|discriminate].
  intros E. apply obind_spec in E as [(x & o1 & c1 & E1 & E)|(e & _ & [=])]. apply unchanged_spec in E1 as [-> [-> (i' & f' & Hi & Hf & Hx)]].
  injection E as <- <- <-. rewrite Ei in Hi. rewrite Ef in Hf. injection Hi as <-. injection Hf as <-. rewrite Hx by reflexivity. eauto 10.
Qed.

Lemma omap_snoc {A B} (f : A -> option B) l x : omap f (l ++ [x]) = omap f l ++ option_list (f x).
Proof. rewrite omap_app. cbn. destruct (f x); reflexivity. Qed.
Lemma calls_once l : forall o c c', calls l new_op c = (Ok (tt, o), c') -> c' = c /\
  length (initials l) <= 1 /\ length (finals l) <= 1 /\ (initials l <> [] -> op_initial o <> None) /\ (finals l <> [] -> op_final o <> None).
Proof.
  induction l as [|x l IH] using rev_ind; intros o c c' E.
  - injection E as <- <-. cbn. split_and!; auto; congruence.
  - apply calls_snoc in E as [(o1 & c1 & E1 & E2)|(e & _ & [=])]. apply IH in E1 as (-> & H1 & H2 & H3 & H4).
    apply call_spec in E2 as [-> E2]. split; [reflexivity|]. unfold initials, finals in *. rewrite !omap_snoc, !app_length.
    destruct x; cbn [option_list length]; rewrite ?app_nil_r, ?Nat.add_0_r.
    + destruct E2 as (_ & -> & ->). auto.
    + destruct E2 as (_ & _ & _ & _ & -> & ->). split_and!; auto.
    + destruct E2 as (_ & E2 & ->). cbn. split_and!; auto.
      destruct (omap _ l) as [|y t] in H3 |- *; [cbn; lia|]. exfalso. apply H3; [discriminate|assumption].
    + destruct E2 as (_ & E2 & ->). cbn. split_and!; auto.
      destruct (omap (fun c0 => match c0 with CFinal kw0 => Some kw0 | _ => None end) l) as [|y t] in H4 |- *; [cbn; lia|].
      exfalso. apply H4; [discriminate|assumption].
    + subst. auto.
    + subst. auto.
    + destruct E2 as (_ & _ & -> & ->). auto.
Qed.
Lemma calls_recorded l : forall o c c', nestings l = [] -> calls l new_op c = (Ok (tt, o), c') ->
  op_nested o = false /\ additions l = [] /\ initials l = option_list (op_initial o) /\ finals l = option_list (op_final o).
Proof.
  induction l as [|x l IH] using rev_ind; intros o c c' Hn E.
  - injection E as <- <-. auto.
  - apply calls_snoc in E as [(o1 & c1 & E1 & E2)|(e & _ & [=])]. unfold nestings in Hn. rewrite omap_snoc in Hn.
    apply app_eq_nil in Hn as [Hn Hx]. apply IH in E1 as (H1 & H2 & H3 & H4); [|assumption].
    apply call_spec in E2 as [-> E2]. unfold initials, finals, additions in *. rewrite !omap_snoc, H2, H3, H4.
    destruct x; cbn [option_list]; rewrite ?app_nil_r.
    + discriminate.
    + destruct E2 as [E2 _]. congruence.
    + destruct E2 as (_ & -> & ->). auto.
    + destruct E2 as (_ & -> & ->). auto.
    + subst. auto.
    + subst. auto.
    + destruct E2 as (_ & H5 & -> & ->). auto.
Qed.
Lemma calls_nested l : forall o c c', nestings l = [] -> calls (CNested true :: l) new_op c = (Ok (tt, o), c') ->
  op_nested o = true /\ initials l = [] /\ finals l = [] /\ NoDup (additions l).*1 /\
  default [] (op_initial o) = (fun kr => (fst kr, VDict (or_initial (snd kr)))) <$> additions l /\
  default [] (op_final o) = (fun kr => (fst kr, VDict (or_final (snd kr)))) <$> additions l.
Proof.
  induction l as [|x l IH] using rev_ind; intros o c c' Hn E.
  - injection E as <- <-. cbn. split_and!; auto. constructor.
  - rewrite app_comm_cons in E. apply calls_snoc in E as [(o1 & c1 & E1 & E2)|(e & _ & [=])]. unfold nestings in Hn. rewrite omap_snoc in Hn.
    apply app_eq_nil in Hn as [Hn Hx]. apply IH in E1 as (H1 & H2 & H3 & H4 & H5 & H6); [|assumption].
    apply call_spec in E2 as [-> E2]. unfold initials, finals, additions in *. rewrite !omap_snoc, H2, H3.
    destruct x; cbn [option_list]; rewrite ?app_nil_r.
    + discriminate.
    + destruct E2 as (_ & E3 & E4 & E5 & -> & ->). cbn [default]. rewrite !fmap_app, H5, H6. cbn. split_and!; auto.
      apply NoDup_app. split; [assumption|]. split; [|apply NoDup_singleton]. intros k Hk Hk'. apply elem_of_list_singleton in Hk'. subst.
      apply E4. unfold keys. rewrite H5. rewrite <- list_fmap_compose. exact Hk.
    + destruct E2 as (E2 & _). congruence.
    + destruct E2 as (E2 & _). congruence.
    + subst. auto 8.
    + subst. auto 8.
    + destruct E2 as (E2 & _). congruence.
Qed.
