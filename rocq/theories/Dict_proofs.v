(** Lemmas about insertion ordered dictionaries. *)
From Verif Require Import Base.

Lemma str_eqb_true a b : str_eqb a b = true <-> a = b.
Proof. apply bool_decide_eq_true. Qed.
Lemma str_eqb_false a b : str_eqb a b = false <-> a <> b.
Proof. apply bool_decide_eq_false. Qed.
Lemma str_eqb_refl a : str_eqb a a = true.
Proof. apply str_eqb_true. reflexivity. Qed.
Lemma str_eqb_spec a b : reflect (a = b) (str_eqb a b).
Proof. apply bool_decide_reflect. Qed.

Lemma str_in_true s l : str_in s l = true <-> s ∈ l.
Proof.
  unfold str_in. rewrite existsb_exists. setoid_rewrite str_eqb_true. setoid_rewrite <- elem_of_list_In.
  split; [intros (x & ? & ->); assumption|eauto].
Qed.
Lemma str_in_false s l : str_in s l = false <-> s ∉ l.
Proof. rewrite <- not_true_iff_false, str_in_true. reflexivity. Qed.

Section dict.
  Context {V : Type}.
  Implicit Types d e : list (pystr * V).

  Lemma dget_dset_same k v d : dget k (dset k v d) = Some v.
  Proof.
    induction d as [|[k' v'] d IH]; cbn; [rewrite str_eqb_refl; reflexivity|].
    destruct (str_eqb_spec k k') as [->|Hne]; cbn.
    - rewrite str_eqb_refl. reflexivity.
    - rewrite (proj2 (str_eqb_false k k') Hne). exact IH.
  Qed.
  Lemma dget_dset_other k k' v d : k <> k' -> dget k (dset k' v d) = dget k d.
  Proof.
    intros Hne. induction d as [|[k2 v2] d IH]; cbn.
    - rewrite (proj2 (str_eqb_false k k') Hne). reflexivity.
    - destruct (str_eqb_spec k' k2) as [->|Hne2]; cbn.
      + rewrite (proj2 (str_eqb_false k k2) Hne). reflexivity.
      + destruct (str_eqb k k2); [reflexivity|exact IH].
  Qed.
  Lemma dget_dset k k' v d : dget k (dset k' v d) = if decide (k = k') then Some v else dget k d.
  Proof. destruct (decide (k = k')) as [->|]; [apply dget_dset_same|apply dget_dset_other; assumption]. Qed.

  Lemma dget_app k d e : dget k (d ++ e) = match dget k d with Some v => Some v | None => dget k e end.
  Proof. induction d as [|[k' v'] d IH]; cbn; [reflexivity|]. destruct (str_eqb k k'); [reflexivity|exact IH]. Qed.

  Lemma dget_dupdate k d e : dget k (dupdate d e) = match dget k (rev e) with Some v => Some v | None => dget k d end.
  Proof.
    unfold dupdate. revert d. induction e as [|[k' v'] e IH]; intros d; cbn; [reflexivity|].
    rewrite IH, dget_app. destruct (dget k (rev e)); [reflexivity|]. rewrite dget_dset. cbn.
    destruct (decide (k = k')) as [->|Hne].
    - rewrite str_eqb_refl. reflexivity.
    - rewrite (proj2 (str_eqb_false k k') Hne). reflexivity.
  Qed.

  Lemma dget_None k d : dget k d = None <-> k ∉ d.*1.
  Proof.
    induction d as [|[k' v'] d IH]; cbn; [split; [intros _ H; inversion H|reflexivity]|].
    destruct (str_eqb_spec k k') as [->|Hne].
    - split; [discriminate|]. intros H. exfalso. apply H. left.
    - rewrite IH. rewrite elem_of_cons. split; intros H; [intros [?|?]; contradiction|auto].
  Qed.
  Lemma dget_Some_in k v d : dget k d = Some v -> (k, v) ∈ d.
  Proof.
    induction d as [|[k' v'] d IH]; cbn; [discriminate|].
    destruct (str_eqb_spec k k') as [->|Hne]; [intros [= ->]; left|right; auto].
  Qed.
  Lemma dget_in k v d : NoDup d.*1 -> (k, v) ∈ d -> dget k d = Some v.
  Proof.
    induction d as [|[k' v'] d IH]; cbn; intros Hnd Hin; [inversion Hin|].
    apply NoDup_cons in Hnd as [Hk Hnd]. apply elem_of_cons in Hin as [[= -> ->]|Hin].
    - rewrite str_eqb_refl. reflexivity.
    - destruct (str_eqb_spec k k') as [->|Hne]; [|auto]. exfalso. apply Hk.
      apply elem_of_list_fmap. exists (k', v). split; [reflexivity|assumption].
  Qed.
  Lemma dget_is_Some k d : is_Some (dget k d) <-> k ∈ d.*1.
  Proof.
    rewrite <- not_eq_None_Some, dget_None. destruct (decide (k ∈ d.*1)); tauto.
  Qed.
  Lemma dhas_true k d : dhas k d = true <-> k ∈ d.*1.
  Proof. rewrite <- dget_is_Some. unfold dhas. destruct (dget k d); split; try discriminate; eauto. intros [x [=]]. Qed.
  Lemma dhas_false k d : dhas k d = false <-> k ∉ d.*1.
  Proof. rewrite <- dhas_true, not_true_iff_false. reflexivity. Qed.

  Lemma dget_rev k d : NoDup d.*1 -> dget k (rev d) = dget k d.
  Proof.
    intros Hnd. induction d as [|[k' v'] d IH]; [reflexivity|]. cbn in Hnd. apply NoDup_cons in Hnd as [Hk Hnd].
    cbn. rewrite dget_app, IH by assumption. cbn. destruct (str_eqb_spec k k') as [->|Hne].
    - rewrite (proj2 (dget_None k' d)) by assumption. reflexivity.
    - destruct (dget k d); reflexivity.
  Qed.
  Lemma dget_dupdate_nodup k d e : NoDup e.*1 ->
    dget k (dupdate d e) = match dget k e with Some v => Some v | None => dget k d end.
  Proof. intros H. rewrite dget_dupdate, dget_rev by assumption. reflexivity. Qed.

  Lemma dset_keys k v d : (dset k v d).*1 = if str_in k d.*1 then d.*1 else d.*1 ++ [k].
  Proof.
    induction d as [|[k' v'] d IH]; cbn; [reflexivity|]. destruct (str_eqb k k'); cbn; [reflexivity|].
    rewrite IH. unfold str_in. destruct (existsb (str_eqb k) d.*1); reflexivity.
  Qed.
  Lemma dset_nodup k v d : NoDup d.*1 -> NoDup (dset k v d).*1.
  Proof.
    intros H. rewrite dset_keys. destruct (str_in k d.*1) eqn:E; [assumption|].
    apply NoDup_app. split_and!; [assumption| |apply NoDup_singleton].
    intros x Hx ->%elem_of_list_singleton. apply str_in_false in E. contradiction.
  Qed.
  Lemma dupdate_nodup d e : NoDup d.*1 -> NoDup (dupdate d e).*1.
  Proof.
    unfold dupdate. revert d. induction e as [|[k v] e IH]; intros d H; cbn; [assumption|].
    apply IH, dset_nodup, H.
  Qed.
  Lemma elem_of_dset_keys x k v d : x ∈ (dset k v d).*1 <-> x = k \/ x ∈ d.*1.
  Proof.
    rewrite dset_keys. destruct (str_in k d.*1) eqn:E.
    - apply str_in_true in E. split; [auto|]. intros [->|]; assumption.
    - rewrite elem_of_app, elem_of_list_singleton. tauto.
  Qed.

  Lemma filter_keys_sub (f : pystr * V -> bool) d x : x ∈ (List.filter f d).*1 -> x ∈ d.*1.
  Proof.
    induction d as [|kv d IH]; cbn; [auto|]. destruct (f kv); cbn; rewrite ?elem_of_cons; tauto.
  Qed.
  Lemma filter_nodup (f : pystr * V -> bool) d : NoDup d.*1 -> NoDup (List.filter f d).*1.
  Proof.
    induction d as [|kv d IH]; cbn; intros H; [constructor|]. apply NoDup_cons in H as [Hk Hn].
    destruct (f kv); cbn; [|auto]. constructor; [|auto]. intros Hx%filter_keys_sub. contradiction.
  Qed.
  Lemma dget_filter (f : pystr * V -> bool) k d : NoDup d.*1 ->
    dget k (List.filter f d) = match dget k d with Some v => if f (k, v) then Some v else None | None => None end.
  Proof.
    induction d as [|[k' v'] d IH]; cbn; intros H; [reflexivity|]. apply NoDup_cons in H as [Hk Hn].
    specialize (IH Hn). destruct (str_eqb_spec k k') as [->|Hne].
    - destruct (f (k', v')); cbn; [rewrite str_eqb_refl; reflexivity|].
      rewrite IH, (proj2 (dget_None k' d)) by assumption. reflexivity.
    - destruct (f (k', v')); cbn; [|exact IH]. rewrite (proj2 (str_eqb_false k k') Hne). exact IH.
  Qed.
End dict.

Lemma startswith_app p s : startswith (p ++ s) p = true.
Proof. induction p as [|c p IH]; cbn; [destruct s; reflexivity|]. rewrite N.eqb_refl. exact IH. Qed.
Lemma startswith_true s p : startswith s p = true <-> exists r, s = p ++ r.
Proof.
  split; [|intros [r ->]; apply startswith_app]. revert s. induction p as [|c p IH]; intros s H; [eauto|].
  destruct s as [|d s]; cbn in H; [discriminate|]. apply andb_prop in H as [H1 H2].
  apply N.eqb_eq in H1 as ->. destruct (IH _ H2) as [r ->]. exists r. reflexivity.
Qed.
