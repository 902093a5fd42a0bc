(** Concrete inventories, and checks that they meet the hypotheses of the theorems. *)
From Coq Require Import Lia ZifyBool ZifyNat.
From Verif Require Import Base Paths Urls Wrapper Spec_Wrapper Wrapper_proofs Ranks Spec_Ranks Ranks_proofs Dict_proofs Inventory
  Spec_Inventory Inventory_proofs Inventory_proofs2 Inventory_main.

Definition ex_oid (s : pystr) : N := foldl (fun acc c => acc * 300 + c + 1)%N 1000%N s.
Definition ex_env (files : list (pystr * ns)) : env :=
  Env remove_dups (lit "/inv") (lit "groups") (lit "hosts")
    (fun p => match dget p files with Some a => Some (fun n => Ok (dupdate n a)) | None => None end) ex_oid.
Definition ex_A (files : list (pystr * ns)) (p : pystr) : option ns := dget p files.
(** an inventory module that defines [vs] besides the list of hosts *)
Definition ex_inv (vs : ns) : wrapper := Wrapper [] (Some (Obj 1 (VModule 1), (lit "hosts", Obj 2 (VOpaque 2)) :: vs)).

Lemma ex_set files : set_ok (ex_env files).
Proof. intros l. cbn. split; [apply NoDup_remove_dups|]. intros x. apply elem_of_remove_dups. Qed.
Lemma ex_constant files : files_constant (ex_env files) (ex_A files).
Proof. intros p. cbn. unfold ex_A. destruct (dget p files); eauto. Qed.

Definition ex_pairs files inv (d : hostdecl) : list (pystr * obj) :=
  List.concat files.*2 ++ ((lit "fora_managed", fora_managed (ex_env files)) :: exported inventory_cls inv) ++ hd_vars d.
Lemma inventory_value_in files inv x v : inventory_value (ex_env files) inv x = Some v ->
  (x, v) ∈ ((lit "fora_managed", fora_managed (ex_env files)) :: exported inventory_cls inv).
Proof.
  unfold inventory_value. cbn [latest]. destruct (dget x (exported inventory_cls inv)) eqn:E.
  - intros [= <-]. right. apply dget_Some_in. exact E.
  - destruct (str_eqb_spec x (lit "fora_managed")) as [->|]; [|discriminate]. intros H. apply (inj Some) in H as <-. left.
Qed.
Lemma assigned_in files p x v : assigned (ex_A files) p x = Some v -> exists a, dget p files = Some a /\ (x, v) ∈ a.
Proof.
  unfold assigned, ex_A. destruct (dget p files) as [a|] eqn:E; [|discriminate]. intros H. exists a. split; [reflexivity|].
  apply dget_Some_in in H. apply elem_of_list_In, in_rev, elem_of_list_In. exact H.
Qed.
Lemma ex_var_object files inv d x v : var_object (ex_env files) (ex_A files) inv d x v -> (x, v) ∈ ex_pairs files inv d.
Proof.
  unfold ex_pairs. rewrite !elem_of_app. intros [[p Hp]|[H|H]].
  - left. apply assigned_in in Hp as (a & E & Hin). apply dget_Some_in in E. apply elem_of_list_In, in_concat.
    exists a. split; [|apply elem_of_list_In; exact Hin]. apply elem_of_list_In, elem_of_list_fmap. exists (p, a). auto.
  - right. left. apply inventory_value_in. exact H.
  - right. right. apply dget_Some_in. exact H.
Qed.

Definition group_varb (x : pystr) : bool := negb (private x) && negb (str_eqb x (lit "name")) && negb (str_in x base_attrs).
Definition pairb (a b : pystr * obj) : bool :=
  negb (str_eqb a.1 b.1) ||
  ((negb (oid a.2 =? oid b.2)%N || bool_decide (a.2 = b.2)) &&
   (negb (bool_decide (oval a.2 = VNone) && bool_decide (oval b.2 = VNone)) || bool_decide (a.2 = b.2))).
Definition objectsb (L : list (pystr * obj)) : bool :=
  forallb (fun a => group_varb a.1 && negb (str_eqb a.1 (lit "host")) && negb (is_module a.2) && forallb (pairb a) L) L.

Lemma group_varb_true x : group_varb x = true -> group_var x.
Proof.
  unfold group_varb, group_var. rewrite !andb_true_iff, !negb_true_iff, str_eqb_false, str_in_false. tauto.
Qed.
Lemma objectsb_ok files inv d : objectsb (ex_pairs files inv d) = true ->
  ordinary (ex_env files) (ex_A files) inv d /\ forall x, objects_ok (var_object (ex_env files) (ex_A files) inv d x).
Proof.
  intros H. unfold objectsb in H. rewrite forallb_forall in H.
  assert (H' : forall x v, var_object (ex_env files) (ex_A files) inv d x v ->
    group_var x /\ x <> lit "host" /\ is_module v = false /\
    forall w, var_object (ex_env files) (ex_A files) inv d x w -> pairb (x, v) (x, w) = true).
  { intros x v Hv. apply ex_var_object in Hv. specialize (H (x, v) (proj1 (elem_of_list_In _ _) Hv)).
    rewrite !andb_true_iff, !negb_true_iff, forallb_forall in H. cbn [fst snd] in H. destruct H as (((H1 & H2) & H3) & H4).
    split_and!; [apply group_varb_true; exact H1|apply str_eqb_false; exact H2|exact H3|].
    intros w Hw. apply H4. apply elem_of_list_In, ex_var_object. exact Hw. }
  split; [intros x v Hv; destruct (H' x v Hv) as (? & ? & _); auto|]. intros x. split_and!.
  - intros v w Hv Hw E. destruct (H' x v Hv) as (_ & _ & _ & P). specialize (P w Hw). unfold pairb in P. cbn [fst snd] in P.
    rewrite str_eqb_refl, E, N.eqb_refl in P. cbn in P. apply andb_true_iff in P as [P _]. apply bool_decide_eq_true in P. exact P.
  - intros v w Hv Hw E1 E2. destruct (H' x v Hv) as (_ & _ & _ & P). specialize (P w Hw). unfold pairb in P. cbn [fst snd] in P.
    rewrite str_eqb_refl, (bool_decide_true _ E1), (bool_decide_true _ E2) in P. cbn in P. apply andb_true_iff in P as [_ P]. apply bool_decide_eq_true in P. exact P.
  - intros v Hv. apply (H' x v Hv).
Qed.

(** all definitions *)
Definition ex_defs files inv (l : loaded) (d : hostdecl) : list (pystr * pystr * obj) :=
  List.map (fun xv => (xv.1, s_early, xv.2)) (hd_vars d) ++
  List.concat (List.map (fun p => match dget (group_path (ex_env files) (l_groups l) p) files with
                                  | Some a => List.map (fun xv => (xv.1, p, xv.2)) a | None => [] end) (hd_groups d)) ++
  List.map (fun xv => (xv.1, s_all, xv.2)) ((lit "fora_managed", fora_managed (ex_env files)) :: exported inventory_cls inv).
Lemma ex_defines files inv l d x p v : defines (ex_env files) (ex_A files) inv l d x p v -> (x, p, v) ∈ ex_defs files inv l d.
Proof.
  unfold ex_defs. rewrite !elem_of_app. intros [[-> H]|[[Hp H]|(-> & _ & _ & H)]].
  - left. apply elem_of_list_fmap. exists (x, v). split; [reflexivity|]. apply dget_Some_in. exact H.
  - right. left. apply assigned_in in H as (a & E & Hin). apply elem_of_list_In, in_concat.
    exists (List.map (fun xv => (xv.1, p, xv.2)) a). split.
    + apply in_map_iff. exists p. split; [rewrite E; reflexivity|apply elem_of_list_In; exact Hp].
    + apply in_map_iff. exists (x, v). split; [reflexivity|apply elem_of_list_In; exact Hin].
  - right. right. apply elem_of_list_fmap. exists (x, v). split; [reflexivity|]. apply inventory_value_in. exact H.
Qed.
Definition freshb (L : list (pystr * pystr * obj)) : bool :=
  forallb (fun a => negb (bool_decide (oval a.2 = VNone)) &&
    forallb (fun b => negb (str_eqb a.1.1 b.1.1) || str_eqb a.1.2 b.1.2 || negb (oid a.2 =? oid b.2)%N) L) L.
Lemma freshb_ok files inv l d : freshb (ex_defs files inv l d) = true -> forall x, fresh (ex_env files) (ex_A files) inv l d x.
Proof.
  intros H x. unfold freshb in H. rewrite forallb_forall in H. split.
  - intros p q v w Dp Dq Hpq. apply ex_defines in Dp, Dq. specialize (H _ (proj1 (elem_of_list_In _ _) Dp)).
    apply andb_true_iff in H as [_ H]. rewrite forallb_forall in H. specialize (H _ (proj1 (elem_of_list_In _ _) Dq)). cbn [fst snd] in H.
    rewrite str_eqb_refl, (proj2 (str_eqb_false p q) Hpq) in H. cbn in H. apply negb_true_iff, N.eqb_neq in H. exact H.
  - intros p v Dp. apply ex_defines in Dp. specialize (H _ (proj1 (elem_of_list_In _ _) Dp)).
    apply andb_true_iff in H as [H _]. apply negb_true_iff, bool_decide_eq_false in H. exact H.
Qed.

(** a superset of the dependencies *)
Definition spec_edges (s : groupspec) : list (pystr * pystr) :=
  match s with
  | GStr n => [(s_all, n)]
  | GDecl d => (s_all, gd_name d) :: List.map (fun u => (u, gd_name d)) (gd_after d) ++ List.map (fun v => (gd_name d, v)) (gd_before d)
  | _ => []
  end.
Definition ex_edges (k : list groupspec) : list (pystr * pystr) := (s_early, s_all) :: List.concat (List.map spec_edges k).
Lemma direct_edges hs k u v : direct hs (Some k) u v -> (u, v) ∈ ex_edges k.
Proof.
  unfold ex_edges. rewrite elem_of_cons.
  assert (Hin : forall s p, s ∈ k -> p ∈ spec_edges s -> p ∈ List.concat (List.map spec_edges k)).
  { intros s p Hs Hp. apply elem_of_list_In, in_concat. exists (spec_edges s). split; [apply in_map; apply elem_of_list_In; exact Hs|apply elem_of_list_In; exact Hp]. }
  intros [(k' & s & a & b & [= <-] & Hs & Hd & Hu & _)|[(k' & s & a & b & [= <-] & Hs & Hd & Hv & _)|[(-> & Hd & _)|(-> & -> & _)]]].
  - right. apply (Hin s); [exact Hs|]. destruct Hd as [n|d]; [inversion Hu|]. cbn. right. apply elem_of_app. left. apply elem_of_list_fmap. eauto.
  - right. apply (Hin s); [exact Hs|]. destruct Hd as [n|d]; [inversion Hv|]. cbn. right. apply elem_of_app. right. apply elem_of_list_fmap. eauto.
  - right. destruct Hd as (s & a & b & Hs & Hd). apply (Hin s); [exact Hs|]. destruct Hd; cbn; left.
  - auto.
Qed.
Definition closedb (S : list pystr) (E : list (pystr * pystr)) : bool := forallb (fun uv => negb (str_in uv.1 S) || str_in uv.2 S) E.
Lemma closed_path hs k S u n v : closedb S (ex_edges k) = true -> u ∈ S -> path (direct hs (Some k)) u n v -> v ∈ S.
Proof.
  intros H Hu Hp. induction Hp as [|u w n v He Hp IH]; [exact Hu|]. apply IH. apply direct_edges in He.
  unfold closedb in H. rewrite forallb_forall in H. specialize (H _ (proj1 (elem_of_list_In _ _) He)). cbn [fst snd] in H.
  rewrite (proj2 (str_in_true _ _) Hu) in H. apply str_in_true. exact H.
Qed.

(** everything at once *)
Definition simpleb files inv (l : loaded) (d : hostdecl) : bool :=
  negb (str_in s_early (hd_groups d)) && bool_decide (NoDup (lit "host" :: (hd_vars d).*1)) &&
  objectsb (ex_pairs files inv d) &&
  forallb (fun g => match gd_file g.2 with None => true | Some _ => false end) (l_groups l) &&
  match hd_file d with None => true | Some _ => false end.
Lemma simpleb_ok files vs hs gs l host d :
  load_decls (ex_env files) hs gs = Ok l -> dget host (l_hosts l) = Some d -> NoDup (lit "hosts" :: vs.*1) ->
  (exists x, exported_variables inventory_cls (ex_inv vs) = Ok x) ->
  simpleb files (ex_inv vs) l d = true -> simple_host (ex_env files) (ex_A files) (ex_inv vs) hs gs l host d.
Proof.
  intros Hl Hd Hn Hv H. unfold simpleb in H. rewrite !andb_true_iff in H. destruct H as ((((H1 & H2) & H3) & H4) & H5).
  destruct (objectsb_ok _ _ _ H3) as [Ho1 Ho2]. split; try assumption.
  - apply ex_set.
  - apply ex_constant.
  - split; [|exact Hv]. split; [constructor|exact Hn].
  - apply negb_true_iff, str_in_false in H1. exact H1.
  - apply bool_decide_eq_true in H2. exact H2.
  - split.
    + intros g gd f Hg Hf. rewrite forallb_forall in H4. apply dget_Some_in in Hg. specialize (H4 _ (proj1 (elem_of_list_In _ _) Hg)).
      cbn in H4. rewrite Hf in H4. discriminate.
    + intros f Hf. rewrite Hf in H5. discriminate.
Qed.
