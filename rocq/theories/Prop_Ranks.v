(** Properties C26 and C27: ranks of a dependency graph. *)
From Verif Require Import Base Ranks Spec_Ranks Ranks_proofs.

(** C26. On every acyclic graph [rank_sort] terminates and the rank of a vertex is the length of the
    longest chain of dependencies that leads to it. *)
Theorem C26_ranks_longest_path : forall (T : Type) (eqT : EqDecision T) (vertices : list T) (preds childs : T -> list T),
  graph_of vertices preds childs -> ~ cyclic (edge_of vertices childs) ->
  exists r, rank_sort vertices preds childs = Done r /\
    forall v, v ∈ vertices -> exists n, r v = Z.of_nat n /\ depth (edge_of vertices childs) v n.
Proof.
  intros T eqT vs ps cs Hg Hc. pose proof (rank_sort_spec vs ps cs Hg) as H.
  destruct (rank_sort vs ps cs) as [r|c| |]; try contradiction. exists r. split; [reflexivity|apply H].
Qed.
Print Assumptions C26_ranks_longest_path.

(** C27. [rank_sort] always terminates, with a [CycleError] if and only if the graph has a cycle. *)
Theorem C27_cycles_rejected : forall (T : Type) (eqT : EqDecision T) (vertices : list T) (preds childs : T -> list T),
  graph_of vertices preds childs ->
  ((exists c, rank_sort vertices preds childs = Cycle c) <-> cyclic (edge_of vertices childs)) /\
  rank_sort vertices preds childs <> KeyErr /\ rank_sort vertices preds childs <> NoFuel.
Proof.
  intros T eqT vs ps cs Hg. pose proof (rank_sort_spec vs ps cs Hg) as H.
  destruct (rank_sort vs ps cs) as [r|c| |]; try contradiction; (split; [|split; discriminate]).
  - split; [intros [c [=]]|intros Hc; destruct H as [H _]; contradiction].
  - split; [intros _; assumption|eauto].
Qed.
Print Assumptions C27_cycles_rejected.

(** Two components; the chain 0 -> 1 -> 3 is longer than the edge 0 -> 3. *)
Definition ex_childs (v : nat) : list nat :=
  match v with 0 => [3; 1] | 1 => [3] | 4 => [5] | _ => [] end.
Definition ex_preds (v : nat) : list nat :=
  match v with 1 => [0] | 3 => [0; 1] | 5 => [4] | _ => [] end.
Definition ex_vertices : list nat := [3; 5; 2; 1; 4; 0].

Lemma graph_ofb (vs : list nat) ps cs :
  forallb (fun u => forallb (fun v => bool_decide (v ∈ vs)) (cs u) && forallb (fun v => bool_decide (v ∈ vs)) (ps u)
    && forallb (fun v => Bool.eqb (bool_decide (v ∈ cs u)) (bool_decide (u ∈ ps v))) vs) vs = true ->
  graph_of vs ps cs.
Proof.
  rewrite forallb_forall. intros H.
  assert (G : forall u, u ∈ vs -> (forall v, v ∈ cs u -> v ∈ vs) /\ (forall v, v ∈ ps u -> v ∈ vs) /\
    forall v, v ∈ vs -> (v ∈ cs u <-> u ∈ ps v)).
  { intros u Hu%elem_of_list_In. specialize (H u Hu). apply andb_prop in H as [H H3]. apply andb_prop in H as [H1 H2].
    rewrite forallb_forall in H1, H2, H3. split_and!.
    - intros v Hv%elem_of_list_In. apply H1, bool_decide_eq_true in Hv. exact Hv.
    - intros v Hv%elem_of_list_In. apply H2, bool_decide_eq_true in Hv. exact Hv.
    - intros v Hv%elem_of_list_In. apply H3, Bool.eqb_prop in Hv.
      rewrite <- (bool_decide_eq_true (v ∈ cs u)), <- (bool_decide_eq_true (u ∈ ps v)), Hv. reflexivity. }
  split_and!.
  - intros u v Hu. apply (G u Hu).
  - intros u v Hv. apply (G v Hv).
  - intros u v Hu Hv. apply (G u Hu). exact Hv.
Qed.

Example C26_example :
  graph_of ex_vertices ex_preds ex_childs /\ ~ cyclic (edge_of ex_vertices ex_childs) /\
  match rank_sort ex_vertices ex_preds ex_childs with
  | Done r => List.map r [0; 1; 2; 3; 4; 5] = [0; 1; 0; 2; 0; 1]%Z
  | _ => False
  end.
Proof.
  assert (Hg : graph_of ex_vertices ex_preds ex_childs) by (apply graph_ofb; vm_compute; reflexivity).
  split; [exact Hg|]. split; [|vm_compute; reflexivity].
  intros Hc. apply (C27_cycles_rejected nat _ _ _ _ Hg) in Hc as [c Hc]. revert Hc. vm_compute. discriminate.
Qed.

(** A cycle that cannot be reached from a vertex without predecessors. *)
Example C27_example :
  let childs v := match v with 0 => [1] | 1 => [2] | 2 => [1; 3] | _ => [] end in
  let preds v := match v with 1 => [0; 2] | 2 => [1] | 3 => [2] | _ => [] end in
  graph_of [3; 2; 1; 0] preds childs /\ cyclic (edge_of [3; 2; 1; 0] childs) /\
  exists c, rank_sort [3; 2; 1; 0] preds childs = Cycle c.
Proof.
  cbn zeta. assert (Hg : graph_of [3; 2; 1; 0]
    (fun v => match v with 1 => [0; 2] | 2 => [1] | 3 => [2] | _ => [] end)
    (fun v => match v with 0 => [1] | 1 => [2] | 2 => [1; 3] | _ => [] end)) by (apply graph_ofb; vm_compute; reflexivity).
  split; [exact Hg|]. split; [|eexists; vm_compute; reflexivity].
  apply (C27_cycles_rejected nat _ _ _ _ Hg). eexists. vm_compute. reflexivity.
Qed.
