(** utils.py:148-229 [rank_sort]. *)
From Verif Require Import Base.

Section ranks.
  Context {T : Type} `{EqDecision T}.
  (** [vertices], [preds_of], [childs_of] *)
  Variable vertices : list T.
  Variable preds : T -> list T.
  Variable childs : T -> list T.

  (** [KeyErr]: a neighbour that is not a vertex.  [NoFuel] is an artefact of the model, excluded by the
      theorems. *)
  Inductive outcome (A : Type) := Done (a : A) | Cycle (c : list T) | KeyErr | NoFuel.
  Arguments Done {A} a.
  Arguments Cycle {A} c.
  Arguments KeyErr {A}.
  Arguments NoFuel {A}.

  Definition is_vertex (v : T) : bool := bool_decide (v ∈ vertices).
  (** the dict [ranks], total on the vertices *)
  Definition upd (m : T -> Z) (k : T) (z : Z) : T -> Z := fun x => if decide (x = k) then z else m x.

  (** 186-195: walk up along the first predecessor until there is none, or a vertex is visited twice. *)
  Fixpoint find_root (fuel : nat) (visited : list T) (root : T) : outcome T :=
    match preds root with
    | [] => Done root
    | p :: _ =>
        if negb (is_vertex p) then KeyErr
        else if bool_decide (p ∈ visited) then Cycle (filter (fun v => v ∈ visited) vertices)
        else match fuel with
             | O => NoFuel
             | S f => find_root f (p :: visited) p
             end
    end.

  (** 203-219: the breadth first loop over pairs (node, parent). *)
  Fixpoint bfs (fuel : nat) (ranks : T -> Z) (queue : list (T * T)) : outcome (T -> Z) :=
    match queue with
    | [] => Done ranks
    | (n, p) :: q =>
        let r := (ranks p + 1)%Z in
        if (Z.of_nat (length vertices) <? r)%Z then Cycle [p]
        else if negb (is_vertex n) then KeyErr
        else match fuel with
             | O => NoFuel
             | S f =>
                 if (r <=? ranks n)%Z then bfs f ranks q
                 else bfs f (upd ranks n r) (q ++ List.map (fun c => (c, n)) (childs n))
             end
    end.

  (** An upper bound for the number of pairs processed by one [bfs]. *)
  Definition deg_sum : nat := sum_list_with (fun v => length (childs v)) vertices.
  Definition bfs_fuel (queue : list (T * T)) : nat := length queue + (length vertices + 1) * deg_sum.

  (** 180-219: while some vertex has no rank *)
  Fixpoint rank_loop (fuel : nat) (ranks : T -> Z) : outcome (T -> Z) :=
    match List.find (fun v => (ranks v =? -1)%Z) vertices with
    | None => Done ranks
    | Some start =>
        match fuel with
        | O => NoFuel
        | S f =>
            match find_root (length vertices) [start] start with
            | Cycle c => Cycle c
            | KeyErr => KeyErr
            | NoFuel => NoFuel
            | Done root =>
                let ranks' := upd ranks root 0 in
                let queue := List.map (fun c => (c, root)) (childs root) in
                match bfs (bfs_fuel queue) ranks' queue with
                | Done ranks'' => rank_loop f ranks''
                | Cycle c => Cycle c
                | KeyErr => KeyErr
                | NoFuel => NoFuel
                end
            end
        end
    end.

  (** 221-227: the late check of all edges.  The first offending edge is reported. *)
  Fixpoint late_edges (ranks : T -> Z) (v : T) (cs : list T) : outcome unit :=
    match cs with
    | [] => Done tt
    | c :: r =>
        if negb (is_vertex c) then KeyErr
        else if (ranks c <=? ranks v)%Z then Cycle [c; v] else late_edges ranks v r
    end.
  Fixpoint late_check (ranks : T -> Z) (vs : list T) : outcome unit :=
    match vs with
    | [] => Done tt
    | v :: r =>
        match late_edges ranks v (childs v) with
        | Done _ => late_check ranks r
        | e => e
        end
    end.

  Definition rank_sort : outcome (T -> Z) :=
    match rank_loop (length vertices) (fun _ => (-1)%Z) with
    | Done ranks =>
        match late_check ranks vertices with
        | Done _ => Done ranks
        | Cycle c => Cycle c
        | KeyErr => KeyErr
        | NoFuel => NoFuel
        end
    | e => e
    end.
End ranks.
Arguments Done {T A} a.
Arguments Cycle {T A} c.
Arguments KeyErr {T A}.
Arguments NoFuel {T A}.
