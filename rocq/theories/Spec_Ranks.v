(** Specification of ranks: paths in a graph.  Independent of the algorithm. *)
From Verif Require Import Base.

Section spec.
  Context {T : Type}.
  (** [edge u v]: [v] depends directly on [u] *)
  Variable edge : T -> T -> Prop.

  (** [path u n v]: a chain of [n] dependencies from [u] to [v] *)
  Inductive path : T -> nat -> T -> Prop :=
  | path_refl v : path v 0 v
  | path_step u w v n : edge u w -> path w n v -> path u (S n) v.

  Definition cyclic : Prop := exists v n, path v (S n) v.

  (** the length of the longest chain leading to [v] *)
  Definition depth (v : T) (n : nat) : Prop :=
    (exists u, path u n v) /\ (forall u m, path u m v -> m <= n).

  (** the length of the longest chain starting at [v] *)
  Definition height (v : T) (n : nat) : Prop :=
    (exists u, path v n u) /\ (forall u m, path v m u -> m <= n).
End spec.

(** [vertices], [preds] and [childs] describe one finite graph. *)
Definition graph_of {T} (vertices : list T) (preds childs : T -> list T) : Prop :=
  (forall u v, u ∈ vertices -> v ∈ childs u -> v ∈ vertices) /\
  (forall u v, v ∈ vertices -> u ∈ preds v -> u ∈ vertices) /\
  (forall u v, u ∈ vertices -> v ∈ vertices -> (v ∈ childs u <-> u ∈ preds v)).

(** its edges *)
Definition edge_of {T} (vertices : list T) (childs : T -> list T) (u v : T) : Prop :=
  u ∈ vertices /\ v ∈ childs u.
