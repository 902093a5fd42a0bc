(** Specification of the values and results of operations. *)
From stdpp Require Import gmap.
From Verif Require Import Base Op.

(** ** Equality of values *)
Definition keys (d : state) : list pystr := fst <$> d.
(** the keys of a dict are unique *)
Inductive proper : pv -> Prop :=
| proper_none : proper VNone
| proper_bool b : proper (VBool b)
| proper_int z : proper (VInt z)
| proper_str s : proper (VStr s)
| proper_bytes s : proper (VBytes s)
| proper_list l : Forall proper l -> proper (VList l)
| proper_dict d : NoDup (keys d) -> Forall (fun kv => proper (snd kv)) d -> proper (VDict d).
(** Dicts are equal if they have the same keys with equal values, in any order. *)
Inductive same : pv -> pv -> Prop :=
| same_none : same VNone VNone
| same_bool b : same (VBool b) (VBool b)
| same_int z : same (VInt z) (VInt z)
| same_str s : same (VStr s) (VStr s)
| same_bytes s : same (VBytes s) (VBytes s)
| same_nil : same (VList []) (VList [])
| same_cons a b x y : same a b -> same (VList x) (VList y) -> same (VList (a :: x)) (VList (b :: y))
| same_dict d e : (forall k, k ∈ keys d <-> k ∈ keys e) -> (forall k v w, (k, v) ∈ d -> (k, w) ∈ e -> same v w) -> same (VDict d) (VDict e).

(** ** Sequences of calls of the operation API *)
Inductive call :=
| CNested (b : bool) | CAdd (key : pystr) (r : opres)
| CInitial (kw : state) | CFinal (kw : state)
| CUnchanged (ignore_none : bool) | CChanged (key : pystr)
| CDiff (file : pystr) (old new : option bytes).
Definition call_ (c : call) : O unit :=
  match c with
  | CNested b => nested b
  | CAdd k r => add_nested_result k r
  | CInitial kw => initial_state kw
  | CFinal kw => final_state kw
  | CUnchanged b => _ ← unchanged b; mret tt
  | CChanged k => _ ← changed k; mret tt
  | CDiff f a b => diff f a b
  end.
Fixpoint calls (l : list call) : O unit :=
  match l with [] => mret tt | c :: l => _ ← call_ c; calls l end.
Definition initials (l : list call) : list state := omap (fun c => match c with CInitial kw => Some kw | _ => None end) l.
Definition finals (l : list call) : list state := omap (fun c => match c with CFinal kw => Some kw | _ => None end) l.
Definition nestings (l : list call) : list bool := omap (fun c => match c with CNested b => Some b | _ => None end) l.
Definition additions (l : list call) : list (pystr * opres) := omap (fun c => match c with CAdd k r => Some (k, r) | _ => None end) l.
