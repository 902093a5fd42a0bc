(** operations/api.py: the state of an operation and the decorator around operation functions. *)
From stdpp Require Import gmap.
From Verif Require Import Base Utf8 Codec Paths Sys Dispatcher Client Control.

(** The values that states contain. *)
Inductive pv :=
| VNone | VBool (b : bool) | VInt (z : Z) | VStr (s : pystr) | VBytes (b : bytes)
| VList (l : list pv) | VDict (d : list (pystr * pv)).
Notation state := (list (pystr * pv)).

(** python's [==].  Simplification: there is no comparison between booleans and integers. *)
Fixpoint py_eq (a b : pv) {struct a} : bool :=
  match a, b with
  | VNone, VNone => true
  | VBool x, VBool y => Bool.eqb x y
  | VInt x, VInt y => (x =? y)%Z
  | VStr x, VStr y => str_eqb x y
  | VBytes x, VBytes y => bool_decide (x = y)
  | VList x, VList y =>
      (fix go (x y : list pv) : bool :=
         match x, y with
         | [], [] => true
         | a :: x, b :: y => py_eq a b && go x y
         | _, _ => false
         end) x y
  | VDict x, VDict y =>
      (length x =? length y)%nat &&
      (fix go (x : list (pystr * pv)) : bool :=
         match x with
         | [] => true
         | (k, v) :: r => match dget k y with Some w => py_eq v w | None => false end && go r
         end) x
  | _, _ => false
  end.

(** 19-31 [OperationResult] *)
Record opres := OpRes {
  or_success : bool; or_changed : bool; or_initial : state; or_final : state; or_message : option pystr }.

(** 33-46 [Operation].  What is only printed ([op_name], [name], [description]) is left out. *)
Record opst := Op {
  op_nested : bool; op_initial : option state; op_final : option state;
  op_diffs : list (pystr * option bytes * option bytes) }.
Definition new_op : opst := Op false None None [].

(** What an operation function does: it works on its [op] and on the process.  After an exception the state of the operation
    is only used for printing (262-279), so it is dropped. *)
Definition O (A : Type) : Type := opst -> W (A * opst).
Global Instance O_bind : MBind O := fun A B f m o => x ← m o; f (fst x) (snd x).
Global Instance O_ret : MRet O := fun A a o => mret (a, o).
Definition oraise {A} (e : exn) : O A := fun o => wraise e.
Definition olift {A} (m : W A) : O A := fun o => x ← m; mret (x, o).
Definition getO : O opst := fun o => mret (o, o).
Definition putO (o : opst) : O unit := fun _ => mret (tt, o).

Definition no_own_state : exn := OperationError (lit "An operation that nests other operations cannot have state on its own.").
(** 48-59 *)
Definition nested (b : bool) : O unit := o ← getO; putO (Op b (op_initial o) (op_final o) (op_diffs o)).
(** 61-82.  The nested dictionaries are shared with the result, which nobody modifies. *)
Definition add_nested_result (key : pystr) (r : opres) : O unit :=
  o ← getO;
  if negb (op_nested o) then oraise (OperationError (lit "An operation can only accumulate nested results if it is marked as nested."))
  else
    let i := default [] (op_initial o) in
    let f := default [] (op_final o) in
    if dhas key i || dhas key f then oraise (OperationError (lit "Cannot add nested operation result under existing key '" ++ key ++ lit "'."))
    else putO (Op (op_nested o) (Some (dset key (VDict (or_initial r)) i)) (Some (dset key (VDict (or_final r)) f)) (op_diffs o)).
(** 104-110 *)
Definition initial_state (kw : state) : O unit :=
  o ← getO;
  if op_nested o then oraise no_own_state
  else match op_initial o with
       | Some _ => oraise (OperationError (lit "An operation's 'initial_state' can only be set once."))
       | None => putO (Op (op_nested o) (Some kw) (op_final o) (op_diffs o))
       end.
(** 112-118 *)
Definition final_state (kw : state) : O unit :=
  o ← getO;
  if op_nested o then oraise no_own_state
  else match op_final o with
       | Some _ => oraise (OperationError (lit "An operation's 'final_state' can only be set once."))
       | None => putO (Op (op_nested o) (op_initial o) (Some kw) (op_diffs o))
       end.
(** 140-144: keys are never None, so that nothing is ignored; a key that is missing in the initial state is a KeyError *)
Fixpoint all_equal (i f : state) : result bool :=
  match f with
  | [] => Ok true
  | (k, v) :: r =>
      match dget k i with
      | None => Err KeyError
      | Some w => if py_eq w v then all_equal i r else Ok false
      end
  end.
(** 120-144 *)
Definition unchanged (ignore_none : bool) : O bool :=
  o ← getO;
  match op_initial o, op_final o with
  | Some i, Some f => if ignore_none then olift (liftW (all_equal i f)) else mret (py_eq (VDict i) (VDict f))
  | _, _ => oraise (OperationError (lit "Both initial and final state must have been set before 'unchanged()' may be called."))
  end.
(** 147-165 *)
Definition changed (key : pystr) : O bool :=
  o ← getO;
  if op_nested o then oraise no_own_state
  else match op_initial o, op_final o with
       | Some i, Some f =>
           match dget key i, dget key f with
           | Some a, Some b => mret (negb (py_eq a b))
           | _, _ => oraise KeyError
           end
       | _, _ => oraise (OperationError (lit "Both initial and final state must have been set before 'changed()' may be called."))
       end.
(** 167-184 *)
Definition diff (file : pystr) (old new : option bytes) : O unit :=
  o ← getO;
  if op_nested o then oraise no_own_state
  else if bool_decide (old = new) then mret tt
  else putO (Op (op_nested o) (op_initial o) (op_final o) (op_diffs o ++ [(file, old, new)])).
(** 186-202; printing is left out *)
Definition failure (msg : pystr) : O opres :=
  o ← getO;
  mret (OpRes false false (default [] (op_initial o)) (default [] (op_final o)) (Some msg)).
(** 204-221 *)
Definition success : O opres :=
  o ← getO;
  match op_initial o, op_final o with
  | Some i, Some f =>
      u ← unchanged false;
      mret (OpRes true (negb u) i f None)
  | _, _ => oraise (OperationError (lit "Both initial and final state must have been set before 'success()' may be called."))
  end.

(** how the caller passes [check] *)
Inductive check_arg := NotGiven | Keyword (b : bool) | Positional (b : bool).
(** 284 [kwargs.get("check", True)]: only a keyword argument is seen *)
Definition seen_check (a : check_arg) : bool := match a with Keyword b => b | _ => true end.

(** 252-293 [operation_wrapper].  [function] returns a result or raises; whatever it raises is raised again (262-279).
    Simplifications: printing and tracebacks; [check_host_active] (255), a host is active; [ret is None] (281) is excluded by types. *)
Definition operation (check : check_arg) (function : O opres) : W opres :=
  x ← function new_op;
  let r := fst x in
  if seen_check check && negb (or_success r) then wraise (OperationError (default (lit "None") (or_message r)))
  else mret r.
