(** Where an exception was raised. *)
From stdpp Require Import list.
From Verif Require Import Base Trace.

(** [raised d l e path]: the exception [e] with the label [l] is raised in [d] inside the calls [path], the outermost first. *)
Inductive raised : deed -> nat -> exn -> list site -> Prop :=
| raised_here l e : raised (Fail l e) l e []
| raised_first a b l e p : raised a l e p -> raised (Seq a b) l e p
| raised_second a b l e p : raised b l e p -> raised (Seq a b) l e p
| raised_inside f b l e p : raised b l e p -> raised (Call f b) l e (f :: p)
| raised_operation b l e p : raised b l e p -> raised (Operate b) l e p
| raised_tried b h again l e p : raised b l e p -> raised (Try b h again) l e p
| raised_handler b h again l e p : raised h l e p -> raised (Try b h again) l e p.
Fixpoint labels (d : deed) : list nat :=
  match d with
  | Done => []
  | Fail l _ => [l]
  | Seq a b => labels a ++ labels b
  | Call _ b | Operate b => labels b
  | Try b h _ => labels b ++ labels h
  end.
(** Every command that fails was run with its output captured (the default). *)
Definition captured (d : deed) : Prop := forall l p rc out err cmd, raised d l (CalledProcessError rc out err cmd) p -> is_Some out /\ is_Some err.

(** [texts] stand in [t] one after another, each from the start of a line to its end. *)
Inductive in_order : list pystr -> pystr -> Prop :=
| order_nil t : in_order [] t
| order_next x l pre t : (pre = [] \/ exists p, pre = p ++ [10%N]) -> in_order l t -> in_order (x :: l) (pre ++ x ++ 10%N :: t)
| order_last x pre : (pre = [] \/ exists p, pre = p ++ [10%N]) -> in_order [x] (pre ++ x).

(** Exceptions that end a deploy with an error: all but [sys.exit] (and runs that do not end). *)
Definition ordinary (e : exn) : Prop := (forall n, e <> SystemExit n) /\ e <> Blocked /\ e <> OutOfFuel.
