(** * What a run of the whole program may do to hosts *)
From stdpp Require Import gmap.
From Verif Require Import Base Sys Spec_Sys Client Control Spec_Files Prop_Tried Fleet.

(** Scripts that act through operations only.  What else they do through the connection only looks; [P]: the commands that the operations may run to find out
    what there is to do. *)
Fixpoint by_operations (P : list pystr -> Prop) {A} (p : tale A) : Prop :=
  match p with
  | Ret _ | Raise _ | Current | Chdir _ | Rmdir _ | Local _ _ _ => True
  | Bind p k => by_operations P p /\ forall x, by_operations P (k x)
  | Try p h => by_operations P p /\ forall e, by_operations P (h e)
  | Operate _ k => forall cmd, questions k cmd -> P cmd
  | Direct m => forall v r v', m v = (r, v') -> unaffected (r_os v) (r_os v')
  | With _ body => forall d, by_operations P (body d)
  end.
