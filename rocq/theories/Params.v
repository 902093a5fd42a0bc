(** types.py:436-478 [Params]: the parameters of a script. *)
From Verif Require Import Base.

Section params.
  Variable V : Type.
  (** A class: the names in [__annotations__] in order, its own attributes and the inherited ones. *)
  Record pcls := Cls { cl_annotations : list pystr; cl_own : list (pystr * V); cl_inherited : list (pystr * V) }.
  (** [getattr]; [hasattr] tells whether it is found *)
  Definition class_attr (c : pcls) (name : pystr) : option V :=
    match dget name (cl_own c) with Some v => Some v | None => dget name (cl_inherited c) end.
  Definition class_set (c : pcls) (name : pystr) (v : V) : pcls :=
    Cls (cl_annotations c) (dset name v (cl_own c)) (cl_inherited c).
  Definition missing (name : pystr) : exn :=
    RuntimeError (lit "This script requires parameter '" ++ name ++ lit "', but no such parameter was given.").
  (** 463-476: the loop over the annotations *)
  Fixpoint fill (names : list pystr) (given : option (list (pystr * V))) (c : pcls) : result pcls :=
    match names with
    | [] => Ok c
    | n :: r =>
        match (match given with None => None | Some d => dget n d end) with
        | Some v => fill r given (class_set c n v)
        | None => match class_attr c n with
                  | None => Err (missing n)
                  | Some v => fill r given (class_set c n v)
                  end
        end
    end.
  (** [given]: the global [_params] of the calling module, None if there is none *)
  Definition decorate (given : option (list (pystr * V))) (c : pcls) : result pcls := fill (cl_annotations c) given c.
  (** loader.py:131 [params or {}] *)
  Definition script_params (params : option (list (pystr * V))) : option (list (pystr * V)) := Some (default [] params).
End params.
