(** loader.py: the inventory of the command line, a module file or a single host. *)
From Verif Require Import Base Paths Ranks Urls Wrapper Inventory.

(** What executing the file of an inventory leaves: the wrapped module; [hosts] (missing, not a list, a list); [groups]. *)
Record inventory_file := InventoryFile {
  if_wrapper : wrapper; if_hosts : option (option (list hostspec)); if_groups : option (list groupspec) }.

Section load_inventory.
  Variable e : env.
  (** [load_py_module(file, pre_exec)]: how executing a file as an inventory ends, 68 *)
  Variable read : pystr -> result inventory_file.
  (** 19-42 [ImmediateInventory].  Its methods override those of the wrapper (types.py:67-80): no group and no host has a
      module file, whatever files there are.  [base_dir] raises, but is only asked for hosts and groups with an explicit file. *)
  Definition immediate_env : env := Env (e_set e) (e_base e) (e_groups_dir e) (e_hosts_dir e) (fun _ => None) (e_oid e).
  (** 78 [wrap]: the wrapped object is no module; its only instance attribute is [hosts], 22.  The other fields of the wrapper are
      annotated members, which are not exported. *)
  Definition immediate_wrapper : wrapper :=
    Wrapper [] (Some (opaque e (lit "immediate"), [(lit "hosts", opaque e (lit "hosts"))])).
  (** 80-83 *)
  Definition fatal {A} (r : result A) : result A :=
    match r with
    | Err (ValueError m) => Err (FatalError m)
    | Err x => if is_ValueError x then Err (FatalError []) else Err x
    | Ok a => Ok a
    end.
  (** 44-83 [load_inventory]; the loaded hosts *)
  Definition load_inventory (arg : pystr) : result (list (pystr * wrapper)) :=
    if endswith arg (lit ".py") then
      i ← read arg;
      match if_hosts i with
      | None => Err (FatalError (lit "Inventory must define a list of hosts!"))
      | Some None => Err (FatalError (lit "`hosts` definition must be of type list"))
      | Some (Some hs) => fatal (load e (if_wrapper i) hs (if_groups i))
      end
    else fatal (load immediate_env immediate_wrapper [HStr arg] None).
End load_inventory.
