(** types.py: attribute lookup of module wrappers; files.py: the variables of templates. *)
From Verif Require Import Base.

(** Python objects as far as the inventory and the wrappers look at them: an identity (the operator [is])
    and a content (the operators == and !=).  Simplification: contents are equal as python values
    iff they are equal here (so 1 == True and nan != nan are not represented). *)
Inductive pyval := VNone | VInt (z : Z) | VStr (s : pystr) | VOpaque (n : N) | VModule (n : N).
Global Instance pyval_eq_dec : EqDecision pyval.
Proof. solve_decision. Defined.
Record obj := Obj { oid : N; oval : pyval }.
Global Instance obj_eq_dec : EqDecision obj.
Proof. solve_decision. Defined.
(** [isinstance(value, ModuleType)] *)
Definition is_module (o : obj) : bool := match oval o with VModule _ => true | _ => false end.

(** The attributes of a module or [SimpleNamespace], without those starting with two underscores. *)
Notation ns := (list (pystr * obj)).

(** [attr.startswith("_")], [attr.startswith("__")] *)
Definition private (a : pystr) : bool := startswith a (lit "_").
Definition dunder (a : pystr) : bool := startswith a (lit "__").

(** The class of a wrapper: names in [type(self).__annotations__], names in [type(self).__dict__],
    names of all class attributes (methods and defaults) including inherited ones. *)
Record cls := Cls { c_annot : list pystr; c_own : list pystr; c_attrs : list pystr }.

(** types.py:55-172 [ModuleWrapper] *)
Definition base_attrs : list pystr := List.map lit
  ["module"; "is_exported_variable"; "exported_variables"; "is_overloaded"; "is_overridden"; "wrap"; "definition_file"]%string.
(** types.py:174-196 [GroupWrapper] *)
Definition group_cls : cls := Cls [lit "name"] [] base_attrs.
(** types.py:198-353 [HostWrapper] *)
Definition host_members : list pystr := List.map lit
  ["inventory"; "name"; "url"; "groups"; "connector"; "connection"]%string.
Definition host_methods : list pystr := List.map lit ["create_connector"; "vars_hierarchical"]%string.
Definition host_cls : cls :=
  Cls (host_members ++ [lit "_variable_action_history"])
      (List.map lit ["connector"; "connection"]%string ++ host_methods)
      (List.map lit ["connector"; "connection"]%string ++ host_methods ++ base_attrs).
(** types.py:355-478 [ScriptWrapper] *)
Definition script_methods : list pystr := List.map lit ["defaults"; "current_defaults"; "Params"]%string.
Definition script_cls : cls :=
  Cls (List.map lit ["name"; "_defaults_stack"]%string) script_methods (script_methods ++ base_attrs).
(** inventory_wrapper.py:106-575 [InventoryWrapper] *)
Definition inventory_methods : list pystr := List.map lit
  ["is_initialized"; "available_groups"; "base_dir"; "base_remote_settings"; "group_module_file"; "host_module_file";
   "qualify_url"; "extract_hostname"; "load"; "load_group"; "load_host"; "instanciate_host"]%string.
Definition inventory_cls : cls :=
  Cls (List.map lit ["groups_dir"; "hosts_dir"; "hosts"; "groups"; "loaded_hosts"]%string)
      (List.map lit ["groups_dir"; "hosts_dir"; "groups"]%string ++ inventory_methods)
      (List.map lit ["groups_dir"; "hosts_dir"; "groups"]%string ++ inventory_methods ++ base_attrs).

(** A wrapper object: the instance dictionary without the key "module", and the wrapped module (the object
    and its attributes). *)
Record wrapper := Wrapper { w_dict : ns; w_module : option (obj * ns) }.

(** An attribute found: an object, or an attribute of the class (a fresh bound method, or a default). *)
Inductive found := FObj (o : obj) | FClass (a : pystr).

(** the instance dictionary *)
Definition instance_dict (w : wrapper) : ns :=
  match w_module w with
  | Some (mo, _) => dset (lit "module") mo (w_dict w)
  | None => w_dict w
  end.
(** [object.__getattribute__(self, attr)]; [None] is AttributeError *)
Definition object_get (c : cls) (w : wrapper) (a : pystr) : option found :=
  match dget a (instance_dict w) with
  | Some o => Some (FObj o)
  | None => if str_in a (c_attrs c) then Some (FClass a) else None
  end.
(** types.py:67-80 [__getattribute__] *)
Definition get_attr (c : cls) (w : wrapper) (a : pystr) : option found :=
  match w_module w with
  | None => object_get c w a
  | Some (_, m) =>
      if private a then object_get c w a
      else match dget a m with
           | None => object_get c w a
           | Some o => Some (FObj o)
           end
  end.
(** types.py:82-88 [__setattr__].  Setting the attribute "module" itself is not modelled. *)
Definition set_attr (w : wrapper) (a : pystr) (v : obj) : wrapper :=
  match w_module w with
  | None => Wrapper (dset a v (w_dict w)) None
  | Some (mo, m) =>
      if dunder a || negb (dhas a m) then Wrapper (dset a v (w_dict w)) (Some (mo, m))
      else Wrapper (w_dict w) (Some (mo, dset a v m))
  end.
(** types.py:70-76 [vars(self)] *)
Definition vars (w : wrapper) : ns :=
  match w_module w with
  | None => instance_dict w
  | Some (_, m) => dupdate (instance_dict w) m
  end.
(** types.py:90-95 [is_exported_variable] *)
Definition is_exported (c : cls) (a : pystr) (v : obj) : bool :=
  negb (private a || str_in a (c_annot c) || str_in a (c_own c) || is_module v).
(** types.py:97-106 [exported_variables] *)
Definition exported (c : cls) (w : wrapper) : ns :=
  List.filter (fun kv => is_exported c kv.1 kv.2) (vars w).

(** types.py:286-310 [vars_hierarchical]; [script] is [fora.script] *)
Definition normal_var (a : pystr) (v : obj) : bool := negb (private a) && negb (is_module v).
Definition vars_hierarchical (host : wrapper) (script : option wrapper) : ns :=
  let dvars := match script with Some s => dupdate [] (exported script_cls s) | None => [] end in
  dupdate dvars (List.filter (fun kv => normal_var kv.1 kv.2) (vars host)).

(** types.py:312-353 [HostWrapper.__getattr__], after the normal lookup failed *)
Definition host_fallback (script : option wrapper) (a : pystr) : option found :=
  if private a then None
  else if negb (str_in a (c_annot script_cls)) && negb (str_in a (c_own script_cls)) then
    match script with
    | None => None
    | Some s =>
        match get_attr script_cls s a with
        | Some (FObj v) => if is_module v then None else Some (FObj v)
        | Some (FClass n) => Some (FClass n)
        | None => None
        end
    end
  else None.
(** [host.a] *)
Definition host_get (host : wrapper) (script : option wrapper) (a : pystr) : option found :=
  match get_attr host_cls host a with
  | Some f => Some f
  | None => host_fallback script a
  end.

(** files.py:23-53 [_render_template]: the variables given to the template; [this] is the object [fora.host]. *)
Definition template_vars (host : wrapper) (this : obj) (script : option wrapper) (context : option ns) : ns :=
  let dvars := vars_hierarchical host script in
  let dvars := match context with Some c => dupdate dvars c | None => dvars end in
  let dvars := dset (lit "host") this dvars in
  dset (lit "inventory") this dvars.
