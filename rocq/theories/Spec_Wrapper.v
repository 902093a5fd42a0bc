(** What a user expects of attributes of hosts, groups and scripts. *)
From Verif Require Import Base Wrapper.

(** dictionaries have unique keys *)
Definition wf (w : wrapper) : Prop :=
  NoDup (w_dict w).*1 /\ match w_module w with Some (_, m) => NoDup m.*1 | None => True end.
(** [w] wraps a module that defines [a] as [v] *)
Definition in_module (w : wrapper) (a : pystr) (v : obj) : Prop :=
  exists mo m, w_module w = Some (mo, m) /\ dget a m = Some v.
Definition module_lacks (w : wrapper) (a : pystr) : Prop := forall v, ~ in_module w a v.
(** an attribute of the wrapper object itself *)
Definition in_instance (w : wrapper) (a : pystr) (v : obj) : Prop :=
  a <> lit "module" /\ dget a (w_dict w) = Some v.
(** the value of an ordinary (not underscored) attribute: the module takes precedence *)
Definition own (w : wrapper) (a : pystr) (v : obj) : Prop :=
  in_module w a v \/ module_lacks w a /\ in_instance w a v.
Definition no_own (w : wrapper) (a : pystr) : Prop := forall v, ~ own w a v.
(** names every script has: its wrapper's documented members *)
Definition script_builtin (a : pystr) : Prop :=
  a ∈ List.map lit ["name"; "_defaults_stack"; "defaults"; "current_defaults"; "Params"]%string.
(** a variable exported by the running script *)
Definition script_var (s : option wrapper) (a : pystr) (v : obj) : Prop :=
  exists w, s = Some w /\ own w a v /\ ~ script_builtin a /\ is_module v = false.
(** names of methods and internals common to all wrappers *)
Definition builtin_name (a : pystr) : Prop :=
  a ∈ List.map lit ["module"; "is_exported_variable"; "exported_variables"; "is_overloaded"; "is_overridden"; "wrap";
    "definition_file"; "connector"; "connection"; "create_connector"; "vars_hierarchical"]%string.
