(** * Where a host is *)
From Verif Require Import Base Wrapper Spec_Wrapper Inventory Spec_Inventory Prop_Urls.

(** This machine, or the machine to be found by ssh. *)
Inductive place := Here | There (user : option pystr) (host : pystr) (port : option pystr).
(** Full urls ... *)
Inductive url_of : pystr -> place -> Prop :=
| url_ssh user host port : url_of (lit "ssh://" ++ ssh_part user host port) (There user host port)
| url_ssh_short user host port : ~ lit "//" `prefix_of` ssh_part user host port -> url_of (lit "ssh:" ++ ssh_part user host port) (There user host port)
| url_local name : url_of (lit "local:" ++ name) Here.
(** ... and what may be written in the list of hosts. *)
Inductive declared_at : pystr -> place -> Prop :=
| at_url u p : url_of u p -> declared_at u p
| at_bare user host : 58%N ∉ ssh_part user host None -> declared_at (ssh_part user host None) (There user host None).

(** The command brings up a dispatcher at this place. *)
Definition starts_at (opts : option (list pystr)) (command : list pystr) (p : place) : Prop :=
  match p with
  | There user host port => exists text, command = lit "ssh" :: default [] opts ++ [lit "ssh://" ++ ssh_part user host port; text]
  | Here => exists file flags, command = lit "python3" :: file :: flags
  end.

Definition declared_url (h : hostspec) : option pystr := match h with HStr u => Some u | HDecl d => hd_url d | _ => None end.
Definition declared_name (h : hostspec) : option pystr := match h with HDecl d => hd_name d | _ => None end.
(** A host that fora knows how to reach. *)
Definition reachable (h : hostspec) : Prop :=
  exists u, declared_url h = Some u /\ (58%N ∉ u \/ lit "ssh:" `prefix_of` u \/ lit "local:" `prefix_of` u).

(** What the inventory, the declaration of the host, the groups of the host (in their order) and the file of the host say about a member of the host. *)
Definition settings_of (e : env) (A : pystr -> option ns) (inv : wrapper) (l : loaded) (d : hostdecl) (host x : pystr) : list (option obj) :=
  [inventory_value e inv x; dget x (hd_vars d)] ++
  List.map (fun g => assigned A (group_path e (l_groups l) g) x) (List.filter (fun g => str_in g (hd_groups d)) (o_names (l_order l))) ++
  [assigned A (host_path e d host) x].
(** A loaded inventory with a host. *)
Record loads (e : env) (A : pystr -> option ns) (inv : wrapper) (hs : list hostspec) (gs : option (list groupspec)) (l : loaded) (host : pystr) (d : hostdecl)
    (w : wrapper) : Prop := {
  ls_set : set_ok e;
  ls_files : files_constant e A;
  ls_inv : wf inv;
  ls_load : load_decls e hs gs = Ok l;
  ls_host : dget host (l_hosts l) = Some d;
  ls_vars : NoDup (lit "host" :: (hd_vars d).*1);
  ls_modules : forall x v, var_object e A inv d x v -> is_module v = false;
  ls_made : exists hist, instanciate_host e inv l host = Ok (w, hist) }.
