(** What [fora --init] is expected to leave behind. *)
From stdpp Require Import gmap.
From Verif Require Import Base Utf8 Sys Init.
Local Open Scope nat_scope.

(** a path of names below the directory [d], outermost first *)
Definition below (d : place) (rel : list pystr) : place := rev rel ++ d.

(** The directories and files of each layout. *)
Definition hosts := lit "hosts". Definition groups := lit "groups". Definition tasks := lit "tasks". Definition files := lit "files".
Definition templates := lit "templates". Definition example := lit "example_task". Definition inventories := lit "inventories".
Definition dirs_of (layout : pystr) : list (list pystr) :=
  if decide (layout = lit "minimal") then [[hosts]]
  else if decide (layout = lit "flat") then [[hosts]; [groups]; [tasks]; [files]; [templates]]
  else if decide (layout = lit "modular") then
    [[hosts]; [groups]; [tasks]; [tasks; example]; [tasks; example; files]; [tasks; example; templates]]
  else if decide (layout = lit "staging_prod") then
    [[inventories]; [inventories; hosts]; [inventories; groups]; [tasks]; [tasks; example]; [tasks; example; files]; [tasks; example; templates]]
  else [].
Definition files_of (layout : pystr) : list (list pystr) :=
  if decide (layout = lit "minimal") then [[hosts; lit "localhost.py"]; [lit "inventory.py"]; [lit "deploy.py"]]
  else if decide (layout = lit "flat") then
    [[hosts; lit "localhost.py"]; [groups; lit "all.py"]; [lit "inventory.py"]; [tasks; lit "example_task.py"]; [tasks; lit "example_params.py"];
     [lit "deploy.py"]; [templates; lit "template.j2"]; [files; lit "staticfile"]]
  else if decide (layout = lit "dotfiles") then [[lit "deploy.py"]]
  else if decide (layout = lit "modular") then
    [[hosts; lit "localhost.py"]; [groups; lit "all.py"]; [lit "inventory.py"]; [tasks; example; lit "install.py"];
     [tasks; example; lit "add_site.py"]; [tasks; example; templates; lit "site.j2"]; [lit "deploy.py"]]
  else if decide (layout = lit "staging_prod") then
    [[inventories; hosts; lit "example.py"]; [inventories; groups; lit "all.py"]; [inventories; lit "staging.py"]; [inventories; lit "prod.py"];
     [tasks; example; lit "install.py"]; [tasks; example; lit "add_site.py"]; [tasks; example; templates; lit "site.j2"]; [lit "deploy.py"]]
  else [].
Definition layouts : list pystr := [lit "minimal"; lit "flat"; lit "dotfiles"; lit "modular"; lit "staging_prod"].

(** the text that the program has for a file of a layout *)
Fixpoint path_text (rel : list pystr) : pystr :=
  match rel with [] => [] | [c] => c | c :: r => c ++ lit "/" ++ path_text r end.
Definition text_of (layout : pystr) (rel : list pystr) : option pystr :=
  match dget layout init_fns with
  | None => None
  | Some l => match List.find (fun a => match a with Write p _ => str_eqb p (path_text rel) | Mkdir _ => false end) l with
              | Some (Write _ c) => Some c
              | _ => None
              end
  end.

Definition is_dir (o : option node) : Prop := exists n, o = Some n /\ n_kind n = KDir.
Definition has_bytes (o : option node) (b : bytes) : Prop := exists n, o = Some n /\ n_kind n = KFile b.
Definition has_text (o : option node) (t : pystr) : Prop := exists b, utf8_encode t = Some b /\ has_bytes o b.
(** nothing is in the way: where a directory is wanted there is none or a directory, where a file is wanted none or a regular file *)
Definition free_dir (o : option node) : Prop := o = None \/ is_dir o.
Definition free_file (o : option node) : Prop := o = None \/ exists b, has_bytes o b.
Definition free (s : os) (layout : pystr) : Prop :=
  (forall rel, rel ∈ dirs_of layout -> free_dir (o_fs s !! below (o_cwd s) rel)) /\
  (forall rel, rel ∈ files_of layout -> free_file (o_fs s !! below (o_cwd s) rel)).
(** none of the paths is a symbolic link *)
Definition no_link (o : option node) : Prop := forall n t, o = Some n -> n_kind n <> KLink t.
Definition unlinked (s : os) (layout : pystr) : Prop :=
  forall rel, rel ∈ dirs_of layout ++ files_of layout -> no_link (o_fs s !! below (o_cwd s) rel).

(** the current directory is empty *)
Definition empty_dir (s : os) : Prop := forall c, o_fs s !! (c :: o_cwd s) = None.
(** the answers that mean yes *)
Definition yes : list pystr := [lit "y"; lit "Y"; lit "yes"; lit "yeS"; lit "yEs"; lit "yES"; lit "Yes"; lit "YeS"; lit "YEs"; lit "YES"].

(** The functions that a deploy script may call on the names [files], [system] and [local] (operations/files.py,
    operations/system.py, operations/local.py) and on [host] (types.py 55-355, ModuleWrapper and HostWrapper). *)
Definition offers : list (pystr * list pystr) := [
  (lit "files", [lit "directory"; lit "file"; lit "link"; lit "upload_content"; lit "upload"; lit "upload_dir";
                 lit "template_content"; lit "template"; lit "line"]);
  (lit "system", [lit "user"; lit "group"; lit "package"; lit "service"]);
  (lit "local", [lit "script"]);
  (lit "host", [lit "is_exported_variable"; lit "exported_variables"; lit "is_overloaded"; lit "is_overridden"; lit "wrap";
                lit "definition_file"; lit "create_connector"; lit "vars_hierarchical"])].
(** the text calls [m.f] somewhere *)
Definition calls (t m f : pystr) : Prop := exists a b, t = a ++ m ++ lit "." ++ f ++ lit "(" ++ b.
(** every function that a script of the layout calls on one of these names exists *)
Definition ident (f : pystr) : Prop := Forall (fun c => (97 <= c <= 122)%N \/ c = 95%N) f.
Definition usable (layout : pystr) : Prop :=
  forall rel t m f fs, rel ∈ files_of layout -> text_of layout rel = Some t ->
    (m, fs) ∈ offers -> ident f -> calls t m f -> f ∈ fs.
