(** [fora --init LAYOUT]: example_deploys.py.  The program runs on a system of Sys.v, in the current directory [o_cwd].

    Simplifications.  Files are opened by the same model of [open] as in the dispatcher: a new file has mode 0600 instead of
    0666 less the umask; nothing is claimed about modes.  The messages and the prompt are left out.  [os.getcwd] does not
    fail. *)
From stdpp Require Import gmap.
From Verif Require Import Base Utf8 Paths Sys Dispatcher Coreutils.
Local Open Scope nat_scope.

(** one call of [_create_dirs] for a directory, or of [_write_file] *)
Inductive action := Mkdir (path : pystr) | Write (path : pystr) (content : pystr).

(** 12-19 *)
Definition inventory_def : pystr := lit "# Defines which hosts belong to this inventory.
hosts = [
    ""local:"",                   # Local machine, executed as the user who invokes fora
    # ""example"",                # Some remote machine via ssh (probably requires matching entry in `.ssh/config`)
    # ""ssh://root@example.com"", # An explicit user on a remote machine via ssh
]
".
(** 21-28 *)
Definition localhost_def : pystr := lit "# Define a (different) url for this host. Useful
# if the inventory entry is just a name like ""localhost""
# url = ""ssh://root@localhost""

# Define a variable for this host
somevariable = ""this was defined by the host""
".
(** 30-45 *)
Definition nginx_add_site : pystr := lit "from fora.operations import files

@Params
class params:
    site: str

files.template(
    name=""Create the site definition"",
    src=""templates/site.j2"",
    dest=f""/etc/nginx/sites/{params.site}"")
files.line_in_file(
    name=""Add "",
    file=""/etc/nginx/sites"",
    line=f""sites/{params.site}"")
".
(** 47-52 *)
Definition nginx_site_j2 : pystr := lit "{{ fora_managed }}
server {
    # ...
}
".
(** 54-65 *)
Definition nginx_install : pystr := lit "from fora.operations import system

system.package(
    name=""Install the application"",
    packages=[""nginx""])
system.service(
    name=""(Re-)start the service"",
    service=""nginx"",
    state=""restarted"",
    enabled=True)
".
(** 67-85 *)
Definition modular_nginx_deploy : pystr := lit "from fora.operations import local, system

local.script(
    script=""tasks/example_task/install.py"")
local.script(
    name=""Add test1.example.com site"",
    script=""tasks/example_task/add_site.py"",
    params=dict(site=""site1""))
local.script(
    name=""Add test2.example.com site"",
    script=""tasks/example_task/add_site.py"",
    params=dict(site=""site2""))

system.service(
    name=""(Re-)start the service"",
    service=""nginx"",
    state=""restarted"")
".
(** 87-89 *)
Definition all_def : pystr := lit "somevariable = ""defined fallback in 'all' group""
".
(** 117-130 *)
Definition structure_minimal : list action := [
  Mkdir (lit "hosts");
  Write (lit "hosts/localhost.py") localhost_def;
  Write (lit "inventory.py") inventory_def;
  Write (lit "deploy.py") (lit "from fora import host
from fora.operations import files

files.upload_content(
    name=""A temporary example file"",
    content=f""Hello from {host.name}, also remember that {host.somevariable=}!"",
    dest=""/tmp/hello_world"")
")
].
(** 132-177 *)
Definition structure_flat : list action := [
  Mkdir (lit "hosts");
  Mkdir (lit "groups");
  Mkdir (lit "tasks");
  Mkdir (lit "files");
  Mkdir (lit "templates");
  Write (lit "hosts/localhost.py") localhost_def;
  Write (lit "groups/all.py") all_def;
  Write (lit "inventory.py") inventory_def;
  Write (lit "tasks/example_task.py") (lit "from fora.operations import files

files.upload(
    name=""A temporary example file"",
    src=""../files/staticfile"",
    dest=""/tmp/hello_world"")
");
  Write (lit "tasks/example_params.py") (lit "from fora.operations import files

@Params
class params:
    filename: str

script_var = ""this is a fallback value defined in a script""

files.template(
    name=""Render a template to the file that was specified in the parameters"",
    src=""../templates/template.j2"",
    dest=params.filename)
");
  Write (lit "deploy.py") (lit "from fora.operations import local

local.script(
    name=""Run example task"",
    script=""tasks/example_task.py"")
local.script(
    name=""Run parameter example task"",
    script=""tasks/example_params.py"",
    params=dict(filename=""/tmp/paramtest.txt""))
");
  Write (lit "templates/template.j2") (lit "{{ fora_managed }}
This file was specified by script parameters! See the fallback to the script var for the host: {{host.script_var}}
");
  Write (lit "files/staticfile") (lit "Hello I am static content!
")
].
(** 179-198 *)
Definition structure_dotfiles : list action := [
  Write (lit "deploy.py") (lit "from fora import host
from fora.operations import files

# Get home directory of current user
home = host.home_dir()

# zsh
files.upload(src=""zsh/zshrc"", dest=f""{home}/.zshrc"")

# kitty
files.directory(path=f""{home}/.config/kitty"")
files.upload(src=""kitty/kitty.conf"", dest=f""{home}/.config/kitty/kitty.conf"")

# neovim
files.directory(path=f""{home}/.config/nvim"")
files.upload(src=""neovim/init.lua"", dest=f""{home}/.config/init.lua"")
")
].
(** 200-209 *)
Definition structure_modular : list action := [
  Mkdir (lit "hosts");
  Mkdir (lit "groups");
  Mkdir (lit "tasks");
  Mkdir (lit "tasks/example_task");
  Mkdir (lit "tasks/example_task/files");
  Mkdir (lit "tasks/example_task/templates");
  Write (lit "hosts/localhost.py") localhost_def;
  Write (lit "groups/all.py") all_def;
  Write (lit "inventory.py") inventory_def;
  Write (lit "tasks/example_task/install.py") nginx_install;
  Write (lit "tasks/example_task/add_site.py") nginx_add_site;
  Write (lit "tasks/example_task/templates/site.j2") nginx_site_j2;
  Write (lit "deploy.py") modular_nginx_deploy
].
(** 211-244 *)
Definition structure_staging_prod : list action := [
  Mkdir (lit "inventories");
  Mkdir (lit "inventories/hosts");
  Mkdir (lit "inventories/groups");
  Mkdir (lit "tasks");
  Mkdir (lit "tasks/example_task");
  Mkdir (lit "tasks/example_task/files");
  Mkdir (lit "tasks/example_task/templates");
  Write (lit "inventories/hosts/example.py") (lit "# Same hostfile definition for all example.com hosts, to avoid repetition
domain = ""example.com""
");
  Write (lit "inventories/groups/all.py") all_def;
  Write (lit "inventories/staging.py") (lit "import os

# Global variables (and functions) that are not inventory-related
# will automatically be exported to the `all` group.
api_key = os.getenv(""API_KEY_STAGING"")

hosts = [dict(url=""staging1.example.com"", file=""hosts/example.py"", groups=[""staging""]),
         dict(url=""staging2.example.com"", file=""hosts/example.py"", groups=[""staging""])]
");
  Write (lit "inventories/prod.py") (lit "import os

# Global variables (and functions) that are not inventory-related
# will automatically be exported to the `all` group.
api_key = os.getenv(""API_KEY_PROD"")

hosts = [dict(url=""prod1.example.com"", file=""hosts/example.py"", groups=[""prod""]),
         dict(url=""prod2.example.com"", file=""hosts/example.py"", groups=[""prod""]),
         dict(url=""prod3.example.com"", file=""hosts/example.py"", groups=[""prod""]),
         dict(url=""prod4.example.com"", file=""hosts/example.py"", groups=[""prod""])]
");
  Write (lit "tasks/example_task/install.py") nginx_install;
  Write (lit "tasks/example_task/add_site.py") nginx_add_site;
  Write (lit "tasks/example_task/templates/site.j2") nginx_site_j2;
  Write (lit "deploy.py") modular_nginx_deploy
].

(** [Path(d).mkdir(exist_ok=True)] of the library pathlib: a missing parent is an error; for other errors it is enough that a
    directory is there.  Errors of [is_dir] other than ENOENT, ENOTDIR, EBADF and ELOOP are raised. *)
Definition EBADF : Z := 9.
Definition ignorable (e : exn) : bool :=
  match e with
  | OSErr n _ _ => (n =? ENOENT)%Z || (n =? ENOTDIR)%Z || (n =? EBADF)%Z || (n =? ELOOP)%Z
  | _ => false
  end.
Definition here (umask : N) (s : os) : proc := Proc [] None (o_uid s) (o_gid s) (o_groups s) umask (o_cwd s).
(** 91-101: the loop body *)
Definition create_dir (umask : N) (d : pystr) : M unit := fun s =>
  match do_mkdir (here umask s) d s with
  | (Ok _, s1) => (Ok tt, s1)
  | (Err e, s1) =>
      match e with
      | OSErr n _ _ =>
          if (n =? ENOENT)%Z then (Err e, s1)
          else match sys_stat d true s1 with
               | (Ok f, s2) => (match n_kind f with KDir => Ok tt | _ => Err e end, s2)
               | (Err e2, s2) => (Err (if ignorable e2 then e else e2), s2)
               end
      | _ => (Err e, s1)
      end
  end.
(** 103-115.  The text is encoded when it is written. *)
Definition write_file (file content : pystr) : M unit :=
  pl ← sys_open_write file;
  match utf8_encode content with
  | Some b => sys_write pl b
  | None => raise UnicodeEncodeError
  end.
Definition act (umask : N) (a : action) : M unit :=
  match a with Mkdir d => create_dir umask d | Write f c => write_file f c end.
Fixpoint acts (umask : N) (l : list action) : M unit :=
  match l with [] => pure tt | a :: r => _ ← act umask a; acts umask r end.

(** 275-281 *)
Definition init_fns : list (pystr * list action) := [
  (lit "minimal", structure_minimal);
  (lit "flat", structure_flat);
  (lit "dotfiles", structure_dotfiles);
  (lit "modular", structure_modular);
  (lit "staging_prod", structure_staging_prod)].

(** [any(os.scandir(cwd))] *)
Definition occupied (s : os) : bool :=
  existsb (fun e : place * node => match e.1 with _ :: d => bool_decide (d = o_cwd s) | [] => false end) (map_to_list (o_fs s)).
Definition scandir : M bool := syscall (fun s => (Ok (occupied s), s)).
(** [str.lower]; only letters of ASCII matter, no other character has a lower case of [y], [e] or [s] *)
Definition lower (t : pystr) : pystr := map (fun c => if (65 <=? c)%N && (c <=? 90)%N then (c + 32)%N else c) t.

(** 246-273.  [answer] is what the user types when asked, [None] the end of the input, which is an EOFError. *)
Definition EOFError : exn := UserExn 1.
Definition init_deploy_structure (umask : N) (layout : pystr) (answer : option pystr) : M unit :=
  match dget layout init_fns with
  | None => raise (ValueError (lit "Unknown deploy layout structure"))
  | Some l =>
      some ← scandir;
      _ ← (if some : bool then
             match answer with
             | None => raise EOFError
             | Some t => if str_eqb (lower t) (lit "y") || str_eqb (lower t) (lit "yes") then pure tt else raise (SystemExit 1)
             end
           else pure tt);
      _ ← acts umask l;
      raise (SystemExit 0)
  end.
