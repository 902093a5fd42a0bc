(** Specification of the commands that operations run on the remote, as the programs read them. *)
From stdpp Require Import gmap.
From Verif Require Import Base Codec Paths Sys Dispatcher Client Control.

(** [m] runs no other commands than those that [may] be run: whatever the other programs do, nothing is different. *)
Definition only_runs {A} (may : list pystr -> Prop) (m : (proc -> M xres) -> W A) : Prop :=
  forall exec exec', (forall p s, may (p_argv p) -> exec p s = exec' p s) -> forall c, m exec c = m exec' c.

(** ** How programs read their arguments *)
(** "-x" and "--", but not "-" *)
Definition dashed (w : pystr) : bool := match w with c :: _ :: _ => (c =? 45)%N | _ => false end.
(** the options that take the next argument as their value, whatever it is *)
Definition valued (w : pystr) : bool :=
  str_in w (List.map lit ["-C"; "-c"; "--branch"; "--color"; "--comment"; "--depth"; "--gid"; "--groups"; "--home"; "--home-dir";
                          "--password"; "--property"; "--shell"; "--uid"]%string).
(** Options with their values, and operands.  After "--" there are only operands. *)
Fixpoint reads (l : list pystr) : list (pystr * option pystr) * list pystr :=
  match l with
  | [] => ([], [])
  | w :: r =>
      if str_eqb w (lit "--") then ([], r)
      else if dashed w then
        if valued w then
          match r with
          | [] => ([(w, None)], [])
          | v :: r => let '(o, x) := reads r in ((w, Some v) :: o, x)
          end
        else let '(o, x) := reads r in ((w, None) :: o, x)
      else let '(o, x) := reads r in (o, w :: x)
  end.
(** This program is run with these options and operands. *)
Definition invokes (program : string) (opts : list (pystr * option pystr)) (operands : list pystr) (argv : list pystr) : Prop :=
  exists rest, argv = lit program :: rest /\ reads rest = (opts, operands).
Definition flag (w : string) : pystr * option pystr := (lit w, None).
Definition opt (w : string) (v : pystr) : pystr * option pystr := (lit w, Some v).

Definition unless (dry : bool) (P : list pystr -> Prop) (argv : list pystr) : Prop := dry = false /\ P argv.

Definition one_or (P Q : list pystr -> Prop) (argv : list pystr) : Prop := P argv \/ Q argv.

(** ** fora.operations.files *)
(** [program x path] changes attributes of [path].  [x] is made of the names of a user and a group in the accounts of the remote:
    if it begins with a dash, it is taken for options. *)
Definition sets (program : string) (opts : list string) (path : pystr) (argv : list pystr) : Prop :=
  exists x, if dashed x then argv = lit program :: List.map lit opts ++ [x; lit "--"; path] else invokes program (List.map flag opts) [x; path] argv.
(** The mode that is asked for is never taken for an option, whatever it is.  (If none is asked for, it is a setting of the script or
    of the connection that is used.) *)
Definition sets_mode (mode : option pystr) (path : pystr) (argv : list pystr) : Prop :=
  if mode then exists x, invokes "chmod" [] [x; path] argv else sets "chmod" [] path argv.
Definition directory_runs (path : pystr) (present : bool) (mode : option pystr) (argv : list pystr) : Prop :=
  if present then invokes "mkdir" [] [path] argv \/ invokes "touch" [] [path] argv \/ sets_mode mode path argv \/ sets "chown" [] path argv
  else invokes "rm" [flag "-rf"] [path] argv.
Definition file_runs (path : pystr) (present : bool) (mode : option pystr) (argv : list pystr) : Prop :=
  if present then invokes "touch" [] [path] argv \/ sets_mode mode path argv \/ sets "chown" [] path argv
  else invokes "rm" [] [path] argv.
Definition link_asks (path : pystr) : list pystr -> Prop := invokes "readlink" [flag "-n"] [path].
Definition link_runs (path target : pystr) (present : bool) (argv : list pystr) : Prop :=
  if present then
    invokes "ln" [flag "-sf"] [target; path] argv \/ invokes "touch" [flag "--no-dereference"] [path] argv \/ sets "chown" ["--no-dereference"%string] path argv
  else invokes "rm" [] [path] argv.
Definition content_runs (dest : pystr) (mode : option pystr) (argv : list pystr) : Prop := sets_mode mode dest argv \/ sets "chown" [] dest argv.
(** a destination that ends with a slash stands for a file in that directory *)
Definition lands (dest d : pystr) : Prop :=
  d = dest \/ exists name, slash ∉ name /\ last dest = Some slash /\ d = dest ++ name.
(** the backup of a line edit *)
Definition line_runs (path : pystr) (argv : list pystr) : Prop := exists copy, invokes "cp" [flag "-a"] [path; copy] argv.
(** directories are made and attributes are set, of paths that are absolute *)
Definition tree_runs (dir_mode file_mode : option pystr) (argv : list pystr) : Prop :=
  exists d, head d = Some slash /\ (directory_runs d true dir_mode argv \/ content_runs d file_mode argv).

(** ** fora.operations.system *)
(** a value that was asked for is handed on as it is *)
Definition asked (wanted : option pystr) (v : pystr) : Prop := forall x, wanted = Some x -> x <> [] -> v = x.
(** the id 0 counts as not asked for *)
Definition wanted_uid (uid : option Z) : option pystr := match uid with Some z => if (z =? 0)%Z then None else Some (str_of_Z z) | None => None end.
Section account.
  Variable uid : option pystr.
  Variable grp comment home shell hash : option pystr.
  Definition user_value (o : pystr) (v : pystr) : Prop :=
    (o = lit "--uid" /\ asked uid v) \/ (o = lit "--gid" /\ asked grp v) \/ o = lit "--groups" \/ (o = lit "--comment" /\ asked comment v) \/
    ((o = lit "--home" \/ o = lit "--home-dir") /\ asked home v) \/ (o = lit "--shell" /\ asked shell v) \/ (o = lit "--password" /\ asked hash v).
  Definition user_option (o : pystr * option pystr) : Prop :=
    match o with
    | (n, Some v) => user_value n v
    | (n, None) => n ∈ List.map lit ["--system"; "--user-group"; "--no-user-group"; "--no-create-home"]%string
    end.
  Definition user_runs (name : pystr) (present : bool) (argv : list pystr) : Prop :=
    if present then
      (exists opts, Forall user_option opts /\ invokes "useradd" opts [name] argv) \/
      (exists o v, user_value o v /\ invokes "usermod" [(o, Some v)] [name] argv)
    else invokes "userdel" [] [name] argv.
End account.
Definition group_runs (name : pystr) (present : bool) (gid : option pystr) (argv : list pystr) : Prop :=
  if present then
    exists v, asked gid v /\ (invokes "groupadd" [opt "--gid" v] [name] argv \/ invokes "groupadd" [flag "--system"; opt "--gid" v] [name] argv \/
      invokes "groupadd" [] [name] argv \/ invokes "groupadd" [flag "--system"] [name] argv \/ invokes "groupmod" [opt "--gid" v] [name] argv)
  else invokes "groupdel" [] [name] argv.

(** ** Packages.  [opts]: options given by the user, each of which stands for itself *)
Definition alone (o : pystr) : Prop := dashed o = true /\ valued o = false /\ o <> lit "--".
Definition flags (opts : list pystr) : list (pystr * option pystr) := List.map (fun o => (o, None)) opts.
Definition pacman_runs (dry : bool) (packages : list pystr) (present : bool) (opts : list pystr) (argv : list pystr) : Prop :=
  exists p, p ∈ packages /\ (invokes "pacman" [flag "-Ql"] [p] argv \/
    unless dry (invokes "pacman" ([opt "--color" (lit "always"); flag "--noconfirm"; if present then flag "-S" else flag "-Rns"] ++ flags opts) [p]) argv).
Definition apt_runs (dry : bool) (packages : list pystr) (present : bool) (opts : list pystr) (argv : list pystr) : Prop :=
  exists p, p ∈ packages /\ (invokes "dpgk-query" [flag "--show"; flag "--showformat=${Status}"] [p] argv \/
    unless dry (invokes "apt-get" (flags opts) [if present then lit "install" else lit "remove"; p]) argv).
Definition portage_runs (dry : bool) (packages : list pystr) (present oneshot : bool) (opts : list pystr) (argv : list pystr) : Prop :=
  exists p, p ∈ packages /\ (invokes "emerge" [flag "--info"] [p] argv \/
    unless dry (invokes "emerge" ([flag "--color=y"; flag "--verbose"] ++
      (if present then (if oneshot then [flag "--oneshot"] else []) else [flag "--depclean"]) ++ flags opts) [p]) argv).
(** The shell is only asked which of its commands are there. *)
Definition detects_package (argv : list pystr) : Prop := argv = [lit "bash"; lit "-c"; lit
  "{ type &>/dev/null apt-get && echo apt-get ; } || { type &>/dev/null pacman && echo pacman ; } || { type &>/dev/null emerge && echo emerge ; } || echo __unknown__"].
Definition detects_service (argv : list pystr) : Prop := argv = [lit "bash"; lit "-c"; lit "{ type &>/dev/null systemctl && echo systemctl ; } || echo __unknown__"].

(** ** fora.operations.systemd *)
Definition user_flag (user_mode : bool) : list (pystr * option pystr) := if user_mode then [flag "--user"] else [].
Definition reload_runs (user_mode : bool) : list pystr -> Prop := invokes "systemctl" (user_flag user_mode) [lit "daemon-reload"].
Definition verb (target : pystr) (v : pystr) : Prop :=
  (target = lit "started" /\ v = lit "start") \/ (target = lit "restarted" /\ v = lit "restart") \/
  (target = lit "reloaded" /\ v = lit "reload") \/ (target = lit "stopped" /\ v = lit "stop").
Definition service_asks (name : pystr) (argv : list pystr) : Prop := exists property,
  (property = lit "ActiveState" \/ property = lit "UnitFileState") /\ invokes "systemctl" [flag "--value"; opt "--property" property] [lit "show"; name] argv.
Definition service_runs (name : pystr) (target : option pystr) (enabled : option bool) (user_mode : bool) (argv : list pystr) : Prop :=
  exists v, invokes "systemctl" (user_flag user_mode) [v; name] argv /\
    ((exists t, target = Some t /\ verb t v) \/ (enabled = Some true /\ v = lit "enable") \/ (enabled = Some false /\ v = lit "disable")).

(** ** fora.operations.git *)
Definition repo_asks (url path : pystr) (branch : option pystr) (argv : list pystr) : Prop :=
  invokes "git" [opt "-C" path] [lit "rev-parse"; lit "HEAD"] argv \/
  exists ref, asked branch ref /\ invokes "git" [flag "--exit-code"] [lit "ls-remote"; url; ref] argv.
Definition git_option (branch : option pystr) (depth : option pystr) (rebase ff_only recursive : bool) (o : pystr * option pystr) : Prop :=
  (exists v, depth = Some v /\ o = opt "--depth" v) \/ (exists v, branch = Some v /\ o = opt "--branch" v) \/
  (rebase = true /\ o = flag "--rebase") \/ (ff_only = true /\ o = flag "--ff-only") \/ o = flag "--init" \/ (recursive = true /\ o = flag "--recursive").
Definition repo_runs (url path : pystr) (branch depth : option pystr) (rebase ff_only submodules recursive : bool) (argv : list pystr) : Prop :=
  exists opts, Forall (git_option branch depth rebase ff_only recursive) opts /\
    (invokes "git" opts [lit "clone"; url; path] argv \/ invokes "git" (opt "-C" path :: opts) [lit "pull"] argv \/
     (submodules = true /\ invokes "git" (opt "-C" path :: opts) [lit "submodule"; lit "update"] argv) \/
     invokes "git" [opt "-C" path; flag "--get"] [lit "config"; lit "remote.origin.url"] argv).

(** ** What takes something away: files, accounts, packages.  (apt-get removes a package if a minus is added to its name.) *)
Definition takes_away (argv : list pystr) : Prop :=
  exists program opts operands, invokes program opts operands argv /\
    (program = "rm"%string \/ program = "userdel"%string \/ program = "groupdel"%string \/
     (program = "pacman"%string /\ Exists (fun o => exists r, fst o = lit "-R" ++ r) opts) \/
     (program = "apt-get"%string /\ (head operands = Some (lit "remove") \/ Exists (fun p => last p = Some 45%N) operands)) \/
     (program = "emerge"%string /\ flag "--depclean" ∈ opts)).
(** A shell is given text to run. *)
Definition uses_shell (argv : list pystr) : Prop := exists sh, (sh = lit "bash" \/ sh = lit "sh") /\ head argv = Some sh.
