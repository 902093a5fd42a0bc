(** operations/system.py, systemd.py, git.py, apt.py, pacman.py, portage.py, and utils.py:12-105, 197-210. *)
From stdpp Require Import gmap.
From Verif Require Import Base Utf8 Codec Paths Sys Dispatcher Client Control Op Files.

(** [sorted] on strings: by code points *)
Fixpoint str_leb (a b : pystr) : bool :=
  match a, b with
  | [], _ => true
  | _ :: _, [] => false
  | x :: a, y :: b => (x <? y)%N || ((x =? y)%N && str_leb a b)
  end.
Fixpoint insert_str (x : pystr) (l : list pystr) : list pystr :=
  match l with [] => [x] | y :: r => if str_leb x y then x :: l else y :: insert_str x r end.
Definition py_sorted (l : list pystr) : list pystr := foldr insert_str [] l.

(** [a or b] for strings, numbers and lists that may be None *)
Definition or_str (a b : option pystr) : option pystr := match a with Some (_ :: _) => a | _ => b end.
Definition or_int (a b : option Z) : option Z := match a with Some z => if (z =? 0)%Z then b else a | None => b end.
Definition or_list (a : option (list pystr)) (b : list pystr) : list pystr := match a with Some (x :: l) => x :: l | _ => b end.
Definition vint (o : option Z) : pv := match o with None => VNone | Some z => VInt z end.
Definition vstrs (l : list pystr) : pv := VList (List.map VStr l).
Definition vbool (o : option bool) : pv := match o with None => VNone | Some b => VBool b end.
(** [s.split()]: the words of a text *)
Fixpoint py_words (s : pystr) : list pystr :=
  match s with
  | [] => []
  | c :: r =>
      if is_space c then py_words r
      else match r with
           | [] => [[c]]
           | d :: _ => if is_space d then [c] :: py_words r
                       else match py_words r with w :: ws => (c :: w) :: ws | [] => [[c]] end
           end
  end.
(** [x in b] for bytes *)
Fixpoint bytes_prefix (x b : bytes) : bool :=
  match x, b with [], _ => true | c :: x, d :: b => bool_decide (c = d) && bytes_prefix x b | _, _ => false end.
Fixpoint bytes_in (x b : bytes) : bool := bytes_prefix x b || match b with [] => false | _ :: r => bytes_in x r end.

Section system.
  Variable exec : proc -> M xres.
  Variable sha512 : bytes -> bytes.
  (** [fora.args.dry] *)
  Variable dry : bool.
  (** the order in which a set of strings is iterated over *)
  Variable set_order : list pystr -> list pystr.

  Notation crun := (crun exec sha512).
  Notation sh := (sh exec sha512).
  (** [(res.stdout or b"").decode('utf-8', errors='ignore').strip()], and with backslashreplace *)
  Definition out_ignore (r : completed) : pystr := strip (utf8_decode_ignore (default [] (cr_stdout r))).
  Definition out_bsr (r : completed) : pystr := strip (utf8_decode_bsr (default [] (cr_stdout r))).

  (** ** utils.py *)
  (** 18-27.  The script tries the commands in the order of the registry. *)
  Definition probe (cmd : pystr) : pystr := lit "{ type &>/dev/null " ++ cmd ++ lit " && echo " ++ cmd ++ lit " ; }".
  Definition probe_script (cmds : list pystr) : pystr := join_str (lit " || ") (List.map probe cmds) ++ lit " || echo __unknown__".
  Definition find_command {A} (registry : list (pystr * A)) : W (option A) :=
    res ← crun [lit "bash"; lit "-c"; probe_script registry.*1];
    mret (dget (out_ignore res) registry).

  (** 53-105.  [packages] is a list of strings; the check of its type (81-82) is left out. *)
  Fixpoint probe_all (is_installed : pystr -> W bool) (packages installed : list pystr) : W (list pystr) :=
    match packages with
    | [] => mret installed
    | p :: r => b ← is_installed p; probe_all is_installed r (if b : bool then (if str_in p installed then installed else installed ++ [p]) else installed)
    end.
  Fixpoint for_each (f : pystr -> W unit) (l : list pystr) : W unit :=
    match l with [] => mret tt | p :: r => _ ← f p; for_each f r end.
  Definition k_installed := lit "installed".
  Definition generic_package (packages : list pystr) (present : bool) (is_installed : pystr -> W bool) (install uninstall : pystr -> W unit) : O opres :=
    installed ← olift (probe_all is_installed packages []);
    _ ← initial_state [(k_installed, vstrs (py_sorted installed))];
    _ ← final_state [(k_installed, if present then vstrs (py_sorted packages) else vstrs [])];
    u ← unchanged false;
    if u : bool then success
    else
      _ ← (if dry then mret tt
           else if present then olift (for_each install (set_order (List.filter (fun p => negb (str_in p installed)) (dedup packages))))
           else olift (for_each uninstall (set_order installed)));
      success.

  (** ** pacman.py:9-59 *)
  Definition opt_list (o : option (list pystr)) : list pystr := or_list o [].
  Definition pacman_query (p : pystr) : list pystr := [lit "pacman"; lit "-Ql"; lit "--"; p].
  Definition pacman_install (opts : list pystr) (p : pystr) : list pystr :=
    [lit "pacman"; lit "--color"; lit "always"; lit "--noconfirm"; lit "-S"] ++ opts ++ [lit "--"; p].
  Definition pacman_remove (opts : list pystr) (p : pystr) : list pystr :=
    [lit "pacman"; lit "--color"; lit "always"; lit "--noconfirm"; lit "-Rns"] ++ opts ++ [lit "--"; p].
  (** [check=False]; the options are not handed on to the query *)
  Definition pacman_has (p : pystr) : W bool :=
    r ← run exec sha512 (pacman_query p) None true false None None None None; mret (cr_rc r =? 0)%Z.
  Definition pacman_package (packages : list pystr) (present : bool) (opts : option (list pystr)) : O opres :=
    generic_package packages present pacman_has (fun p => sh (pacman_install (opt_list opts) p)) (fun p => sh (pacman_remove (opt_list opts) p)).

  (** ** portage.py:9-65 *)
  Definition portage_query (p : pystr) : list pystr := [lit "emerge"; lit "--info"; lit "--"; p].
  Definition portage_install (oneshot : bool) (opts : list pystr) (p : pystr) : list pystr :=
    [lit "emerge"; lit "--color=y"; lit "--verbose"] ++ (if oneshot then lit "--oneshot" :: opts else opts) ++ [lit "--"; p].
  Definition portage_remove (opts : list pystr) (p : pystr) : list pystr :=
    [lit "emerge"; lit "--color=y"; lit "--verbose"; lit "--depclean"] ++ opts ++ [lit "--"; p].
  Definition portage_has (p : pystr) : W bool :=
    r ← crun (portage_query p); mret (match cr_stdout r with Some b => bytes_in (blit "was built with the following") b | None => false end).
  Definition portage_package (packages : list pystr) (present oneshot : bool) (opts : option (list pystr)) : O opres :=
    generic_package packages present portage_has (fun p => sh (portage_install oneshot (opt_list opts) p)) (fun p => sh (portage_remove (opt_list opts) p)).

  (** ** apt.py:9-60 *)
  Definition apt_query (p : pystr) : list pystr := [lit "dpgk-query"; lit "--show"; lit "--showformat=${Status}"; lit "--"; p].
  Definition apt_install (opts : list pystr) (p : pystr) : list pystr := [lit "apt-get"; lit "install"] ++ opts ++ [lit "--"; p].
  Definition apt_remove (opts : list pystr) (p : pystr) : list pystr := [lit "apt-get"; lit "remove"] ++ opts ++ [lit "--"; p].
  Definition apt_has (p : pystr) : W bool :=
    r ← crun (apt_query p); mret (match cr_stdout r with Some b => bytes_in (blit "ok installed") b | None => false end).
  Definition apt_package (packages : list pystr) (present : bool) (opts : option (list pystr)) : O opres :=
    generic_package packages present apt_has (fun p => sh (apt_install (opt_list opts) p)) (fun p => sh (apt_remove (opt_list opts) p)).

  (** ** systemd.py *)
  (** 9-44 *)
  Definition k_reloaded := lit "reloaded".
  Definition daemon_reload (user_mode : bool) : O opres :=
    _ ← initial_state [(k_reloaded, VBool false)];
    _ ← final_state [(k_reloaded, VBool true)];
    _ ← (if dry then mret tt
         else if user_mode then olift (sh [lit "systemctl"; lit "--user"; lit "daemon-reload"])
         else olift (sh [lit "systemctl"; lit "daemon-reload"]));
    success.
  (** 46-118 *)
  Definition state_actions : list (pystr * pystr) :=
    [(lit "started", lit "start"); (lit "restarted", lit "restart"); (lit "reloaded", lit "reload"); (lit "stopped", lit "stop")].
  Definition k_state := lit "state". Definition k_enabled := lit "enabled".
  Definition show_unit (prop service : pystr) : list pystr := [lit "systemctl"; lit "show"; lit "--value"; lit "--property"; prop; lit "--"; service].
  Definition systemctl (user_mode : bool) (verb service : pystr) : list pystr :=
    (if user_mode then [lit "systemctl"; lit "--user"] else [lit "systemctl"]) ++ [verb; lit "--"; service].
  Definition service (service : pystr) (target : option pystr) (enabled : option bool) (user_mode : bool) : O opres :=
    _ ← (match target with
         | Some t => if dhas t state_actions then mret tt else oraise (ValueError (lit "Invalid target state"))
         | None => mret tt
         end);
    a ← olift (crun (show_unit (lit "ActiveState") service));
    let cur_state := if str_in (out_ignore a) [lit "active"; lit "activating"] then lit "started" else lit "stopped" in
    b ← olift (crun (show_unit (lit "UnitFileState") service));
    let cur_enabled := str_eqb (out_ignore b) (lit "enabled") in
    _ ← initial_state [(k_state, VStr cur_state); (k_enabled, VBool cur_enabled)];
    _ ← final_state [(k_state, vopt target); (k_enabled, vbool enabled)];
    u ← unchanged true;
    if u : bool then success
    else
      _ ← (if dry then mret tt
           else
             _ ← (c ← changed k_state;
                  match target with
                  | Some t => if c : bool then olift (sh (systemctl user_mode (default [] (dget t state_actions)) service)) else mret tt
                  | None => mret tt
                  end);
             c ← changed k_enabled;
             match enabled with
             | Some e => if c : bool then olift (sh (systemctl user_mode (if e then lit "enable" else lit "disable") service)) else mret tt
             | None => mret tt
             end);
      success.

  (** ** git.py:9-146 *)
  Definition k_initialized := lit "initialized". Definition k_commit := lit "commit".
  Definition repo_state (initialized : bool) (commit : option pystr) : state := [(k_initialized, VBool initialized); (k_commit, vopt commit)].
  Definition depth_args (depth : option Z) : list pystr := match depth with Some d => [lit "--depth"; str_of_Z d] | None => [] end.
  Definition clone_cmd (url path : pystr) (branch : option pystr) (depth : option Z) : list pystr :=
    [lit "git"; lit "clone"] ++ depth_args depth ++ match branch with Some b => [lit "--branch"; b] | None => [] end ++ [lit "--"; url; path].
  Definition pull_cmd (path : pystr) (depth : option Z) (rebase ff_only : bool) : list pystr :=
    [lit "git"; lit "-C"; path; lit "pull"] ++ depth_args depth ++ (if rebase then [lit "--rebase"] else []) ++ (if ff_only then [lit "--ff-only"] else []).
  Definition submodule_cmd (path : pystr) (depth : option Z) (recursive shallow : bool) : list pystr :=
    [lit "git"; lit "-C"; path; lit "submodule"; lit "update"; lit "--init"] ++ (if shallow then depth_args depth else []) ++ (if recursive then [lit "--recursive"] else []).
  Definition repo (url path : pystr) (branch : option pystr) (update : bool) (depth : option Z) (rebase ff_only submodules recursive shallow : bool) : O opres :=
    _ ← olift (check_absolute_path path);
    st ← olift (stat exec sha512 path false false);
    let continue (there : bool) (cur : option pystr) :=
      if there && negb update then
        _ ← final_state (repo_state true cur);
        success
      else
        n ← olift (crun [lit "git"; lit "ls-remote"; lit "--exit-code"; lit "--"; url; default (lit "HEAD") (or_str branch None)]);
        match py_words (out_bsr n) with
        | [] => oraise IndexError
        | newest :: _ =>
            _ ← final_state (repo_state true (Some newest));
            u ← unchanged false;
            if u : bool then success
            else if dry then success
            else if negb there then
              _ ← olift (sh (clone_cmd url path branch depth));
              _ ← (if submodules then olift (sh (submodule_cmd path depth recursive shallow)) else mret tt);
              success
            else
              r ← olift (crun [lit "git"; lit "-C"; path; lit "config"; lit "--get"; lit "remote.origin.url"]);
              if negb (str_eqb (out_bsr r) url) then failure (lit "refusing to update existing git repository with different remote url '" ++ out_bsr r ++ lit "'")
              else
                _ ← olift (sh (pull_cmd path depth rebase ff_only));
                _ ← (if submodules then olift (sh (submodule_cmd path depth recursive shallow)) else mret tt);
                success
        end in
    match st with
    | None => _ ← initial_state (repo_state false None); continue false None
    | Some st =>
        if str_eqb (st_type st) (lit "dir") then
          g ← olift (stat exec sha512 (path_join path (lit ".git")) false false);
          match g with
          | None => failure (lit "directory '" ++ path ++ lit "' already exists but is not a git repository")
          | Some g =>
              if negb (str_eqb (st_type g) (lit "dir")) then failure (lit "directory '" ++ path ++ lit "' already exists but doesn't contains a valid .git directory")
              else
                r ← olift (crun [lit "git"; lit "-C"; path; lit "rev-parse"; lit "HEAD"]);
                _ ← initial_state (repo_state true (Some (out_bsr r)));
                continue true (Some (out_bsr r))
          end
        else failure (lit "path '" ++ path ++ lit "' exists but is not a directory!")
    end.

  (** ** system.py *)
  (** 10-211.  The check that [groups] is a list (113-114) is left out. *)
  Definition k_uid := lit "uid". Definition k_groups := lit "groups". Definition k_comment := lit "comment".
  Definition k_home := lit "home". Definition k_shell := lit "shell". Definition k_hash := lit "password_hash". Definition k_gid := lit "gid".
  Definition user_state (exists_ : bool) (uid : option Z) (group : option pystr) (groups : list pystr) (comment home shell hash : option pystr) : state :=
    [(s_exists, VBool exists_); (k_uid, vint uid); (k_group, vopt group); (k_groups, vstrs groups); (k_comment, vopt comment);
     (k_home, vopt home); (k_shell, vopt shell); (k_hash, vopt hash)].
  Definition when_some {A} (b : O bool) (o : option A) (m : A -> W unit) : O unit :=
    x ← b; match o with Some a => if x : bool then olift (m a) else mret tt | None => mret tt end.
  Definition useradd_cmd (user : pystr) (system : bool) (uid : option Z) (group : option pystr) (groups : list pystr) (comment : option pystr) (home shell : pystr) (hash : option pystr) : list pystr :=
    [lit "useradd"] ++ (if system then [lit "--system"] else []) ++
    (match uid with Some z => [lit "--uid"; str_of_Z z] | None => [] end) ++
    (match group with None => [lit "--user-group"] | Some g => [lit "--no-user-group"; lit "--gid"; g] end) ++
    (match groups with [] => [] | _ => [lit "--groups"; join_str (lit ",") groups] end) ++
    (match comment with Some t => [lit "--comment"; t] | None => [] end) ++
    [lit "--no-create-home"; lit "--home-dir"; home] ++ [lit "--shell"; shell] ++
    (match hash with Some ((_ :: _) as h) => [lit "--password"; h] | _ => [] end) ++ [lit "--"; user].
  Definition usermod (opt value user : pystr) : list pystr := [lit "usermod"; opt; value; lit "--"; user].
  Definition user (user : pystr) (present : bool) (uid : option Z) (group : option pystr) (groups : option (list pystr)) (append_groups system : bool)
      (password_hash home shell comment : option pystr) : O opres :=
    current ← olift (query_user exec sha512 user true None);
    _ ← initial_state (match current with
         | None => user_state false None None [] None None None None
         | Some c => user_state true (Some (ue_uid c)) (Some (ue_group c)) (py_sorted (ue_groups c)) (Some (ue_gecos c)) (Some (ue_home c)) (Some (ue_shell c)) (ue_hash c)
         end);
    let target_uid := or_int uid (ue_uid <$> current) in
    let target_group := or_str group (ue_group <$> current) in
    let current_groups := default [] (ue_groups <$> current) in
    let target_groups := py_sorted (if append_groups then dedup (or_list groups [] ++ current_groups) else or_list groups current_groups) in
    let target_hash := or_str password_hash (current ≫= ue_hash) in
    let target_comment := or_str comment (ue_gecos <$> current) in
    let target_home := default (default (lit "/dev/null") (ue_home <$> current)) (or_str home None) in
    let target_shell := default (default (lit "/sbin/nologin") (ue_shell <$> current)) (or_str shell None) in
    _ ← final_state (if present then user_state true target_uid target_group target_groups target_comment (Some target_home) (Some target_shell) target_hash
                     else user_state false None None [] None None None None);
    u ← unchanged false;
    if u : bool then success
    else
      _ ← (if dry then mret tt
           else
             e ← changed s_exists;
             if e : bool then
               if present then olift (sh (useradd_cmd user system target_uid target_group target_groups target_comment target_home target_shell target_hash))
               else olift (sh [lit "userdel"; lit "--"; user])
             else if present then
               _ ← when_some (changed k_uid) target_uid (fun z => sh (usermod (lit "--uid") (str_of_Z z) user));
               _ ← when_some (changed k_group) target_group (fun g => sh (usermod (lit "--gid") g user));
               _ ← when_some (changed k_groups) (match target_groups with [] => None | _ => Some tt end) (fun _ => sh (usermod (lit "--groups") (join_str (lit ",") target_groups) user));
               _ ← when_some (changed k_comment) target_comment (fun t => sh (usermod (lit "--comment") t user));
               _ ← when (changed k_home) (sh (usermod (lit "--home") target_home user));
               _ ← when (changed k_shell) (sh (usermod (lit "--shell") target_shell user));
               when_some (changed k_hash) target_hash (fun h => sh (usermod (lit "--password") h user))
             else mret tt);
      success.

  (** 213-300 *)
  Definition group_state (exists_ : bool) (gid : option Z) : state := [(s_exists, VBool exists_); (k_gid, vint gid)].
  Definition groupadd_cmd (group : pystr) (system : bool) (gid : option Z) : list pystr :=
    [lit "groupadd"] ++ (if system then [lit "--system"] else []) ++ (match gid with Some z => [lit "--gid"; str_of_Z z] | None => [] end) ++ [lit "--"; group].
  Definition group (group : pystr) (present : bool) (gid : option Z) (system : bool) : O opres :=
    current ← olift (query_group exec sha512 group None);
    _ ← initial_state (match current with None => group_state false None | Some c => group_state true (Some (ge_gid c)) end);
    let target_gid := or_int gid (ge_gid <$> current) in
    _ ← final_state (if present then group_state true target_gid else group_state false None);
    u ← unchanged false;
    if u : bool then success
    else
      _ ← (if dry then mret tt
           else
             e ← changed s_exists;
             if e : bool then
               if present then olift (sh (groupadd_cmd group system target_gid))
               else olift (sh [lit "groupdel"; lit "--"; group])
             else if present then
               when_some (changed k_gid) target_gid (fun z => sh [lit "groupmod"; lit "--gid"; str_of_Z z; lit "--"; group])
             else mret tt);
      success.

  (** 302-345, 347-397: not operations themselves.  [managers]: what the registered functions do with the arguments. *)
  Definition with_manager (managers : list (pystr * W opres)) (error : pystr) : W opres :=
    fn ← find_command managers;
    match fn with Some m => m | None => wraise (OperationError error) end.
  (** the registry after [import_submodules] has imported the modules in alphabetical order *)
  Definition package (packages : list pystr) (present : bool) (a : check_arg) : W opres :=
    with_manager [(lit "apt-get", operation a (apt_package packages present None));
                  (lit "pacman", operation a (pacman_package packages present None));
                  (lit "emerge", operation a (portage_package packages present false None))]
      (lit "No supported package manager was found on the remote system.").
  Definition system_service (name : pystr) (target : option pystr) (enabled : option bool) (a : check_arg) : W opres :=
    with_manager [(lit "systemctl", operation a (service name target enabled false))]
      (lit "No supported service manager was found on the remote system.").
End system.
