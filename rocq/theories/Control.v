(** The process that runs a deploy: connections, default settings and scripts.
    connection.py, types.py (ScriptWrapper), remote_settings.py, loader.py (run_script), operations/local.py *)
From stdpp Require Import gmap.
From Verif Require Import Base Utf8 Codec Paths Sys Dispatcher Client.

(** remote_settings.py:25-39 *)
Record settings := Settings {
  s_as_user : option pystr; s_as_group : option pystr; s_owner : option pystr; s_group : option pystr;
  s_file_mode : option pystr; s_dir_mode : option pystr; s_umask : option pystr; s_cwd : option pystr }.
Definition no_settings : settings := Settings None None None None None None None None.
Definition over {A} (a b : option A) : option A := match b with None => a | Some _ => b end.
(** 41-64 [self.overlay(settings)] *)
Definition overlay (a b : settings) : settings :=
  Settings (over (s_as_user a) (s_as_user b)) (over (s_as_group a) (s_as_group b))
    (over (s_owner a) (s_owner b)) (over (s_group a) (s_group b))
    (over (s_file_mode a) (s_file_mode b)) (over (s_dir_mode a) (s_dir_mode b))
    (over (s_umask a) (s_umask b)) (over (s_cwd a) (s_cwd b)).

(** types.py:355-374 [ScriptWrapper]: the stack of defaults, innermost first, and [definition_file()] (160-172), which is
    "<internal>" before [wrap] and then the [__path__] of the module (utils.py:141).  Other attributes: Wrapper.v *)
Record script := Script' { sw_defaults : list settings; sw_file : option pystr }.
Definition new_script : script := Script' [no_settings] None.

(** The state of the process.  [c_base]: [fora.host.connection.base_settings]; [c_script]: [fora.script], an index of
    [c_scripts], in which all wrappers ever created are kept; [c_stack]: [loader.script_stack], innermost first;
    [c_indent]: [logger.state.indentation_level]; [c_gone]: local directories that have been removed. *)
Record ctl := Ctl {
  c_remote : remote; c_base : settings;
  c_scripts : list script; c_script : option nat; c_stack : list nat;
  c_cwd : pystr; c_gone : list pystr; c_indent : nat }.
Definition set_remote v c := Ctl v (c_base c) (c_scripts c) (c_script c) (c_stack c) (c_cwd c) (c_gone c) (c_indent c).
Definition set_base b c := Ctl (c_remote c) b (c_scripts c) (c_script c) (c_stack c) (c_cwd c) (c_gone c) (c_indent c).
Definition set_scripts l c := Ctl (c_remote c) (c_base c) l (c_script c) (c_stack c) (c_cwd c) (c_gone c) (c_indent c).
Definition set_script i c := Ctl (c_remote c) (c_base c) (c_scripts c) i (c_stack c) (c_cwd c) (c_gone c) (c_indent c).
Definition set_stack l c := Ctl (c_remote c) (c_base c) (c_scripts c) (c_script c) l (c_cwd c) (c_gone c) (c_indent c).
Definition set_cwd p c := Ctl (c_remote c) (c_base c) (c_scripts c) (c_script c) (c_stack c) p (c_gone c) (c_indent c).
Definition set_gone l c := Ctl (c_remote c) (c_base c) (c_scripts c) (c_script c) (c_stack c) (c_cwd c) l (c_indent c).
Definition set_indent n c := Ctl (c_remote c) (c_base c) (c_scripts c) (c_script c) (c_stack c) (c_cwd c) (c_gone c) n.

(** Computations of the process *)
Definition W (A : Type) : Type := ctl -> result A * ctl.
Global Instance W_bind : MBind W := fun A B f m c => match m c with (Ok a, c') => f a c' | (Err e, c') => (Err e, c') end.
Global Instance W_ret : MRet W := fun A a c => (Ok a, c).
Definition wraise {A} (e : exn) : W A := fun c => (Err e, c).
Definition getW : W ctl := fun c => (Ok c, c).
Definition modW (f : ctl -> ctl) : W unit := fun c => (Ok tt, f c).
Definition liftW {A} (r : result A) : W A := fun c => (r, c).
(** something done through the connection *)
Definition via {A} (m : C A) : W A := fun c => let '(r, v) := m (c_remote c) in (r, set_remote v c).
(** [try: m except: h] with a handler that sees every exception (and may raise it again) *)
Definition wtry {A} (m : W A) (h : exn -> W A) : W A := fun c =>
  match m c with (Ok a, c') => (Ok a, c') | (Err e, c') => h e c' end.
(** [try: m finally: f]: an exception of [f] replaces the result *)
Definition wfinally {A} (m : W A) (f : W unit) : W A := fun c =>
  let '(r, c1) := m c in
  match f c1 with (Ok _, c2) => (r, c2) | (Err e, c2) => (Err e, c2) end.

Section control.
  Variable exec : proc -> M xres.
  Variable sha512 : bytes -> bytes.

  (** ** connection.py *)
  (** 125-141 *)
  Definition resolve_user (u : option pystr) : W pystr := via (conn_resolve_user exec sha512 u).
  Definition resolve_group (g : option pystr) : W pystr := via (conn_resolve_group exec sha512 g).
  Definition stat (p : pystr) (follow sha : bool) : W (option statres) := via (conn_stat exec sha512 p follow sha).
  (** 143-161 *)
  Definition upload (file : pystr) (content : bytes) (mode owner group : option pystr) : W unit :=
    via (conn_upload exec sha512 file content mode owner group).
  Definition download (file : pystr) : W bytes := via (conn_download exec sha512 file).
  (** [except ValueError: return default] *)
  Definition or_default {A} (m : W A) (d : option A) : W (option A) :=
    wtry (x ← m; mret (Some x)) (fun e => if is_ValueError e then mret d else wraise e).
  (** 163-189 *)
  Definition download_or (file : pystr) (d : option bytes) : W (option bytes) := or_default (download file) d.
  (** 191-205 *)
  Definition query_user (u : pystr) (hash : bool) (d : option user_entry) : W (option user_entry) :=
    or_default (via (conn_query_user exec sha512 u hash)) d.
  Definition query_group (g : pystr) (d : option group_entry) : W (option group_entry) :=
    or_default (via (conn_query_group exec sha512 g)) d.
  (** 207-234 *)
  Definition home_dir (u : option pystr) : W pystr :=
    u ← match u with None => resolve_user None | Some u => mret u end;
    e ← via (conn_query_user exec sha512 u false);
    mret (ue_home e).
  (** 236-240 *)
  Definition getenv (k : pystr) (d : option pystr) : W (option pystr) :=
    v ← via (conn_getenv exec sha512 k);
    mret (match v with None => d | Some _ => v end).
  (** 42-53 *)
  Definition resolve_identity : W unit :=
    u ← resolve_user None;
    g ← resolve_group None;
    modW (fun c => let b := c_base c in
      set_base (Settings (Some u) (Some g) (Some u) (Some g) (s_file_mode b) (s_dir_mode b) (s_umask b) (s_cwd b)) c).

  (** types.py:425-434 [current_defaults] of the wrapper [i]; the stack is never empty *)
  Definition current_of (i : nat) : W settings := fun c =>
    match c_scripts c !! i with
    | Some w => (match sw_defaults w with d :: _ => Ok d | [] => Err IndexError end, c)
    | None => (Err AttributeError, c)
    end.
  (** [fora.script.current_defaults()]: without a script [fora.script] is None *)
  Definition current_defaults : W settings := fun c =>
    match c_script c with Some i => current_of i c | None => (Err AttributeError, c) end.

  (** connection.py:79-85 [check_mask] *)
  Definition check_mask (m : option pystr) : W unit :=
    match m with
    | None => wraise (ValueError (lit "Error while resolving settings: mode cannot be None!"))
    | Some m => match py_int 8 m with
                | None => wraise (ValueError (lit "Error while resolving settings: must be octal!"))
                | Some _ => mret tt
                end
    end.
  Definition resolved (f : option pystr -> W pystr) (o : option pystr) : W (option pystr) :=
    match o with None => mret None | Some x => y ← f (Some x); mret (Some y) end.
  (** 55-101 [resolve_defaults] *)
  Definition resolve_defaults (q : settings) : W settings :=
    c ← getW;
    match c_script c with
    | None => wraise (RuntimeError (lit "Cannot resolve defaults, when no script is currently running."))
    | Some _ =>
        cur ← current_defaults;
        let q := overlay cur q in
        u ← resolved resolve_user (s_as_user q);
        g ← resolved resolve_group (s_as_group q);
        ow ← resolved resolve_user (s_owner q);
        gr ← resolved resolve_group (s_group q);
        _ ← check_mask (s_file_mode q);
        _ ← check_mask (s_dir_mode q);
        _ ← check_mask (s_umask q);
        _ ← match s_cwd q with
            | Some ((_ :: _) as d) =>
                st ← stat d false false;
                match st with
                | None => wraise (ValueError (lit "The selected working directory doesn't exist!"))
                | Some st => if str_eqb (st_type st) (lit "dir") then mret tt
                             else wraise (ValueError (lit "The selected working directory is not a directory!"))
                end
            | _ => mret tt
            end;
        mret (Settings u g ow gr (s_file_mode q) (s_dir_mode q) (s_umask q) (s_cwd q))
    end.

  (** 103-123 [run] *)
  Definition or_else {A} (a b : option A) : option A := match a with Some _ => a | None => b end.
  Definition run (command : list pystr) (input : option bytes) (capture check : bool) (user group umask cwd : option pystr) : W completed :=
    d ← current_defaults;
    via (conn_run exec sha512 command input capture check
           (or_else user (s_as_user d)) (or_else group (s_as_group d)) (or_else umask (s_umask d)) (or_else cwd (s_cwd d))).

  (** ** types.py *)
  (** 404-405 [canonicalize_mode] *)
  Definition canonicalize_mode (m : option pystr) : result (option pystr) :=
    match m with
    | None => Ok None
    | Some m => match py_int 8 m with
                | None => Err (ValueError (lit "invalid literal for int() with base 8"))
                | Some z => Ok (Some (oct_tail z))
                end
    end.
  (** 376-423 [defaults] of the wrapper [i]: the settings kept in the [RemoteDefaultsContext] *)
  Definition defaults (i : nat) (q : settings) : W settings :=
    fm ← liftW (canonicalize_mode (s_file_mode q));
    dm ← liftW (canonicalize_mode (s_dir_mode q));
    um ← liftW (canonicalize_mode (s_umask q));
    c ← getW;
    cur ← current_of i;
    mret (overlay (overlay (c_base c) cur) (Settings (s_as_user q) (s_as_group q) (s_owner q) (s_group q) fm dm um (s_cwd q))).
  Definition on_script (i : nat) (f : script -> script) : W unit := modW (fun c => set_scripts (alter f i (c_scripts c)) c).
  (** 34-39 [RemoteDefaultsContext.__enter__] *)
  Definition enter_defaults (i : nat) (new : settings) : W settings :=
    new ← resolve_defaults new;
    _ ← on_script i (fun w => Script' (new :: sw_defaults w) (sw_file w));
    c ← getW;
    mret (overlay (c_base c) new).
  (** 41-43 [__exit__] *)
  Definition exit_defaults (i : nat) : W unit := on_script i (fun w => Script' (tail (sw_defaults w)) (sw_file w)).
  (** [with wrapper.defaults(q) as d: body] *)
  Definition with_defaults {A} (i : nat) (q : settings) (body : settings -> W A) : W A :=
    new ← defaults i q;
    d ← enter_defaults i new;
    wfinally (body d) (exit_defaults i).
  (** [with fora.script.defaults(q) as d: body] *)
  Definition script_defaults {A} (q : settings) (body : settings -> W A) : W A := fun c =>
    match c_script c with Some i => with_defaults i q body c | None => (Err AttributeError, c) end.

  (** ** loader.py *)
  (** The local file system: canonical paths relative to the working directory, directories, identity of files. *)
  Variable realpath : pystr -> pystr -> pystr.
  Variable isdir : pystr -> bool.
  Variable inode : pystr -> option N.

  (** [os.path.dirname] of a canonical path *)
  Fixpoint upto_slash (p : pystr) : pystr := match p with [] => [] | c :: r => if (c =? slash)%N then r else upto_slash r end.
  Definition dirname (p : pystr) : pystr :=
    match rev (upto_slash (rev p)) with [] => if isabs p then lit "/" else [] | d => d end.
  (** [os.chdir] with an absolute path *)
  Definition chdir (p : pystr) : W unit := fun c =>
    if isdir p && negb (bool_decide (p ∈ c_gone c)) then (Ok tt, set_cwd p c) else (Err (oserr ENOENT), c).

  (** 85-147 [run_script]; [load]: utils.py:145 [exec_module], the code of the module.  The texts logged and the attributes
      stored in exceptions (137-144) are left out.  [wrap] happens before the code of the module runs (129-132). *)
  Definition run_script (load : pystr -> W unit) (path : pystr) : W unit :=
    _ ← modW (fun c => set_indent (S (c_indent c)) c);
    wfinally
      (c ← getW;
       let i := length (c_scripts c) in
       _ ← modW (fun c => set_stack (i :: c_stack c) (set_scripts (c_scripts c ++ [new_script]) c));
       wfinally
         (c ← getW;
          let previous_script := c_script c in
          let previous_working_directory := c_cwd c in
          let canonical := realpath (c_cwd c) path in
          _ ← chdir (dirname canonical);
          wfinally
            (_ ← modW (set_script (Some i));
             with_defaults i no_settings (fun _ =>
               c ← getW;
               _ ← on_script i (fun w => Script' (sw_defaults w) (Some (realpath (c_cwd c) (dirname canonical))));
               load canonical))
            (_ ← chdir previous_working_directory;
             modW (set_script previous_script)))
         (modW (fun c => set_stack (tail (c_stack c)) c)))
      (modW (fun c => set_indent (pred (c_indent c)) c)).

  (** [os.path.samefile(a, b)]: raises if one of them does not exist *)
  Definition samefile (c : ctl) (a b : pystr) : result bool :=
    match inode (realpath (c_cwd c) a), inode (realpath (c_cwd c) b) with
    | Some x, Some y => Ok (x =? y)%N
    | _, _ => Err (oserr ENOENT)
    end.
  (** operations/local.py:46-51: the check against recursion; [script_stack] is searched from the outermost script *)
  Fixpoint check_recursion (path : pystr) (ws : list nat) : W unit :=
    match ws with
    | [] => mret tt
    | i :: r =>
        c ← getW;
        let file := match c_scripts c !! i with Some w => default (lit "<internal>") (sw_file w) | None => lit "<internal>" end in
        same ← liftW (samefile c path file);
        if same : bool then wraise (ValueError (lit "Invalid recursive call to script. Use recursive=True to allow this."))
        else check_recursion path r
    end.
  (** 10-54 [local.script] *)
  Definition local_script (load : pystr -> W unit) (path : pystr) (recursive : bool) : W unit :=
    _ ← (if recursive then mret tt else c ← getW; check_recursion path (rev (c_stack c)));
    run_script load path.

  (** ** Scripts *)
  (** The programs that scripts are made of.  [Try] is try/except for all exceptions, from which finally and
      narrower handlers can be built; [Call] is anything done through the connection; [Rmdir]: a local directory disappears;
      loops are functions of the meta language.  Programs change [fora.script] and the stack of defaults only by these
      constructs. *)
  Definition params := list (pystr * pystr).
  Inductive prog : Type -> Type :=
  | Ret {A} (a : A) : prog A
  | Raise {A} (e : exn) : prog A
  | Bind {A B} (p : prog A) (k : A -> prog B) : prog B
  | Try {A} (p : prog A) (h : exn -> prog A) : prog A
  | Call {A} (m : C A) : prog A
  | Current : prog settings
  | With {A} (q : settings) (body : settings -> prog A) : prog A
  | Chdir (p : pystr) : prog unit
  | Rmdir (p : pystr) : prog unit
  | Local (path : pystr) (recursive : bool) (ps : params) : prog unit.

  (** The scripts on the local disk, with their parameters *)
  Variable code : pystr -> option (params -> prog unit).

  Fixpoint step (local : pystr -> bool -> params -> W unit) {A} (p : prog A) {struct p} : W A :=
    match p with
    | Ret a => mret a
    | Raise e => wraise e
    | Bind p k => x ← step local p; step local (k x)
    | Try p h => wtry (step local p) (fun e => step local (h e))
    | Call m => via m
    | Current => current_defaults
    | With q body => script_defaults q (fun d => step local (body d))
    | Chdir p => chdir p
    | Rmdir p => modW (fun c => set_gone (p :: c_gone c) c)
    | Local path recursive ps => local path recursive ps
    end.
  (** utils.py:145: the code of a file *)
  Definition load (run : prog unit -> W unit) (ps : params) (file : pystr) : W unit :=
    match code file with None => wraise (oserr ENOENT) | Some f => run (f ps) end.
  (** [depth] bounds the nesting of scripts, as python does: beyond it there is a RecursionError (here [OutOfFuel]). *)
  Fixpoint interp (depth : nat) : forall A, prog A -> W A :=
    match depth with
    | O => fun A p => step (fun _ _ _ => wraise OutOfFuel) p
    | S d => fun A p => step (fun path recursive ps => local_script (load (interp d unit) ps) path recursive) p
    end.
  (** main.py:59: the script given on the command line has no parameters *)
  Definition run_main (depth : nat) (path : pystr) : W unit := run_script (load (interp depth unit) []) path.
End control.
