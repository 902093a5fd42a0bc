(** The whole program: a command line, an inventory, and a system behind every host.
    Modelled code: main.py:22-64 and 246-272, connection.py:26-42, loader.py:85-147 with scripts that call operations. *)
From stdpp Require Import gmap.
From Verif Require Import Base Codec Paths Sys Dispatcher Client Control Op Options System Prop_Tried.
From Verif Require Main.
Local Open Scope nat_scope.

(** Scripts: like [prog] of Control.v, with operations.  [Operate a k]: the operation [k] with [check=a]; [Direct m]: anything else that is done through
    [fora.host.connection]. *)
Inductive tale : Type -> Type :=
| Ret {A} (a : A) : tale A
| Raise {A} (e : exn) : tale A
| Bind {A B} (p : tale A) (k : A -> tale B) : tale B
| Try {A} (p : tale A) (h : exn -> tale A) : tale A
| Operate (a : check_arg) (k : call) : tale opres
| Direct {A} (m : C A) : tale A
| Current : tale settings
| With {A} (q : settings) (body : settings -> tale A) : tale A
| Chdir (p : pystr) : tale unit
| Rmdir (p : pystr) : tale unit
| Local (path : pystr) (recursive : bool) (ps : params) : tale unit.

Section session.
  Variable exec : proc -> M xres.
  Variable sha512 : bytes -> bytes.
  Variable search : bool -> pystr -> pystr -> result bool.
  Variable date : pystr.
  Variable set_order : list pystr -> list pystr.
  Variable realpath : pystr -> pystr -> pystr.
  Variable isdir : pystr -> bool.
  Variable inode : pystr -> option N.
  Variable code : pystr -> option (params -> tale unit).
  (** [fora.args]: main.py:271 *)
  Variable args : opts.

  (** api.py:252-293 and the operations look at [fora.args.dry] and [fora.args.diff] *)
  Fixpoint tell (local : pystr -> bool -> params -> W unit) {A} (p : tale A) {struct p} : W A :=
    match p with
    | Ret a => mret a
    | Raise e => wraise e
    | Bind p k => x ← tell local p; tell local (k x)
    | Try p h => wtry (tell local p) (fun e => tell local (h e))
    | Operate a k => call_op exec sha512 (n_diff args) search date set_order (n_dry args) a k
    | Direct m => via m
    | Current => current_defaults
    | With q body => script_defaults exec sha512 q (fun d => tell local (body d))
    | Chdir p => chdir isdir p
    | Rmdir p => modW (fun c => set_gone (p :: c_gone c) c)
    | Local path recursive ps => local path recursive ps
    end.
  (** utils.py:145, as in Control.v *)
  Definition load_tale (run : tale unit -> W unit) (ps : params) (file : pystr) : W unit :=
    match code file with None => wraise (oserr ENOENT) | Some f => run (f ps) end.
  Fixpoint narrate (depth : nat) : forall A, tale A -> W A :=
    match depth with
    | 0 => fun A p => tell (fun _ _ _ => wraise OutOfFuel) p
    | S d => fun A p => tell (fun path recursive ps => local_script exec sha512 realpath isdir inode (load_tale (narrate d unit) ps) path recursive) p
    end.
  (** main.py:59.  [path]: the value of the positional argument, a string or (None) an empty list, which [os.path.realpath] rejects; what has been changed by then
      is changed back (loader.py:145-147). *)
  Definition run_cmdline (depth : nat) (path : option pystr) : W unit :=
    match path with Some p => run_script exec sha512 realpath isdir (load_tale (narrate depth unit) []) p | None => wraise TypeError end.
End session.

Definition fleet := pystr -> os.
Definition put (h : pystr) (s : os) (f : fleet) : fleet := fun x => if str_eqb x h then s else f x.
(** Computations of the program: the systems of all hosts, and the state of the process.  There is one connection at a time; scripts that open connections
    themselves are left out (Turns.v has them), and so is what the modules of the inventory do to hosts. *)
Definition F (A : Type) : Type := fleet * ctl -> result A * (fleet * ctl).

Section fora.
  Variable exec : pystr -> proc -> M xres.
  Variable sha512 : bytes -> bytes.
  Variable search : bool -> pystr -> pystr -> result bool.
  Variable date : pystr.
  Variable set_order : list pystr -> list pystr.
  Variable realpath : pystr -> pystr -> pystr.
  Variable isdir : pystr -> bool.
  Variable inode : pystr -> option N.
  (** what the file holds; it may look at the host *)
  Variable code : pystr -> pystr -> option (params -> tale unit).
  Variable depth : nat.
  Variable digit : N -> bool.
  (** [load_inventory]: the names of the hosts, in order *)
  Variable inventory : option pystr -> result (list pystr).
  (** [base_remote_settings()] *)
  Variable base : settings.
  (** how the connection is opened and closed (Lifecycle.v); a connection may be lost later *)
  Variable opens : pystr -> result link.
  Variable closes : pystr -> result unit.

  (** connection.py:26-35 and main.py:57-59: everything that happens in the dispatcher of one host *)
  Definition session (args : opts) (path : option pystr) (h : pystr) : W unit :=
    _ ← resolve_identity (exec h) sha512;
    run_cmdline (exec h) sha512 search date set_order realpath isdir inode (code h) args depth path.
  (** connection.py:31-42 *)
  Definition run_host (args : opts) (path : option pystr) (h : pystr) : F unit := fun st =>
    match opens h with
    | Err e => (Err e, st)
    | Ok l =>
        let '(r, c) := session args path h (set_base base (set_remote (Remote (fst st h) l) (snd st))) in
        (match closes h with Ok _ => r | Err e => Err e end, (put h (r_os (c_remote c)) (fst st), c))
    end.
  Fixpoint run_hosts (args : opts) (path : option pystr) (l : list pystr) : F unit := fun st =>
    match l with
    | [] => (Ok tt, st)
    | h :: r => match run_host args path h st with (Ok _, st') => run_hosts args path r st' | (Err e, st') => (Err e, st') end
    end.
  (** main.py:22-64 *)
  Definition main_run (args : opts) : F unit := fun st =>
    match inventory (default None (n_words args !! 0)) with
    | Err (FatalError _) => (Err Main.die, st)
    | Err e => (Err e, st)
    | Ok loaded =>
        match Main.select loaded (match n_hosts args with Some s => split_char 44 s | None => loaded end) [] with
        | Err e => (Err e, st)
        | Ok selected => run_hosts args (default None (n_words args !! 1)) selected st
        end
    end.
  (** main.py:246-272.  The other courses have nothing to do with hosts: --init writes local files (Init.v), --inspect-inventory loads the inventory (Inspect.v);
      all end the program. *)
  Definition fora (argv : list pystr) : F unit := fun st =>
    match parse_args digit argv with
    | Runs args => main_run args st
    | Refuses => (Err (SystemExit 1), st)
    | Helps | Tells_version | Initialises _ | Inspects _ => (Err (SystemExit 0), st)
    end.
End fora.
