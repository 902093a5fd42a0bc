(** main.py:22-64 [main_run]: running the script of the command line on the selected hosts. *)
From stdpp Require Import list.
From Verif Require Import Base Lifecycle.
Local Open Scope nat_scope.

(** What is recorded of a run: a script starts on a host, with the value of [fora.host] and the state of all connections at that time. *)
Record event := Starts { ev_host : pystr; ev_global : option pystr; ev_lives : pystr -> life }.
(** [d_lives]: the connector and the connection of every host; [d_global]: [fora.host]. *)
Record deploy := Deploy { d_lives : pystr -> life; d_global : option pystr; d_trace : list event }.
Definition D (A : Type) : Type := deploy -> result A * deploy.
Global Instance D_bind : MBind D := fun A B f m d => match m d with (Ok a, d') => f a d' | (Err e, d') => (Err e, d') end.
Global Instance D_ret : MRet D := fun A a d => (Ok a, d).
Definition draise {A} (e : exn) : D A := fun d => (Err e, d).
Definition set_life (h : pystr) (k : life) (l : pystr -> life) : pystr -> life := fun x => if str_eqb x h then k else l x.
(** work on the connection of one host *)
Definition on_host {A} (h : pystr) (m : K A) : D A := fun d =>
  let '(r, k) := m (d_lives d h) in (r, Deploy (set_life h k (d_lives d)) (d_global d) (d_trace d)).
Definition set_global (g : option pystr) : D unit := fun d => (Ok tt, Deploy (d_lives d) g (d_trace d)).
Definition record (h : pystr) : D unit := fun d => (Ok tt, Deploy (d_lives d) (d_global d) (d_trace d ++ [Starts h (d_global d) (d_lives d)])).
Definition dfinally {A} (m : D A) (f : D unit) : D A := fun d =>
  let '(r, d1) := m d in match f d1 with (Ok _, d2) => (r, d2) | (Err e, d2) => (Err e, d2) end.

Section main.
  (** [run_script(args.script, ...)] as it acts on the connection of the active host (Control.v has the details).
      Simplification: it only uses that host. *)
  Variable script : pystr -> K unit.
  (** 31-34: how [load_inventory] ends, and the keys of [fora.inventory.loaded_hosts] *)
  Variable load : result (list pystr).
  Definition die : exn := SystemExit 1.
  (** 37-45 *)
  Fixpoint select (loaded names selected : list pystr) : result (list pystr) :=
    match names with
    | [] => Ok selected
    | h :: r => if str_in h selected then select loaded r selected
                else if negb (str_in h loaded) then Err die
                else select loaded r (selected ++ [h])
    end.
  (** 57-60: [__enter__], the body and [__exit__] *)
  Definition run_host (h : pystr) : D unit :=
    _ ← on_host h k_enter;
    dfinally (_ ← set_global (Some h); _ ← record h; _ ← on_host h (script h); set_global None) (on_host h k_exit).
  (** 55-64; what is printed is left out *)
  Fixpoint run_hosts (l : list pystr) : D unit :=
    match l with [] => mret tt | h :: r => _ ← run_host h; run_hosts r end.
  (** [hosts]: the argument --hosts *)
  Definition main_run (hosts : option pystr) : D unit :=
    match load with
    | Err (FatalError _) => draise die
    | Err e => draise e
    | Ok loaded =>
        match select loaded (match hosts with Some s => split_char 44 s | None => loaded end) [] with
        | Err e => draise e
        | Ok selected => run_hosts selected
        end
    end.
End main.
