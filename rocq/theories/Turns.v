(** Which host user code acts on: the globals [fora.inventory] and [fora.host], all user modules of a deploy, and all hosts.
    Modelled code: utils.py:316-321, operations/api.py:252-260, operations/local.py:44-54, connection.py:31-42, types.py:34-39 and 420,
    loader.py:44-83 and 105-147, inventory_wrapper.py:547-575, 577-676 and 697-823, main.py:22-64. *)
From stdpp Require Import list.
From Verif Require Import Base Main.
Local Open Scope nat_scope.

(** [fora.inventory]: None; [is_initialized()] is false; true *)
Inductive inv := NoInventory | Unready | Ready.
(** What happens, in order.  [Opening h main]: a connector is opened, by [main_run] or by user code; [Turn h]: [fora.host = h] in
    [main_run]; [Asked h op]: a request is sent to [h], [op] if an operation does it through [fora.host]; [Closing]: a connector is closed;
    [Refused], [Accepted]: what [check_host_active] says. *)
Inductive event := Opening (h : pystr) (main : bool) | Turn (h : pystr) | Asked (h : pystr) (op : bool) | Closing (h : pystr) (main : bool) | Refused | Accepted.
(** [w_conn h]: the attribute [connection] of the host is not None. *)
Record world := World { w_inv : inv; w_host : option pystr; w_conn : pystr -> bool; w_trace : list event }.
Definition M (A : Type) : Type := world -> result A * world.
Global Instance T_bind : MBind M := fun A B f m w => match m w with (Ok a, w') => f a w' | (Err e, w') => (Err e, w') end.
Global Instance T_ret : MRet M := fun A a w => (Ok a, w).
Definition traise {A} (e : exn) : M A := fun w => (Err e, w).
Definition just {A} (r : result A) : M A := fun w => (r, w).
Definition set_inv (i : inv) : M unit := fun w => (Ok tt, World i (w_host w) (w_conn w) (w_trace w)).
Definition set_host (h : option pystr) : M unit := fun w => (Ok tt, World (w_inv w) h (w_conn w) (w_trace w)).
Definition set_conn (h : pystr) (b : bool) : M unit := fun w => (Ok tt, World (w_inv w) (w_host w) (fun x => if str_eqb x h then b else w_conn w x) (w_trace w)).
Definition note (e : event) : M unit := fun w => (Ok tt, World (w_inv w) (w_host w) (w_conn w) (w_trace w ++ [e])).
Definition tfinally {A} (m : M A) (f : M unit) : M A := fun w =>
  let '(r, w1) := m w in match f w1 with (Ok _, w2) => (r, w2) | (Err e, w2) => (Err e, w2) end.

(** What user code does, and the code of operations on its behalf.  The continuation gets the outcome, so that it can handle
    exceptions.  Runs that never end are not described; every finite part of one is the beginning of a run that ends.
    [Request]: use of [fora.host.connection]; [Direct h]: of the connection of any host, found in [fora.inventory.loaded_hosts] or
    elsewhere; [Operate b]: an operation whose function is [b]; [Script b]: [local.script] on a file that holds [b];
    [Connect h b]: [with open_connection(h): b].  User code does not assign to the attributes of [fora] and of hosts. *)
Inductive deed :=
| Finish (r : result unit)
| Request (k : result unit -> deed)
| Direct (h : pystr) (k : result unit -> deed)
| Operate (b : deed) (k : result unit -> deed)
| Script (b : deed) (k : result unit -> deed)
| Connect (h : pystr) (b : deed) (k : result unit -> deed).

Section eval.
  (** what the world answers: to opening, requests and closing, after what happened so far *)
  Variable answer : list event -> result unit.
  Definition ask (e : event) : M unit := fun w => (answer (w_trace w ++ [e]), World (w_inv w) (w_host w) (w_conn w) (w_trace w ++ [e])).
  (** a method of [host.connection] *)
  Definition use (h : pystr) (op : bool) : M unit := fun w => if w_conn w h then ask (Asked h op) w else (Err AttributeError, w).
  (** ... of [fora.host.connection] *)
  Definition use_active (op : bool) : M unit := fun w => match w_host w with Some h => use h op w | None => (Err AttributeError, w) end.
  (** utils.py:316-321 *)
  Definition check_host_active : M unit := fun w =>
    match w_inv w with
    | Ready => match w_host w with
               | Some _ => note Accepted w
               | None => match note Refused w with (_, w') => (Err (FatalError (lit "Invalid attempt to call operation while no host is active!")), w') end
               end
    | _ => match note Refused w with
           | (_, w') => (Err (FatalError (lit "Invalid attempt to call operation before inventory was loaded! Did you maybe swap the inventory and deploy file on the command line?")), w')
           end
    end.
  (** connection.py:31-35; resolving the identity is one request here *)
  Definition enter (h : pystr) (main : bool) : M unit :=
    _ ← ask (Opening h main); _ ← set_conn h true; ask (Asked h false).
  (** connection.py:37-42 *)
  Definition leave (h : pystr) (main : bool) : M unit := _ ← set_conn h false; ask (Closing h main).
  (** loader.py:105-147 as far as hosts are concerned: the defaults of the script are taken from the connection, without a request
      (types.py:34-39, 420; resolving the working directory may take one, which counts as part of the script) *)
  Definition run_script (b : M unit) : M unit := fun w =>
    match w_host w with Some h => if w_conn w h then b w else (Err AttributeError, w) | None => (Err AttributeError, w) end.
  (** [op]: this is done by an operation *)
  Fixpoint eval (op : bool) (d : deed) : M unit := fun w =>
    match d with
    | Finish r => (r, w)
    | Request k => let '(r, w) := use_active op w in eval op (k r) w
    | Direct h k => let '(r, w) := use h false w in eval op (k r) w
    | Operate b k => let '(r, w) := (_ ← check_host_active; eval true b) w in eval op (k r) w
    | Script b k => let '(r, w) := (_ ← check_host_active; run_script (eval false b)) w in eval op (k r) w
    | Connect h b k => let '(r, w) := (_ ← enter h false; tfinally (eval op b) (leave h false)) w in eval op (k r) w
    end.

  (** inventory_wrapper.py:697-823: the modules of the groups of one host, what is checked afterwards, and the host module.
      [fora.group] is left out; a missing module file does nothing ([Finish (Ok tt)]). *)
  Fixpoint load_groups (l : list deed) : M unit := match l with [] => mret tt | d :: l => _ ← eval false d; load_groups l end.
  (** 656-675 *)
  Definition load_host (h : pystr) (d : deed) : M unit := _ ← set_host (Some h); _ ← eval false d; set_host None.
  (** For one run: what the modules do may depend on anything, so all of it is arbitrary. *)
  Record host_decl := HostDecl { hd_name : pystr; hd_groups : list deed; hd_conflicts : result unit; hd_module : deed; hd_history : result unit }.
  Definition instanciate (h : host_decl) : M unit :=
    _ ← load_groups (hd_groups h); _ ← just (hd_conflicts h); _ ← load_host (hd_name h) (hd_module h); just (hd_history h).
  Fixpoint instanciate_all (l : list host_decl) : M unit := match l with [] => mret tt | h :: l => _ ← instanciate h; instanciate_all l end.
  (** loader.py:44-83 and inventory_wrapper.py:547-575.  [module]: the inventory module; [decls]: the declarations it makes, or
      why they are rejected.  The conversion of ValueError into FatalError is left out (Inventory.v). *)
  Definition load_inventory (module : deed) (decls : result (list host_decl)) : M (list pystr) :=
    _ ← set_inv Unready; _ ← eval false module; l ← just decls; _ ← instanciate_all l; _ ← set_inv Ready; mret (map hd_name l).

  (** main.py:57-60; [d]: what the script of the command line does on this host *)
  Definition run_host (h : pystr) (d : deed) : M unit :=
    _ ← enter h true;
    tfinally (_ ← set_host (Some h); _ ← note (Turn h); _ ← run_script (eval false d); set_host None) (leave h true).
  Fixpoint run_hosts (script : pystr -> deed) (l : list pystr) : M unit :=
    match l with [] => mret tt | h :: r => _ ← run_host h (script h); run_hosts script r end.
  (** main.py:22-64; the selection is that of Main.v *)
  Definition main_run (module : deed) (decls : result (list host_decl)) (hosts : option pystr) (script : pystr -> deed) : M unit := fun w =>
    match load_inventory module decls w with
    | (Err (FatalError _), w) => (Err die, w)
    | (Err e, w) => (Err e, w)
    | (Ok loaded, w) =>
        match select loaded (match hosts with Some s => split_char 44 s | None => loaded end) [] with
        | Err e => (Err e, w)
        | Ok selected => run_hosts script selected w
        end
    end.
End eval.
(** fora/__init__.py, when the program starts *)
Definition start : world := World NoInventory None (fun _ => false) [].
