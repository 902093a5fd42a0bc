(** Opening and closing connections: connectors/tunnel_connector.py (open, close), connection.py (with open_connection). *)
From stdpp Require Import list.
From Verif Require Import Base Codec.
Local Open Scope nat_scope.

(** A process running a dispatcher.  [pr_ended]: it no longer runs; [pr_told]: PacketExit was written to it;
    [pr_signaled]: SIGTERM was sent to it; [pr_reaped]: its exit status was collected. *)
Record proc_state := Proc' { pr_ended : bool; pr_told : bool; pr_signaled : bool; pr_reaped : bool }.
(** [k_process], [k_open]: the attributes [process] and [is_open] of the connector; [k_host]: is [host.connection] set;
    [k_procs]: all processes started so far.  What happens outside is given in advance: [k_spawn] whether a process can be
    started, [k_reply] how requests end, [k_io] how each of write, close and wait ends, and [k_dies] whether the process has
    ended by itself when that happens. *)
Record life := Life {
  k_process : option nat; k_open : bool; k_host : bool; k_procs : list proc_state;
  k_spawn : list (result unit); k_reply : list (result packet); k_io : list (result unit); k_dies : list bool }.
Definition set_process x k := Life x (k_open k) (k_host k) (k_procs k) (k_spawn k) (k_reply k) (k_io k) (k_dies k).
Definition set_open x k := Life (k_process k) x (k_host k) (k_procs k) (k_spawn k) (k_reply k) (k_io k) (k_dies k).
Definition set_host x k := Life (k_process k) (k_open k) x (k_procs k) (k_spawn k) (k_reply k) (k_io k) (k_dies k).
Definition set_procs x k := Life (k_process k) (k_open k) (k_host k) x (k_spawn k) (k_reply k) (k_io k) (k_dies k).
Definition set_spawn x k := Life (k_process k) (k_open k) (k_host k) (k_procs k) x (k_reply k) (k_io k) (k_dies k).
Definition set_reply x k := Life (k_process k) (k_open k) (k_host k) (k_procs k) (k_spawn k) x (k_io k) (k_dies k).
Definition set_io x k := Life (k_process k) (k_open k) (k_host k) (k_procs k) (k_spawn k) (k_reply k) x (k_dies k).
Definition set_dies x k := Life (k_process k) (k_open k) (k_host k) (k_procs k) (k_spawn k) (k_reply k) (k_io k) x.

Definition K (A : Type) : Type := life -> result A * life.
Global Instance K_bind : MBind K := fun A B f m k => match m k with (Ok a, k') => f a k' | (Err e, k') => (Err e, k') end.
Global Instance K_ret : MRet K := fun A a k => (Ok a, k).
Definition kraise {A} (e : exn) : K A := fun k => (Err e, k).
Definition getK : K life := fun k => (Ok k, k).
Definition modK (f : life -> life) : K unit := fun k => (Ok tt, f k).
Definition kfinally {A} (m : K A) (f : K unit) : K A := fun k =>
  let '(r, k1) := m k in match f k1 with (Ok _, k2) => (r, k2) | (Err e, k2) => (Err e, k2) end.
Definition on_proc (i : nat) (f : proc_state -> proc_state) : K unit := modK (fun k => set_procs (alter f i (k_procs k)) k).
Definition ends (p : proc_state) := Proc' true (pr_told p) (pr_signaled p) (pr_reaped p).
Definition tells_exit (p : proc_state) := Proc' (pr_ended p) true (pr_signaled p) (pr_reaped p).
Definition reaps (p : proc_state) := Proc' true (pr_told p) (pr_signaled p) true.
Definition signals (p : proc_state) := Proc' (pr_ended p) (pr_told p) true (pr_reaped p).

(** Time passes: the process may end by itself. *)
Definition passes (i : nat) : K unit := fun k =>
  match k_dies k with
  | [] => (Ok tt, k)
  | b :: r => (if b then on_proc i ends else mret tt) (set_dies r k)
  end.
Definition next_io : K unit := fun k => match k_io k with [] => (Ok tt, k) | x :: r => (x, set_io r k) end.
Definition io (i : nat) : K unit := _ ← passes i; next_io.
(** [subprocess.Popen(self.command(), ...)] *)
Definition popen : K nat := fun k =>
  let '(x, k) := match k_spawn k with [] => (Ok tt, k) | x :: r => (x, set_spawn r k) end in
  match x with
  | Err e => (Err e, k)
  | Ok _ => (Ok (length (k_procs k)), set_procs (k_procs k ++ [Proc' false false false false]) k)
  end.
(** 85-89 [_request]: any packet or exception may come back (Client.v has the details) *)
Definition next_reply : K packet := fun k => match k_reply k with [] => (Ok PAck, k) | x :: r => (x, set_reply r k) end.
Definition krequest (i : nat) (q : packet) : K packet := _ ← passes i; next_reply.
(** [poll()]: collects the exit status if there is one *)
Definition poll (i : nat) : K unit := on_proc i (fun p => if pr_ended p then reaps p else p).
(** [terminate()]: polls, and sends SIGTERM if the process has not ended *)
Definition terminate (i : nat) : K unit := on_proc i (fun p => if pr_ended p then reaps p else signals p).

(** [except IOError]: OSError and IOError are the same class in python *)
Definition is_IOError (e : exn) : bool := match e with IOErr _ | OSErr _ _ _ => true | _ => false end.

(** tunnel_connector.py:41-71.  Simplification: the text that is logged is left out. *)
Definition k_open_connector : K unit :=
  i ← popen;
  _ ← modK (set_process (Some i));
  _ ← kfinally
    (fun k =>
       match (r ← krequest i PCheckAlive;
              match r with PAck => modK (set_open true) | _ => kraise (IOErr (lit "Invalid response from remote dispatcher. This is a bug.")) end) k with
       | (Ok _, k') => (Ok tt, k')
       | (Err e, k') => if is_IOError e then (_ ← poll i; kraise e) k' else (Err e, k')
       end)
    (k ← getK;
     if k_open k then mret tt else (_ ← terminate i; modK (set_process None)));
  mret tt.

(** 73-83; [write_packet] flushes *)
Definition k_close : K unit :=
  k ← getK;
  _ ← (if k_open k then match k_process k with
                        | Some i => (_ ← io i; on_proc i tells_exit)
                        | None => next_io (* the old pipe *)
                        end
       else mret tt);
  match k_process k with
  | None => mret tt
  | Some i =>
      _ ← io i;                     (* stdin.close() *)
      _ ← (_ ← io i; on_proc i reaps); (* wait() *)
      _ ← io i;                     (* stdout.close() *)
      modK (set_process None)
  end.

(** connection.py:31-40 and [with open_connection(host): body]; [identity]: 42-53, two requests that may raise *)
Definition k_identity : K unit := fun k =>
  match k_process k with
  | None => (Err AttributeError, k)
  | Some i => (_ ← krequest i (PResolveUser None); _ ← krequest i (PResolveGroup None); mret tt) k
  end.
Definition k_enter : K unit :=
  _ ← k_open_connector;
  _ ← modK (set_host true);
  k_identity.
Definition k_exit : K unit :=
  _ ← modK (set_host false);
  k_close.
Definition with_connection {A} (body : K A) : K A :=
  _ ← k_enter;
  kfinally body k_exit.

(** a connector that was just created, 29-35 *)
Definition fresh (k : life) : Prop := k_process k = None /\ k_open k = false /\ k_host k = false.
