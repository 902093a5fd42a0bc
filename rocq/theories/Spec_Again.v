(** Running a command line again: the scripts, and what a host has to be like. *)
From stdpp Require Import gmap.
From Verif Require Import Base Paths Sys Spec_Sys Dispatcher Client Control Spec_Remote Spec_Control Op Spec_Files System Prop_Tried Fleet.
Local Open Scope nat_scope.

(** a script that carries out operations one after the other, without [check=], and then does something with the results *)
Fixpoint in_order (ks : list call) : tale (list opres) :=
  match ks with
  | [] => Ret []
  | k :: ks => Bind (Operate NotGiven k) (fun r => Bind (in_order ks) (fun rs => Ret (r :: rs)))
  end.
(** what it does in the end: nothing; or it complains if an operation has changed something *)
Definition silent (rs : list opres) : tale unit := Ret tt.
Definition complain (e : exn) (rs : list opres) : tale unit := if existsb or_changed rs then Raise e else Ret tt.

(** [b] are the settings of a connection: those of the program, for the account and the group of the dispatcher *)
Definition own_settings (s : os) (base b : settings) : Prop :=
  exists a g, denotes_user s (str_of_N (o_uid s)) a /\ denotes_group s (str_of_N (o_gid s)) g /\
    b = Settings (Some (pw_name a)) (Some (gr_name g)) (Some (pw_name a)) (Some (gr_name g)) (s_file_mode base) (s_dir_mode base) (s_umask base) (s_cwd base).
(** A host on which nothing goes wrong by itself, with a dispatcher that runs as root. *)
Definition in_order_host (s : os) : Prop :=
  o_faults s = [] /\ o_uid s = 0%N /\ accounts_ok s /\ os_ok s /\ unaliased s /\
  (exists a, denotes_user s (str_of_N (o_uid s)) a) /\ exists g, denotes_group s (str_of_N (o_gid s)) g.
