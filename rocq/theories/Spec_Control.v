(** Specification of default settings and scripts. *)
From stdpp Require Import gmap.
From Verif Require Import Base Codec Spec_Codec Paths Sys Spec_Sys Client Spec_Remote Control.

(** ** Settings inside nested blocks *)
(** the innermost given value (blocks are listed from the outermost) *)
Fixpoint innermost {A} (l : list (option A)) : option A :=
  match l with
  | [] => None
  | x :: r => match innermost r with Some y => Some y | None => x end
  end.
(** the value of the innermost block that sets it, or else of the connection *)
Definition wanted {A} (field : settings -> option A) (base : settings) (reqs : list settings) : option A :=
  innermost (field base :: List.map field reqs).

Definition user_settles (s : os) (want got : option pystr) : Prop :=
  match want, got with
  | None, None => True
  | Some u, Some n => exists a, denotes_user s u a /\ n = pw_name a
  | _, _ => False
  end.
Definition group_settles (s : os) (want got : option pystr) : Prop :=
  match want, got with
  | None, None => True
  | Some u, Some n => exists a, denotes_group s u a /\ n = gr_name a
  | _, _ => False
  end.
(** octal digits without leading zeros *)
Definition octal_text (n : N) (t : pystr) : Prop :=
  py_int 8 t = Some (Z.of_N n) /\ Forall (fun d => (48 <= d < 56)%N) t /\ (match t with d :: _ :: _ => d <> 48%N | _ => True end) /\ t <> [].
(** a mode given by a block is in canonical form, the connection's own is as it is *)
Definition mode_settles (base want got : option pystr) : Prop :=
  match want with
  | None => got = base /\ base <> None
  | Some m => exists n t, py_int 8 m = Some (Z.of_N n) /\ got = Some t /\ octal_text n t
  end.
Definition settles (s : os) (base : settings) (reqs : list settings) (got : settings) : Prop :=
  user_settles s (wanted s_as_user base reqs) (s_as_user got) /\
  group_settles s (wanted s_as_group base reqs) (s_as_group got) /\
  user_settles s (wanted s_owner base reqs) (s_owner got) /\
  group_settles s (wanted s_group base reqs) (s_group got) /\
  mode_settles (s_file_mode base) (innermost (List.map s_file_mode reqs)) (s_file_mode got) /\
  mode_settles (s_dir_mode base) (innermost (List.map s_dir_mode reqs)) (s_dir_mode got) /\
  mode_settles (s_umask base) (innermost (List.map s_umask reqs)) (s_umask got) /\
  s_cwd got = wanted s_cwd base reqs.

(** [d] are the defaults around a block: those of an enclosing block, or none yet in a script that was just created *)
Definition enclosing (s : os) (base : settings) (reqs : list settings) (d : settings) : Prop :=
  settles s base reqs d \/ (reqs = [] /\ d = no_settings).

(** values that a block accepts *)
Definition user_valid (s : os) (u : pystr) : Prop := c_string u /\ exists a, denotes_user s u a.
Definition group_valid (s : os) (g : pystr) : Prop := c_string g /\ exists a, denotes_group s g a.
Definition mode_valid (m : pystr) : Prop := exists n, py_int 8 m = Some (Z.of_N n).
Definition dir_valid (s : os) (d : pystr) : Prop :=
  d = [] \/ c_string d /\ exists pl n, resolve_node (o_fs s) (o_cwd s) d false = Ok (pl, n) /\ n_kind n = KDir.
Definition request_valid (s : os) (base d q : settings) : Prop :=
  let inner {A} (f : settings -> option A) := innermost [f base; f d; f q] in
  opt_ok (user_valid s) (inner s_as_user) /\ opt_ok (group_valid s) (inner s_as_group) /\
  opt_ok (user_valid s) (inner s_owner) /\ opt_ok (group_valid s) (inner s_group) /\
  (exists m, inner s_file_mode = Some m /\ mode_valid m) /\ (exists m, inner s_dir_mode = Some m /\ mode_valid m) /\
  (exists m, inner s_umask = Some m /\ mode_valid m) /\ opt_ok (dir_valid s) (inner s_cwd).

(** nested blocks around a program *)
Fixpoint nest {A} (reqs : list settings) (p : prog A) : prog A :=
  match reqs with [] => p | q :: r => With q (fun _ => nest r p) end.

(** the active defaults of [fora.script] *)
Definition active (c : ctl) : option settings :=
  i ← c_script c; w ← c_scripts c !! i; head (sw_defaults w).

(** no local directory disappeared *)
Definition dirs_kept (c c' : ctl) : Prop := c_gone c' = c_gone c.
Definition cwd_ok (isdir : pystr -> bool) (c : ctl) : Prop := isdir (c_cwd c) = true /\ c_cwd c ∉ c_gone c.

(** two states that differ only in the defaults that are active in running scripts *)
Definition same_but_defaults (c1 c2 : ctl) : Prop :=
  c_remote c1 = c_remote c2 /\ c_base c1 = c_base c2 /\ c_script c1 = c_script c2 /\ c_stack c1 = c_stack c2 /\
  c_cwd c1 = c_cwd c2 /\ c_gone c1 = c_gone c2 /\ c_indent c1 = c_indent c2 /\
  List.map sw_file (c_scripts c1) = List.map sw_file (c_scripts c2).
