(** Specification of what file operations are about. *)
From stdpp Require Import gmap.
From Verif Require Import Base Codec Spec_Codec Paths Sys Spec_Sys Client Spec_Remote Control Spec_Control.

(** The system as seen from the controlling process. *)
Definition sysof (c : ctl) : os := r_os (c_remote c).

(** The absolute path names the file [n], which is at [pl]; a final symbolic link is not followed. *)
Definition at_path (s : os) (path : pystr) (pl : place) (n : node) : Prop := names (o_fs s) [] path false pl n.
Definition missing (s : os) (path : pystr) : Prop := forall pl n, ~ at_path s path pl n.
Definition absolute (path : pystr) : Prop := exists r, path = slash :: r.

(** No system call pretends that a file is missing. *)
Definition honest (s : os) : Prop := forall k, FErr ENOENT k ∉ o_faults s.

(** Names of accounts and groups are unique, and they are words: they cannot be mistaken for a number, an option or a
    pair of names. *)
Definition word (n : pystr) : Prop := (c_string n /\ (N.of_nat (length n) < 2 ^ 32)%N) /\ n <> [] /\ (forall c, c ∈ n -> c <> 58%N) /\ head n <> Some 45%N /\ exists c, c ∈ n /\ ~ (48 <= c < 58)%N.
Definition accounts_ok (s : os) : Prop :=
  NoDup (pw_name <$> o_passwd s) /\ NoDup (gr_name <$> o_group s) /\
  Forall (fun a => word (pw_name a)) (o_passwd s) /\ Forall (fun g => word (gr_name g)) (o_group s).

(** The identity of the connection is known. *)
Definition known_base (b : settings) : Prop := s_owner b <> None /\ s_group b <> None.

(** No two accounts share an id, nor two groups. *)
Definition unaliased (s : os) : Prop := NoDup (pw_uid <$> o_passwd s) /\ NoDup (gr_gid <$> o_group s).
(** The connection's own modes are written without superfluous digits, as the program shows modes. *)
Definition canonical (m : option pystr) : Prop := exists n t, m = Some t /\ octal_text n t.
Definition canonical_base (b : settings) : Prop := canonical (s_file_mode b) /\ canonical (s_dir_mode b).
(** What an operation can rely on: the script has settings, its accounts exist, the system holds sensible values. *)
Definition ready (c : ctl) (reqs : list settings) : Prop :=
  (exists d0, active c = Some d0 /\ enclosing (sysof c) (c_base c) reqs d0) /\
  known_base (c_base c) /\ accounts_ok (sysof c) /\ os_ok (sysof c).

(** The file belongs to this account and group. *)
Definition owned (s : os) (owner group : option pystr) (n : node) : Prop :=
  exists a b, a ∈ o_passwd s /\ b ∈ o_group s /\ owner = Some (pw_name a) /\ group = Some (gr_name b) /\
    n_uid n = pw_uid a /\ n_gid n = gr_gid b.
(** The mode, written in octal digits. *)
Definition means (m : option pystr) (z : N) : Prop := exists t, m = Some t /\ py_int 8 t = Some (Z.of_N z).

(** At most the file at [pl] was changed. *)
Definition only_at (pl : place) (s s' : os) : Prop := only_files s s' /\ others_same (o_fs s) (o_fs s') pl.
(** At most files at or below [pl] were removed. *)
Definition only_removed (pl : place) (s s' : os) : Prop :=
  only_files s s' /\ forall q, o_fs s' !! q = o_fs s !! q \/ (pl `suffix_of` q /\ o_fs s' !! q = None).

(** The set-user-id and set-group-id bits of a directory that chmod leaves as they are: those it has, or inherits when it is created. *)
Definition kept_bits (s : os) (pl : place) : N :=
  match o_fs s !! pl with
  | Some n => N.land (n_mode n) 3072
  | None => match o_fs s !! tail pl with Some d => N.land (n_mode d) 1024 | None => 0%N end
  end.

(** The time of the last modification is set if the file is new or touched, and kept otherwise. *)
Definition dated (s : os) (touch : bool) (pl : place) (n : node) : Prop :=
  n_mtime n = (match o_fs s !! pl with Some n0 => if touch then o_now s else n_mtime n0 | None => o_now s end) /\
  (n_ctime n = o_now s \/ exists n0, o_fs s !! pl = Some n0 /\ n_ctime n = n_ctime n0).

(** A command can be run with these defaults. *)
Definition runnable (s : os) (d : settings) : Prop :=
  opt_ok (fun u => c_string u /\ exists a, denotes_user s u a) (s_as_user d) /\
  opt_ok (fun g => c_string g /\ exists a, denotes_group s g a) (s_as_group d) /\
  opt_ok (fun m => short m /\ exists z, py_int 8 m = Some z /\ c_int z) (s_umask d) /\
  opt_ok (fun w => c_string w /\ isabs w = true /\ exists pl n, resolve_node (o_fs s) (o_cwd s) w true = Ok (pl, n) /\ n_kind n = KDir) (s_cwd d).
(** The connection works, runs as root, and no system call fails. *)
Definition healthy (c : ctl) : Prop :=
  r_link (c_remote c) = Up /\ o_faults (sysof c) = [] /\ o_uid (sysof c) = 0%N.
Definition fine (c : ctl) : Prop := healthy c /\ exists d, active c = Some d /\ runnable (sysof c) d.

(** Settings with which an operation can be carried out: [reqs] are the surrounding blocks and the arguments of the operation. *)
Definition octal_below (b : N) (m : option pystr) : Prop :=
  exists t z, m = Some t /\ t <> [] /\ Forall (fun d => (48 <= d < 56)%N) t /\ short t /\ py_int 8 t = Some (Z.of_N z) /\ (z < b)%N.
Definition feasible (s : os) (base : settings) (reqs : list settings) : Prop :=
  opt_ok (user_valid s) (wanted s_as_user base reqs) /\ opt_ok (group_valid s) (wanted s_as_group base reqs) /\
  opt_ok (user_valid s) (wanted s_owner base reqs) /\ opt_ok (group_valid s) (wanted s_group base reqs) /\
  octal_below 4096 (wanted s_file_mode base reqs) /\ octal_below 4096 (wanted s_dir_mode base reqs) /\
  octal_below 512 (wanted s_umask base reqs) /\
  opt_ok (fun w => c_string w /\ isabs w = true /\ exists pl n, resolve_node (o_fs s) (o_cwd s) w false = Ok (pl, n) /\ n_kind n = KDir) (wanted s_cwd base reqs).
(** The name of a file, without directories. *)
Definition file_name (x : pystr) : Prop := x <> [] /\ (slash ∉ x) /\ (nul ∉ x) /\ plain_name x.
(** There is a directory in which the path can be created. *)
Definition creatable (s : os) (path : pystr) : Prop :=
  exists d x pl n, path = d ++ slash :: x /\ file_name x /\ n_kind n = KDir /\
    ((d = [] /\ pl = [] /\ o_fs s !! pl = Some n) \/
     (absolute d /\ endswith d (lit "/") = false /\ resolve_node (o_fs s) [] d true = Ok (pl, n))).
(** What the system finds under a path (like [at_path], but following at most forty symbolic links on the way). *)
Definition sees (s : os) (path : pystr) (pl : place) (n : node) : Prop := resolve_node (o_fs s) [] path false = Ok (pl, n).
Definition sees_none (s : os) (path : pystr) : Prop := resolve_node (o_fs s) [] path false = Err (oserr ENOENT).
(** Such a file is there, or nothing is there but it can be created. *)
Definition attainable (k : kind -> Prop) (s : os) (path : pystr) : Prop :=
  (sees_none s path /\ creatable s path) \/ exists pl n, sees s path pl n /\ k (n_kind n).
Definition regular (k : kind) : Prop := exists b, k = KFile b.
(** The values an operation asks for. *)
Definition asking (owner group file_mode dir_mode : option pystr) : settings := Settings None None owner group file_mode dir_mode None None.
(** The file has this mode, written without superfluous digits, and its owner and group go by these names. *)
Definition as_wanted (s : os) (m owner group : option pystr) (n : node) : Prop :=
  exists t u g, m = Some t /\ octal_text (n_mode n) t /\ owner = Some u /\ user_name s (n_uid n) u /\ group = Some g /\ group_name s (n_gid n) g.
