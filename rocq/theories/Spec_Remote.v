(** Specifications of the requests of a connection. *)
From stdpp Require Import gmap.
From Verif Require Import Base Utf8 Codec Spec_Codec Paths Sys Spec_Sys Dispatcher Client Spec_Session.

(** ** Requests and states that are answered *)

(** text with room for a message around it *)
Definition short (s : pystr) : Prop := text_ok s /\ (16 * N.of_nat (length s) < 2 ^ 63)%N.
Definition c_string (s : pystr) : Prop := short s /\ nul ∉ s.
Definition c_int (z : Z) : Prop := (- 2 ^ 31 <= z < 2 ^ 31)%Z.

(** A request without the values that end the dispatcher. *)
Definition tame (q : packet) : Prop :=
  match q with
  | PCheckAlive => True
  | PProcessRun c i capture u g m w =>
      c <> [] /\ small c /\ Forall c_string c /\ opt_ok small i /\ capture = true /\
      opt_ok short u /\ opt_ok short g /\ opt_ok short m /\ opt_ok short w
  | PStat p _ _ => c_string p
  | PResolveUser u => opt_ok c_string u
  | PResolveGroup g => opt_ok c_string g
  | PUpload f c m o g =>
      c_string f /\ small c /\ opt_ok short m /\ opt_ok (fun m => forall z, py_int 8 m = Some z -> c_int z) m /\
      opt_ok short o /\ opt_ok short g
  | PDownload f => c_string f
  | PQueryUser u _ => c_string u
  | PQueryGroup g => c_string g
  | PGetenv k => short k
  | _ => False
  end.

Definition id_ok (n : N) : Prop := (n < 2 ^ 32)%N.
Definition acct_ok (a : account) : Prop :=
  str_ok (pw_name a) /\ id_ok (pw_uid a) /\ id_ok (pw_gid a) /\ str_ok (pw_gecos a) /\ str_ok (pw_dir a) /\ str_ok (pw_shell a).
Definition grp_ok (g : grent) : Prop := str_ok (gr_name g) /\ id_ok (gr_gid g) /\ small (gr_mem g) /\ Forall str_ok (gr_mem g).
Definition other_types : list pystr := List.map lit ["chr"; "blk"; "fifo"; "sock"; "other"]%string.
Definition kind_ok (k : kind) : Prop :=
  match k with KFile b => small b | KDir => True | KLink t => short t | KOther t => t ∈ other_types end.
Definition node_ok (n : node) : Prop :=
  kind_ok (n_kind n) /\ (n_mode n < 4096)%N /\ id_ok (n_uid n) /\ id_ok (n_gid n) /\ in_u64 (n_mtime n) /\ in_u64 (n_ctime n).
Definition fault_ok (f : fault) : Prop := match f with FErr n _ => in_i64 n | FOk => True end.

(** A system whose databases, environment and files hold values that fit into the protocol: valid unicode, no times before
    1970. *)
Definition os_ok (s : os) : Prop :=
  Forall acct_ok (o_passwd s) /\ Forall grp_ok (o_group s) /\ small (o_group s) /\
  Forall (fun e => str_ok (snd e)) (o_shadow s) /\ Forall (fun e => str_ok (snd e)) (o_env s) /\
  (forall pl n, o_fs s !! pl = Some n -> node_ok n) /\
  id_ok (o_uid s) /\ id_ok (o_gid s) /\ in_u64 (o_now s) /\ Forall fault_ok (o_faults s).

(** Programs end with an exit status or cannot be executed, and leave such a system. *)
Definition exec_ok (exec : proc -> M xres) : Prop := forall p s, os_ok s ->
  match exec p s with
  | (Ok (XExit rc out err), s') => in_i32 rc /\ small out /\ small err /\ os_ok s'
  | (Ok (XFail (OSErr n a b)), s') => in_i64 n /\ str_ok a /\ str_ok b /\ os_ok s'
  | _ => False
  end.
Definition hash_ok (sha512 : bytes -> bytes) : Prop := forall b, small (sha512 b).

(** an answer, rather than a lost connection *)
Definition answered (x : result packet) : Prop :=
  match x with
  | Ok _ | Err (ValueError _) | Err (RemoteOSError _ _ _) => True
  | _ => False
  end.

(** ** Fields that are rejected *)
Definition not_octal (m : pystr) : Prop := py_int 8 m = None.
Definition no_user (s : os) (u : pystr) : Prop := nul ∈ u \/ forall a, ~ denotes_user s u a.
Definition no_group (s : os) (g : pystr) : Prop := nul ∈ g \/ forall a, ~ denotes_group s g a.
Definition no_dir (s : os) (p : pystr) : Prop := forall pl n, names (o_fs s) (o_cwd s) p true pl n -> n_kind n <> KDir.
(** some field is given and bad *)
Definition given {A} (P : A -> Prop) (o : option A) : Prop := exists a, o = Some a /\ P a.

(** ** Uploads *)
Definition perm_bits (m1 m2 : N) : Prop := forall i, (i < 10)%N -> N.testbit m1 i = N.testbit m2 i.
(** [n]: what the file looks like after an upload; [before]: what it was *)
Definition upload_owner (s : os) (before : option node) (owner group : option pystr) (n : node) : Prop :=
  match owner, group with
  | None, None =>
      match before with
      | Some m => n_uid n = n_uid m /\ n_gid n = n_gid m
      | None => n_uid n = o_uid s
      end
  | Some o, None => exists a, denotes_user s o a /\ n_uid n = pw_uid a /\ n_gid n = pw_gid a
  | None, Some g => exists a, denotes_group s g a /\ n_uid n = 0%N /\ n_gid n = gr_gid a
  | Some o, Some g => exists a b, denotes_user s o a /\ denotes_group s g b /\ n_uid n = pw_uid a /\ n_gid n = gr_gid b
  end.
Definition upload_mode (before : option node) (mode : option pystr) (n : node) : Prop :=
  match mode with
  | Some m => exists z, py_int 8 m = Some z /\ perm_bits (n_mode n) (Z.to_N (z mod 4096))
  | None => perm_bits (n_mode n) (match before with Some b => n_mode b | None => 384%N (* 0600 *) end)
  end.
(** every file but the one at [pl] is as before *)
Definition others_same (fs fs' : fsys) (pl : place) : Prop := forall pl', pl' <> pl -> fs' !! pl' = fs !! pl'.

(** ** Commands *)
(** The ids a command is run with. *)
Definition run_ids (s : os) (user group : option pystr) (uid gid : N) : Prop :=
  match user, group with
  | None, None => uid = o_uid s /\ gid = o_gid s
  | Some u, None => exists a, denotes_user s u a /\ uid = pw_uid a /\ gid = pw_gid a
  | None, Some g => exists b, denotes_group s g b /\ uid = o_uid s /\ gid = gr_gid b
  | Some u, Some g => exists a b, denotes_user s u a /\ denotes_group s g b /\ uid = pw_uid a /\ gid = gr_gid b
  end.
Definition run_umask (umask : option pystr) (m : N) : Prop :=
  match umask with
  | None => m = 63%N (* 0077 *)
  | Some u => exists z, py_int 8 u = Some z /\ m = Z.to_N (z mod 512)
  end.
Definition run_dir (s : os) (cwd : option pystr) (pl : place) : Prop :=
  match cwd with
  | None => pl = o_cwd s
  | Some d => exists n, names (o_fs s) (o_cwd s) d true pl n /\ n_kind n = KDir
  end.

(** ** stat *)
Definition user_name (s : os) (uid : N) (x : pystr) : Prop :=
  (exists a, a ∈ o_passwd s /\ pw_uid a = uid /\ pw_name a = x) \/
  ((forall a, a ∈ o_passwd s -> pw_uid a <> uid) /\ x = str_of_N uid).
Definition group_name (s : os) (gid : N) (x : pystr) : Prop :=
  (exists a, a ∈ o_group s /\ gr_gid a = gid /\ gr_name a = x) \/
  ((forall a, a ∈ o_group s -> gr_gid a <> gid) /\ x = str_of_N gid).
Definition type_name (k : kind) : pystr :=
  match k with KFile _ => lit "file" | KDir => lit "dir" | KLink _ => lit "link" | KOther t => t end.
