(** The system a dispatcher runs on: accounts, environment, file system, identity of the process, and the system calls
    that the handlers use.  This is a model of Linux and python's [os], not of code in /repo.

    Failures: every system call consults a schedule that may let it fail with any errno, so that permissions, full disks,
    I/O errors and the like are covered by quantifying over schedules.
    Not modelled: hard links, name length limits, the progress of time, other processes. *)
From stdpp Require Import gmap.
From Verif Require Import Base Paths.

Record account := Account {
  pw_name : pystr; pw_uid : N; pw_gid : N; pw_gecos : pystr; pw_dir : pystr; pw_shell : pystr }.
Record grent := Grent { gr_name : pystr; gr_gid : N; gr_mem : list pystr }.

(** A file: regular, directory, symbolic link, or one of "chr", "blk", "fifo", "sock", "other".  The mode consists of the
    12 permission bits. *)
Inductive kind := KFile (content : bytes) | KDir | KLink (target : pystr) | KOther (ty : pystr).
Record node := Node { n_kind : kind; n_mode : N; n_uid : N; n_gid : N; n_mtime : Z; n_ctime : Z }.

(** A place in the file system: the names on the way from the root, innermost first; [[]] is the root. *)
Notation place := (list (list N)).
Notation fsys := (gmap (list (list N)) node).

(** What happens to a system call: nothing special, or failure with an errno; a failing write may have written a part. *)
Inductive fault := FOk | FErr (errno : Z) (written : nat).

Record os := OS {
  o_passwd : list account; o_group : list grent; o_shadow : list (pystr * pystr);
  o_env : list (pystr * pystr);
  o_fs : fsys;
  o_uid : N; o_gid : N; o_groups : list N; (* identity of the dispatcher *)
  o_cwd : place;                           (* its working directory *)
  o_now : Z;
  o_faults : list fault }.

Definition set_fs (f : fsys) (s : os) : os :=
  OS (o_passwd s) (o_group s) (o_shadow s) (o_env s) f (o_uid s) (o_gid s) (o_groups s) (o_cwd s) (o_now s) (o_faults s).
Definition set_faults (f : list fault) (s : os) : os :=
  OS (o_passwd s) (o_group s) (o_shadow s) (o_env s) (o_fs s) (o_uid s) (o_gid s) (o_groups s) (o_cwd s) (o_now s) f.

(** ** Errors *)
Definition ENOENT : Z := 2.
Definition EACCES : Z := 13.
Definition ENOTDIR : Z := 20.
Definition EISDIR : Z := 21.
Definition EINVAL : Z := 22.
Definition ELOOP : Z := 40.
(** Simplification: the texts of system errors are left out. *)
Definition oserr (n : Z) : exn := OSErr n [] [].

(** ** Accounts *)
Definition nul : N := 0.
(** [pwd.getpwnam]: an embedded null byte is a ValueError *)
Definition getpwnam (s : os) (name : pystr) : result account :=
  if has_char nul name then Err (ValueError (lit "embedded null byte"))
  else from_option KeyError (List.find (fun a => str_eqb (pw_name a) name) (o_passwd s)).
Definition getpwuid (s : os) (uid : Z) : result account :=
  from_option KeyError (List.find (fun a => (Z.of_N (pw_uid a) =? uid)%Z) (o_passwd s)).
Definition getgrnam (s : os) (name : pystr) : result grent :=
  if has_char nul name then Err (ValueError (lit "embedded null byte"))
  else from_option KeyError (List.find (fun g => str_eqb (gr_name g) name) (o_group s)).
Definition getgrgid (s : os) (gid : Z) : result grent :=
  from_option KeyError (List.find (fun g => (Z.of_N (gr_gid g) =? gid)%Z) (o_group s)).
(** [spwd.getspnam]: only root may read the shadow database *)
Definition getspnam (s : os) (name : pystr) : result pystr :=
  if (o_uid s =? 0)%N then from_option KeyError (dget name (o_shadow s)) else Err (oserr EACCES).

(** ** Paths *)
(** the components of a path; a final slash asks for a directory *)
Definition comps (p : pystr) : list pystr :=
  let l := List.filter (fun c => match c with [] => false | _ => true end) (split_char slash p) in
  match l with
  | [] => []
  | _ => if endswith p (lit "/") then l ++ [lit "."] else l
  end.

Definition parent (p : place) : place := tail p.

(** Path resolution.  At most [budget] symbolic links are followed (Linux: 40).  [cur] is a directory.  The result is a place
    whose parent is a directory; the file itself may be missing. *)
Fixpoint walk (fs : fsys) (follow : bool) (budget : nat) : place -> list pystr -> result place :=
  fix go (cur : place) (l : list pystr) {struct l} : result place :=
    match l with
    | [] => Ok cur
    | c :: r =>
        if str_eqb c (lit ".") then go cur r
        else if str_eqb c (lit "..") then go (parent cur) r
        else
          match fs !! (c :: cur) with
          | None => match r with [] => Ok (c :: cur) | _ => Err (oserr ENOENT) end
          | Some n =>
              match n_kind n with
              | KDir => go (c :: cur) r
              | KLink t =>
                  if match r with [] => negb follow | _ => false end then Ok (c :: cur)
                  else match budget with
                       | O => Err (oserr ELOOP)
                       | S b => match t with
                                | [] => Err (oserr ENOENT)
                                | _ => walk fs follow b (if isabs t then [] else cur) (comps t ++ r)
                                end
                       end
              | _ => match r with [] => Ok (c :: cur) | _ => Err (oserr ENOTDIR) end
              end
          end
    end.
Definition max_links : nat := 40.
(** an embedded null byte is a ValueError raised by python *)
Definition resolve (fs : fsys) (cwd : place) (p : pystr) (follow : bool) : result place :=
  if has_char nul p then Err (ValueError (lit "embedded null byte"))
  else match p with
       | [] => Err (oserr ENOENT)
       | _ => walk fs follow max_links (if isabs p then [] else cwd) (comps p)
       end.
Definition resolve_node (fs : fsys) (cwd : place) (p : pystr) (follow : bool) : result (place * node) :=
  pl ← resolve fs cwd p follow;
  match fs !! pl with Some n => Ok (pl, n) | None => Err (oserr ENOENT) end.

(** ** System calls *)
Definition M (A : Type) : Type := os -> result A * os.
Definition pure {A} (a : A) : M A := fun s => (Ok a, s).
Definition raise {A} (e : exn) : M A := fun s => (Err e, s).
Definition bindM {A B} (m : M A) (f : A -> M B) : M B := fun s =>
  match m s with (Ok a, s') => f a s' | (Err e, s') => (Err e, s') end.
Definition lift {A} (r : result A) : M A := fun s => (r, s).
Definition getM : M os := fun s => (Ok s, s).
Global Instance M_bind : MBind M := fun A B f m => bindM m f.
Global Instance M_ret : MRet M := fun A a => pure a.

(** the next entry of the schedule *)
Definition next_fault (s : os) : fault * os :=
  match o_faults s with
  | [] => (FOk, s)
  | f :: r => (f, set_faults r s)
  end.
(** a call that fails completely or not at all *)
Definition syscall {A} (m : M A) : M A := fun s =>
  match next_fault s with
  | (FErr n _, s') => (Err (oserr n), s')
  | (FOk, s') => m s'
  end.

Definition update (pl : place) (n : node) : M unit := fun s => (Ok tt, set_fs (<[pl := n]> (o_fs s)) s).

(** [os.stat] *)
Definition sys_stat (p : pystr) (follow : bool) : M node :=
  syscall (fun s => (snd <$> resolve_node (o_fs s) (o_cwd s) p follow, s)).
(** [os.path.isdir]: errors mean no *)
Definition sys_isdir (p : pystr) : M bool := fun s =>
  match sys_stat p true s with
  | (Ok n, s') => (Ok (match n_kind n with KDir => true | _ => false end), s')
  | (Err _, s') => (Ok false, s')
  end.

Definition S_ISUID : N := 2048.
Definition S_ISGID : N := 1024.
Definition S_IXGRP : N := 8.

(** [open(p, 'wb')]: opens and truncates, or creates with mode 0666 and umask 077 (776).  A new file belongs to the
    process, its group is inherited from a set-group-id directory.  Returns the place. *)
Definition sys_open_write (p : pystr) : M place :=
  syscall (fun s =>
    match resolve (o_fs s) (o_cwd s) p true with
    | Err e => (Err e, s)
    | Ok pl =>
        match o_fs s !! pl with
        | None =>
            let dir := o_fs s !! parent pl in
            let gid := match dir with
                       | Some d => if negb (N.land (n_mode d) S_ISGID =? 0)%N then n_gid d else o_gid s
                       | None => o_gid s end in
            (Ok pl, set_fs (<[pl := Node (KFile []) 384 (o_uid s) gid (o_now s) (o_now s)]> (o_fs s)) s)
        | Some n =>
            match n_kind n with
            | KFile _ => (Ok pl, set_fs (<[pl := Node (KFile []) (n_mode n) (n_uid n) (n_gid n) (o_now s) (o_now s)]> (o_fs s)) s)
            | KDir => (Err (oserr EISDIR), s)
            | KLink _ => (Err (oserr ELOOP), s)
            | KOther _ => (Ok pl, s)
            end
        end
    end).
(** Linux: writing to a file as non root drops its setuid bit, and setgid if it is executable by the group *)
Definition drop_suid (mode : N) : N :=
  let m := N.ldiff mode S_ISUID in
  if negb (N.land m S_IXGRP =? 0)%N then N.ldiff m S_ISGID else m.
(** [f.write(content)] and closing the file, opened at [pl].  A failing write may have written a part.  Writing to devices
    has no effect that is modelled. *)
Definition sys_write (pl : place) (content : bytes) : M unit := fun s =>
  let '(f, s) := next_fault s in
  let put b := match o_fs s !! pl with
               | Some n =>
                   match n_kind n with
                   | KFile _ =>
                       let mode := if (o_uid s =? 0)%N then n_mode n else match b with [] => n_mode n | _ => drop_suid (n_mode n) end in
                       set_fs (<[pl := Node (KFile b) mode (n_uid n) (n_gid n) (o_now s) (o_now s)]> (o_fs s)) s
                   | _ => s
                   end
               | None => s
               end in
  match f with
  | FErr n k => (Err (oserr n), put (firstn k content))
  | FOk => (Ok tt, put content)
  end.
(** [open(p, 'rb').read()].  Simplification: devices and the like are empty. *)
Definition sys_read (p : pystr) : M bytes :=
  syscall (fun s =>
    (match resolve_node (o_fs s) (o_cwd s) p true with
     | Err e => Err e
     | Ok (_, n) => match n_kind n with
                    | KFile b => Ok b
                    | KDir => Err (oserr EISDIR)
                    | KLink _ => Err (oserr ELOOP)
                    | KOther _ => Ok []
                    end
     end, s)).
(** [os.chmod(p, mode)] with a python int: OverflowError outside of C int *)
Definition sys_chmod (p : pystr) (mode : Z) : M unit :=
  if ((mode <? - 2 ^ 31) || (2 ^ 31 <=? mode))%Z then raise OverflowError
  else syscall (fun s =>
    match resolve_node (o_fs s) (o_cwd s) p true with
    | Err e => (Err e, s)
    | Ok (pl, n) =>
        (Ok tt, set_fs (<[pl := Node (n_kind n) (Z.to_N (mode mod 4096)) (n_uid n) (n_gid n) (n_mtime n) (o_now s)]> (o_fs s)) s)
    end).
(** [os.chown(p, uid, gid)]: Linux drops setuid (and setgid, if executable by the group) of files that are not directories,
    even for root *)
Definition sys_chown (p : pystr) (uid gid : N) : M unit :=
  syscall (fun s =>
    match resolve_node (o_fs s) (o_cwd s) p true with
    | Err e => (Err e, s)
    | Ok (pl, n) =>
        let mode := match n_kind n with KDir => n_mode n | _ => drop_suid (n_mode n) end in
        (Ok tt, set_fs (<[pl := Node (n_kind n) mode uid gid (n_mtime n) (o_now s)]> (o_fs s)) s)
    end).
