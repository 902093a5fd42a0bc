(** The programs that file operations run on the remote: GNU coreutils in the forms in which they are called.  This is a model of
    the environment, not of code in /repo.

    Every program makes one system call that can fail according to the schedule (several in the case of rm -rf).
    Simplifications: what is printed on stderr; permissions (see Sys.v); modification times of directories; the clearing of
    the setgid bit by chmod for users outside of the group. *)
From stdpp Require Import gmap sorting.
From Verif Require Import Base Utf8 Codec Paths Sys Dispatcher.

Definition EEXIST : Z := 17.
Definition EBUSY : Z := 16.
Definition EXDEV : Z := 18.
Definition S_ISVTX : N := 512.

Fixpoint lstrip_slash (p : pystr) : pystr := match p with c :: r => if (c =? slash)%N then lstrip_slash r else p | [] => [] end.
(** without slashes at the end *)
Definition rstrip_slash (p : pystr) : pystr := rev (lstrip_slash (rev p)).
(** the last component *)
Definition basename (p : pystr) : pystr := default [] (last (split_char slash (rstrip_slash p))).

(** the group of a new file, and whether its directory is set-group-id *)
Definition dir_sgid (s : os) (pl : place) : bool :=
  match o_fs s !! parent pl with Some d => negb (N.land (n_mode d) S_ISGID =? 0)%N | None => false end.
Definition new_gid (p : proc) (s : os) (pl : place) : N :=
  if dir_sgid s pl then match o_fs s !! parent pl with Some d => n_gid d | None => p_gid p end else p_gid p.

(** mkdir(2) with mode 0777 *)
Definition do_mkdir (p : proc) (path : pystr) : M unit :=
  syscall (fun s =>
    match resolve (o_fs s) (p_cwd p) (rstrip_slash path) false with
    | Err e => (Err e, s)
    | Ok pl =>
        match o_fs s !! pl with
        | Some _ => (Err (oserr EEXIST), s)
        | None =>
            let mode := N.lor (N.ldiff 511 (p_umask p)) (if dir_sgid s pl then S_ISGID else 0) in
            (Ok tt, set_fs (<[pl := Node KDir mode (p_uid p) (new_gid p s pl) (o_now s) (o_now s)]> (o_fs s)) s)
        end
    end).

(** The octal modes of chmod: digits up to 7777.  Other modes are not used and count as invalid. *)
Definition gnu_mode (t : pystr) : option N :=
  if match t with [] => true | _ => false end || negb (forallb (fun c => (48 <=? c) && (c <? 56))%N t) then None
  else let v := fold_left (fun a d => a * 8 + (d - 48))%N t 0%N in if (v <? 4096)%N then Some v else None.
(** The mode a file gets: for directories setuid and setgid are kept unless five digits are given. *)
Definition gnu_apply (t : pystr) (m : N) (n : node) : N :=
  match n_kind n with
  | KDir => if (length t <? 5)%nat then N.lor m (N.land (n_mode n) (N.lor S_ISUID S_ISGID)) else m
  | _ => m
  end.
Definition do_chmod (p : proc) (t path : pystr) : M unit :=
  match gnu_mode t with
  | None => raise (oserr EINVAL)
  | Some m =>
      syscall (fun s =>
        match resolve_node (o_fs s) (p_cwd p) path true with
        | Err e => (Err e, s)
        | Ok (pl, n) => (Ok tt, set_fs (<[pl := Node (n_kind n) (gnu_apply t m n) (n_uid n) (n_gid n) (n_mtime n) (o_now s)]> (o_fs s)) s)
        end)
  end.

(** user:group, names before numbers; other forms are not used *)
Definition all_digits (t : pystr) : bool := match t with [] => false | _ => forallb (fun c => (48 <=? c) && (c <? 58))%N t end.
Definition decimal (t : pystr) : N := fold_left (fun a d => a * 10 + (d - 48))%N t 0%N.
Definition gnu_uid (s : os) (t : pystr) : option N :=
  match List.find (fun a => str_eqb (pw_name a) t) (o_passwd s) with
  | Some a => Some (pw_uid a)
  | None => if all_digits t && (decimal t <? 2 ^ 32 - 1)%N then Some (decimal t) else None
  end.
Definition gnu_gid (s : os) (t : pystr) : option N :=
  match List.find (fun a => str_eqb (gr_name a) t) (o_group s) with
  | Some a => Some (gr_gid a)
  | None => if all_digits t && (decimal t <? 2 ^ 32 - 1)%N then Some (decimal t) else None
  end.
Definition colon : N := 58.
Fixpoint cut_at (c : N) (t : pystr) : option (pystr * pystr) :=
  match t with
  | [] => None
  | x :: r => if (x =? c)%N then Some ([], r) else match cut_at c r with Some (a, b) => Some (x :: a, b) | None => None end
  end.
Definition gnu_owner (s : os) (spec : pystr) : option (N * N) :=
  match cut_at colon spec with
  | Some ((_ :: _) as u, (_ :: _) as g) =>
      match gnu_uid s u, gnu_gid s g with Some x, Some y => Some (x, y) | _, _ => None end
  | _ => None
  end.
(** chown(2), lchown(2) *)
Definition do_chown (p : proc) (follow : bool) (spec path : pystr) : M unit :=
  if startswith spec (lit "-") then raise (oserr EINVAL) (* taken for an option *)
  else syscall (fun s =>
    match gnu_owner s spec with
    | None => (Err (oserr EINVAL), s)
    | Some (uid, gid) =>
        match resolve_node (o_fs s) (p_cwd p) path follow with
        | Err e => (Err e, s)
        | Ok (pl, n) =>
            let mode := match n_kind n with KDir | KLink _ => n_mode n | _ => drop_suid (n_mode n) end in
            (Ok tt, set_fs (<[pl := Node (n_kind n) mode uid gid (n_mtime n) (o_now s)]> (o_fs s)) s)
        end
    end).

(** touch: sets the times, or creates an empty file *)
Definition do_touch (p : proc) (follow : bool) (path : pystr) : M unit :=
  syscall (fun s =>
    match resolve (o_fs s) (p_cwd p) path follow with
    | Err e => (Err e, s)
    | Ok pl =>
        match o_fs s !! pl with
        | Some n => (Ok tt, set_fs (<[pl := Node (n_kind n) (n_mode n) (n_uid n) (n_gid n) (o_now s) (o_now s)]> (o_fs s)) s)
        | None =>
            if follow then
              (Ok tt, set_fs (<[pl := Node (KFile []) (N.ldiff 438 (p_umask p)) (p_uid p) (new_gid p s pl) (o_now s) (o_now s)]> (o_fs s)) s)
            else (Err (oserr ENOENT), s)
        end
    end).

(** rm of something that is not a directory *)
Definition do_rm (p : proc) (path : pystr) : M unit :=
  syscall (fun s =>
    match resolve_node (o_fs s) (p_cwd p) path false with
    | Err e => (Err e, s)
    | Ok (pl, n) => match n_kind n with
                    | KDir => (Err (oserr EISDIR), s)
                    | _ => (Ok tt, set_fs (delete pl (o_fs s)) s)
                    end
    end).
(** everything at or below a place *)
Definition below (pl : place) (x : place) : Prop := pl `suffix_of` x.
Global Instance below_dec pl x : Decision (below pl x).
Proof. unfold below. apply _. Defined.
(** the places below [pl], deepest first *)
Definition deeper (a b : place) : Prop := (length b <= length a)%nat.
Global Instance deeper_dec a b : Decision (deeper a b).
Proof. unfold deeper. apply _. Defined.
Definition contents (fs : fsys) (pl : place) : list place :=
  merge_sort deeper (List.filter (fun x => bool_decide (below pl x)) (fst <$> map_to_list fs)).
Definition delete_all (l : list place) (fs : fsys) : fsys := foldr (fun pl f => delete pl f) fs l.
(** rm -rf.  It may fail when any number of files has been removed.  It refuses the root and paths ending in "." or "..". *)
Definition do_rm_rf (p : proc) (path : pystr) : M unit := fun s =>
  let '(f, s) := next_fault s in
  match resolve (o_fs s) (p_cwd p) path false with
  | Err e => if bool_decide (e = oserr ENOENT) then (match f with FErr n _ => Err (oserr n) | FOk => Ok tt end, s) else (Err e, s)
  | Ok pl =>
      if str_in (basename path) [lit "."; lit ".."] || match pl with [] => true | _ => false end then (Err (oserr EBUSY), s)
      else let l := contents (o_fs s) pl in
           match f with
           | FErr n k => (Err (oserr n), set_fs (delete_all (firstn k l) (o_fs s)) s)
           | FOk => (Ok tt, set_fs (delete_all l (o_fs s)) s)
           end
  end.

(** ln -sf: inside of [path] if that is (or leads to) a directory, otherwise it replaces what is there *)
Definition do_ln (p : proc) (target path : pystr) : M unit :=
  syscall (fun s =>
    let dest := match resolve_node (o_fs s) (p_cwd p) path true with
                | Ok (_, n) => match n_kind n with KDir => path_join path (basename target) | _ => path end
                | Err _ => path
                end in
    match resolve (o_fs s) (p_cwd p) dest false with
    | Err e => (Err e, s)
    | Ok pl =>
        match n_kind <$> o_fs s !! pl with
        | Some KDir => (Err (oserr EISDIR), s)
        | _ => (Ok tt, set_fs (<[pl := Node (KLink target) 511 (p_uid p) (new_gid p s pl) (o_now s) (o_now s)]> (o_fs s)) s)
        end
    end).
(** readlink -n *)
Definition do_readlink (p : proc) (path : pystr) : M bytes :=
  syscall (fun s =>
    (match resolve_node (o_fs s) (p_cwd p) path false with
     | Err e => Err e
     | Ok (_, n) => match n_kind n with
                    | KLink t => Ok (default [] (utf8_encode_esc t))
                    | _ => Err (oserr EINVAL)
                    end
     end, s)).
(** cp -a of one file.  Simplification: not interrupted in the middle. *)
Definition do_cp (p : proc) (src dst : pystr) : M unit :=
  syscall (fun s =>
    match resolve_node (o_fs s) (p_cwd p) src false with
    | Err e => (Err e, s)
    | Ok (from, n) =>
        let dst := match resolve_node (o_fs s) (p_cwd p) dst true with
                   | Ok (_, m) => match n_kind m with KDir => path_join dst (basename src) | _ => dst end
                   | Err _ => dst
                   end in
        match resolve (o_fs s) (p_cwd p) dst true with
        | Err e => (Err e, s)
        | Ok pl =>
            (* a link that leads nowhere is not written through *)
            let dangling := match o_fs s !! pl, resolve (o_fs s) (p_cwd p) dst false with None, Ok q => negb (bool_decide (q = pl)) | _, _ => false end in
            if dangling then (Err (oserr EINVAL), s)
            else match n_kind n, n_kind <$> o_fs s !! pl with
            | KDir, _ => (Err (oserr EISDIR), s) (* not used *)
            | _, Some KDir => (Err (oserr EISDIR), s)
            | _, Some (KLink _) => (Err (oserr ELOOP), s) (* not reached: links are followed *)
            | _, _ => if bool_decide (pl = from) then (Err (oserr EINVAL), s) (* the same file *)
                      else let kind := match n_kind <$> o_fs s !! pl with Some (KOther t) => KOther t (* written to *) | _ => n_kind n end in
                           (Ok tt, set_fs (<[pl := Node kind (n_mode n) (n_uid n) (n_gid n) (n_mtime n) (o_now s)]> (o_fs s)) s)
            end
        end
    end).

(** exit status and output *)
Definition exits (m : M unit) : M xres := fun s =>
  match m s with (Ok _, s') => (Ok (XExit 0 [] []), s') | (Err _, s') => (Ok (XExit 1 [] []), s') end.
Definition prints (m : M bytes) : M xres := fun s =>
  match m s with (Ok b, s') => (Ok (XExit 0 b []), s') | (Err _, s') => (Ok (XExit 1 [] []), s') end.

(** [rest]: all other programs *)
Definition coreutils (rest : proc -> M xres) (p : proc) : M xres :=
  match p_argv p with
  | [c; a; x] =>
      if str_eqb c (lit "mkdir") && str_eqb a (lit "--") then exits (do_mkdir p x)
      else if str_eqb c (lit "touch") && str_eqb a (lit "--") then exits (do_touch p true x)
      else if str_eqb c (lit "rm") && str_eqb a (lit "--") then exits (do_rm p x)
      else if str_eqb c (lit "readlink") && str_eqb a (lit "-n") then prints (do_readlink p x)
      else rest p
  | [c; a; b; x] =>
      if str_eqb c (lit "chmod") && str_eqb b (lit "--") then exits (do_chmod p a x)
      else if str_eqb c (lit "chown") && str_eqb b (lit "--") then exits (do_chown p true a x)
      else if str_eqb c (lit "rm") && str_eqb a (lit "-rf") && str_eqb b (lit "--") then exits (do_rm_rf p x)
      else if str_eqb c (lit "touch") && str_eqb a (lit "--no-dereference") && str_eqb b (lit "--") then exits (do_touch p false x)
      else rest p
  | [c; a; b; y; x] =>
      if str_eqb c (lit "ln") && str_eqb a (lit "-sf") && str_eqb b (lit "--") then exits (do_ln p y x)
      else if str_eqb c (lit "cp") && str_eqb a (lit "-a") && str_eqb b (lit "--") then exits (do_cp p y x)
      else if str_eqb c (lit "chown") && str_eqb a (lit "--no-dereference") && str_eqb y (lit "--") then exits (do_chown p false b x)
      else rest p
  | _ => rest p
  end.
