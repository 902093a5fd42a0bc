(** connectors/tunnel_dispatcher.py: the handlers of requests and the main loop. *)
From stdpp Require Import gmap.
From Verif Require Import Base Utf8 Codec Paths Sys.

(** ** Utility functions *)

(** 73-91 [_resolve_oct] *)
Definition resolve_oct (v : pystr) : result Z :=
  from_option (ValueError (lit "Invalid value '" ++ v ++ lit "': Must be in octal format.")) (py_int 8 v).
(** 93-121 [_resolve_user]: the inner ValueError is itself caught by [except ValueError] *)
Definition resolve_user_id (s : os) (user : pystr) : result (N * N) :=
  let missing := ValueError (lit "The user with the name '" ++ user ++ lit "' does not exist.") in
  pw ← match getpwnam s user with
       | Ok pw => Ok pw
       | Err KeyError =>
           match py_int 10 user with
           | None => Err missing
           | Some uid => match getpwuid s uid with Ok pw => Ok pw | Err KeyError => Err missing | Err e => Err e end
           end
       | Err e => Err e
       end;
  Ok (pw_uid pw, pw_gid pw).
(** 123-151 [_resolve_group] *)
Definition resolve_group_id (s : os) (group : pystr) : result N :=
  let missing := ValueError (lit "The group with the name '" ++ group ++ lit "' does not exist.") in
  gr ← match getgrnam s group with
       | Ok gr => Ok gr
       | Err KeyError =>
           match py_int 10 group with
           | None => Err missing
           | Some gid => match getgrgid s gid with Ok gr => Ok gr | Err KeyError => Err missing | Err e => Err e end
           end
       | Err e => Err e
       end;
  Ok (gr_gid gr).

(** ** Processes *)

(** A child process as it is about to execute its program.  [p_stdin = None]: it inherits the input of the
    dispatcher, that is the connection itself. *)
Record proc := Proc {
  p_argv : list pystr; p_stdin : option bytes; p_uid : N; p_gid : N; p_groups : list N; p_umask : N; p_cwd : place }.
(** What becomes of it: an exit status and its output, failure to execute the program (an OSError), or it never ends. *)
Inductive xres := XExit (rc : Z) (out err : bytes) | XFail (e : exn) | XBlock.

(** What a handler does: [raw] is written to the connection by a child that inherited it, then the packet is sent;
    or the loop is told to end; or the handler never returns. *)
Inductive reply := Reply (raw : bytes) (p : packet) | CloseNow | NeverEnds.
Definition answer (p : packet) : M reply := pure (Reply [] p).

(** [try: ... except ValueError as e: conn.write_packet(PacketInvalidField(field, str(e))); return] *)
Definition validated {A} (field : string) (r : result A) (k : A -> M reply) : M reply :=
  match r with
  | Ok a => k a
  | Err (ValueError m) => answer (PInvalidField (lit field) m)
  | Err e => if is_ValueError e then answer (PInvalidField (lit field) []) else raise e
  end.
(** the same for an optional field *)
Definition validated_opt {A} (field : string) (o : option pystr) (f : os -> pystr -> result A) (k : option A -> M reply) : M reply :=
  match o with
  | None => k None
  | Some v => fun s => validated field (f s v) (fun a => k (Some a)) s
  end.

(** [os.chdir] from [cwd] *)
Definition sys_chdir (cwd : place) (p : pystr) : M place :=
  syscall (fun s =>
    (match resolve_node (o_fs s) cwd p true with
     | Err e => Err e
     | Ok (pl, n) => match n_kind n with KDir => Ok pl | _ => Err (oserr ENOTDIR) end
     end, s)).
(** exceptions in the child before the program is executed are reported as SubprocessError *)
Definition in_child {A} (m : M A) : M A := fun s =>
  match m s with
  | (Ok a, s') => (Ok a, s')
  | (Err e, s') => (Err (SubprocessError (lit "Exception occurred in preexec_fn.")), s')
  end.
Definition EPERM : Z := 1.
(** [os.setresgid(g, g, g)] by a process whose ids are all [uid]/[gid]; root may do anything *)
Definition set_id (allowed : bool) : M unit := syscall (fun s => (if allowed then Ok tt else Err (oserr EPERM), s)).

Section dispatcher.
  (** The effect of a program, and the hash function. *)
  Variable exec : proc -> M xres.
  Variable sha512 : bytes -> bytes.

  (** 397-407 [child_preexec]; before it [subprocess] itself changes to [cwd] (414).  The supplementary
      groups are those of the dispatcher. *)
  Definition preexec (argv : list pystr) (stdin : option bytes) (umask : Z) (uid gid : option N) (cwd : option pystr) (cwd1 : place) : M proc :=
    s ← getM;
    _ ← (if ((umask <? - 2 ^ 31) || (2 ^ 31 <=? umask))%Z then raise OverflowError else pure tt);
    _ ← match gid with
        | None => pure tt
        | Some g => set_id ((o_uid s =? 0)%N || (g =? o_gid s)%N)
        end;
    _ ← match uid with
        | None => pure tt
        | Some u => set_id ((o_uid s =? 0)%N || (u =? o_uid s)%N)
        end;
    cwd2 ← match cwd with None => pure cwd1 | Some p => sys_chdir cwd1 p end;
    pure (Proc argv stdin (default (o_uid s) uid) (default (o_gid s) gid) (o_groups s) (Z.to_N (umask mod 512)) cwd2).

  (** 409-416 [subprocess.run] *)
  Definition spawn (argv : list pystr) (stdin : option bytes) (umask : Z) (uid gid : option N) (cwd : option pystr) : M xres :=
    s ← getM;
    match argv with
    | [] => raise IndexError
    | _ =>
        if existsb (has_char nul) argv then raise (ValueError (lit "embedded null byte"))
        else
          cwd1 ← match cwd with None => pure (o_cwd s) | Some p => sys_chdir (o_cwd s) p end;
          p ← in_child (preexec argv stdin umask uid gid cwd cwd1);
          r ← exec p;
          match r with XFail e => raise e | r => pure r end
    end.

  (** 354-422 [PacketProcessRun.handle] *)
  Definition handle_run (command : list pystr) (stdin : option bytes) (capture : bool) (user group umask cwd : option pystr) : M reply :=
    validated_opt "umask" umask (fun _ => resolve_oct) (fun m =>
    validated_opt "user" user resolve_user_id (fun ug =>
    validated_opt "group" group resolve_group_id (fun g =>
      let uid := fst <$> ug in
      let gid := match g with Some g => Some g | None => snd <$> ug end in
      let umask_oct := default 63%Z m in (* 0o077 *)
      bad_cwd ← match cwd with
                | None => pure false
                | Some p => b ← sys_isdir p; pure (negb b)
                end;
      if (bad_cwd : bool) then answer (PInvalidField (lit "cwd") (lit "The directory does not exist"))
      else fun s =>
        match spawn command stdin umask_oct uid gid cwd s with
        | (Err (SubprocessError m), s') => answer (PProcessError m) s'
        | (Err e, s') => (Err e, s')
        | (Ok XBlock, s') => (Ok NeverEnds, s')
        | (Ok (XFail e), s') => (Err e, s')
        | (Ok (XExit rc out err), s') =>
            if capture then (Ok (Reply [] (PProcessCompleted (Some out) (Some err) rc)), s')
            else (Ok (Reply out (PProcessCompleted None None rc)), s')
        end))).

  (** 453-460 *)
  Definition node_type (n : node) : pystr :=
    match n_kind n with KDir => lit "dir" | KFile _ => lit "file" | KLink _ => lit "link" | KOther t => t end.
  (** [st_size].  Simplification: the sizes of directories and special files are fixed. *)
  Definition node_size (n : node) : Z :=
    match n_kind n with
    | KFile b => Z.of_nat (length b)
    | KDir => 4096
    | KLink t => Z.of_nat (length (default [] (utf8_encode_esc t)))
    | KOther _ => 0
    end.
  (** 436-488 [PacketStat.handle] *)
  Definition handle_stat (p : pystr) (follow sha : bool) : M reply := fun s =>
    match sys_stat p follow s with
    | (Err (OSErr n a b), s') => if (n =? ENOENT)%Z then answer (PInvalidField (lit "path") b) s' else (Err (OSErr n a b), s')
    | (Err e, s') => (Err e, s')
    | (Ok n, s') =>
        let owner := match getpwuid s' (Z.of_N (n_uid n)) with Ok pw => pw_name pw | Err _ => str_of_N (n_uid n) end in
        let group := match getgrgid s' (Z.of_N (n_gid n)) with Ok gr => gr_name gr | Err _ => str_of_N (n_gid n) end in
        let k h := answer (PStatResult (node_type n) (Z.of_N (n_mode n)) owner group (node_size n) (n_mtime n) (n_ctime n) h) in
        if sha && str_eqb (node_type n) (lit "file") then
          (c ← sys_read p; k (Some (sha512 c))) s'
        else k None s'
    end.

  (** 503-518 [PacketResolveUser.handle], 528-543 [PacketResolveGroup.handle]: only KeyError and the ValueError of [int]
      are caught *)
  Definition lookup_user (s : os) (user : pystr) : result (option account) :=
    match getpwnam s user with
    | Ok pw => Ok (Some pw)
    | Err KeyError =>
        match py_int 10 user with
        | None => Ok None
        | Some uid => match getpwuid s uid with Ok pw => Ok (Some pw) | Err _ => Ok None end
        end
    | Err e => Err e
    end.
  Definition lookup_group (s : os) (group : pystr) : result (option grent) :=
    match getgrnam s group with
    | Ok gr => Ok (Some gr)
    | Err KeyError =>
        match py_int 10 group with
        | None => Ok None
        | Some gid => match getgrgid s gid with Ok gr => Ok (Some gr) | Err _ => Ok None end
        end
    | Err e => Err e
    end.
  Definition handle_resolve_user (user : option pystr) : M reply :=
    s ← getM;
    let user := match user with Some u => u | None => str_of_N (o_uid s) end in
    o ← lift (lookup_user s user);
    match o with
    | None => answer (PInvalidField (lit "user") (lit "The user does not exist"))
    | Some pw => answer (PResolveResult (pw_name pw))
    end.
  Definition handle_resolve_group (group : option pystr) : M reply :=
    s ← getM;
    let group := match group with Some u => u | None => str_of_N (o_gid s) end in
    o ← lift (lookup_group s group);
    match o with
    | None => answer (PInvalidField (lit "group") (lit "The group does not exist"))
    | Some gr => answer (PResolveResult (gr_name gr))
    end.

  (** 545-589 [PacketUpload.handle] *)
  Definition handle_upload (file : pystr) (content : bytes) (mode owner group : option pystr) : M reply :=
    validated_opt "mode" mode (fun _ => resolve_oct) (fun m =>
    validated_opt "owner" owner resolve_user_id (fun ug =>
    validated_opt "group" group resolve_group_id (fun g =>
      let uid := fst <$> ug in
      let gid := match g with Some g => Some g | None => snd <$> ug end in
      pl ← sys_open_write file;
      _ ← sys_write pl content;
      _ ← match m with Some m => sys_chmod file m | None => pure tt end;
      _ ← match uid, gid with
          | None, None => pure tt
          | _, _ => sys_chown file (default 0%N uid) (default 0%N gid)
          end;
      answer POk))).

  (** 596-614 [PacketDownload.handle] *)
  Definition handle_download (file : pystr) : M reply := fun s =>
    match sys_read file s with
    | (Err (OSErr n a b), s') => if (n =? ENOENT)%Z then answer (PInvalidField (lit "file") b) s' else (Err (OSErr n a b), s')
    | (Err e, s') => (Err e, s')
    | (Ok c, s') => answer (PDownloadResult c) s'
    end.

  (** 638-680 [PacketQueryUser.handle] *)
  Definition handle_query_user (user : pystr) (hash : bool) : M reply :=
    s ← getM;
    o ← lift (lookup_user s user);
    match o with
    | None => answer (PInvalidField (lit "user") (lit "The user does not exist"))
    | Some pw =>
        let k h :=
          let groups := List.map gr_name (List.filter (fun g => str_in (pw_name pw) (gr_mem g)) (o_group s)) in
          match getgrgid s (Z.of_N (pw_gid pw)) with
          | Ok g => answer (PUserEntry (pw_name pw) (Z.of_N (pw_uid pw)) (gr_name g) (Z.of_N (pw_gid pw)) groups h
                              (pw_gecos pw) (pw_dir pw) (pw_shell pw))
          | Err _ => answer (PInvalidField (lit "user") (lit "The user's primary group doesn't exist"))
          end in
        if hash then
          match getspnam s (pw_name pw) with
          | Ok h => k (Some h)
          | Err KeyError => answer (PInvalidField (lit "user") (lit "The user has no shadow entry, or it is inaccessible."))
          | Err e => raise e
          end
        else k None
    end.
  (** 692-711 [PacketQueryGroup.handle] *)
  Definition handle_query_group (group : pystr) : M reply :=
    s ← getM;
    o ← lift (lookup_group s group);
    match o with
    | None => answer (PInvalidField (lit "group") (lit "The group does not exist"))
    | Some gr => answer (PGroupEntry (gr_name gr) (Z.of_N (gr_gid gr)) (gr_mem gr))
    end.
  (** 719-727 [PacketGetenv.handle] *)
  Definition handle_getenv (key : pystr) : M reply :=
    s ← getM; answer (PEnvironVar (dget key (o_env s))).

  (** [packet.handle(conn)]: for responses this is [_handle_response] (271-276), which raises TypeError *)
  Definition handle (p : packet) : M reply :=
    match p with
    | PCheckAlive => answer PAck
    | PExit => pure CloseNow
    | PProcessRun c i o u g m w => handle_run c i o u g m w
    | PStat p f h => handle_stat p f h
    | PResolveUser u => handle_resolve_user u
    | PResolveGroup g => handle_resolve_group g
    | PUpload f c m o g => handle_upload f c m o g
    | PDownload f => handle_download f
    | PQueryUser u h => handle_query_user u h
    | PQueryGroup g => handle_query_group g
    | PGetenv k => handle_getenv k
    | _ => raise TypeError
    end.

  (** ** The main loop, 774-798 *)

  (** How one turn of the loop ends: it goes on, ends after PacketExit, with [sys.exit(3)], with a traceback, or never. *)
  Inductive turn := Running | Finished | Exit3 | Crashed (e : exn) | Stuck.

  (** sending a packet: an exception ends the dispatcher, what was written before is flushed on exit *)
  Definition send (p : packet) : bytes * turn :=
    match write_packet p with (b, None) => (b, Running) | (b, Some e) => (b, Crashed e) end.

  (** One turn: the remaining input, the output, the turn, and the new state. *)
  Definition serve1 (inp : list bytes) : os -> (list bytes * bytes * turn) * os := fun s =>
    match receive_packet None inp with
    | (Err e, inp') => ((inp', [], if is_OSError e then Exit3 else Crashed e), s)
    | (Ok p, inp') =>
        match handle p s with
        | (Ok (Reply raw r), s') => let '(b, t) := send r in ((inp', raw ++ b, t), s')
        | (Ok CloseNow, s') => ((inp', [], Finished), s')
        | (Ok NeverEnds, s') => ((inp', [], Stuck), s')
        | (Err e, s') =>
            match e with
            | OSErr n a b => let '(o, t) := send (POSError n a b) in ((inp', o, t), s')
            | IOErr _ => ((inp', [], Crashed StructError), s') (* errno None; not raised by any handler *)
            | e => ((inp', [], Crashed e), s')
            end
        end
    end.

  (** The loop on a complete input; [fuel] bounds the number of turns. *)
  Fixpoint serve (fuel : nat) (inp : list bytes) (s : os) : (bytes * turn) * os :=
    match fuel with
    | O => (([], Crashed OutOfFuel), s)
    | S f =>
        match serve1 inp s with
        | ((inp', out, Running), s') => let '((out', t), s'') := serve f inp' s' in ((out ++ out', t), s'')
        | ((_, out, t), s') => ((out, t), s')
        end
    end.
End dispatcher.
