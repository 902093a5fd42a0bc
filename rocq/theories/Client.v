(** connectors/tunnel_connector.py: the client side of a connection. *)
From stdpp Require Import gmap.
From Verif Require Import Base Utf8 Codec Paths Sys Dispatcher.

Definition eof : exn := IOErr (lit "Unexpected EOF in data stream").

(** ** The connection as streams of bytes *)

(** [ss_buf]: bytes in the client's output buffer that were not flushed; [ss_in], [ss_out]: pieces under way to the
    dispatcher and to the client. *)
Record session := Session { ss_os : os; ss_buf : bytes; ss_in : list bytes; ss_out : list bytes; ss_turn : turn }.

Section client.
  Variable exec : proc -> M xres.
  Variable sha512 : bytes -> bytes.

  (** tunnel_connector.py:85-89 [_request] together with one turn of the dispatcher.  [cut1], [cut2]: how the transport
      cuts the data into pieces.  A dispatcher that has ended closes its output, so that the client reads the end of the stream.
      Simplifications: writing to a dispatcher that has ended goes unnoticed (really a BrokenPipeError, an IOError as well);
      if a running dispatcher sends less than the client expects, the client sees the end of the stream instead of waiting
      (does not happen for requests of valid fields: proved). *)
  Definition request_bytes (cut1 cut2 : bytes -> list bytes) (req : packet) (ss : session) : result packet * session :=
    match write_packet req with
    | (b, Some e) => (Err e, Session (ss_os ss) (ss_buf ss ++ b) (ss_in ss) (ss_out ss) (ss_turn ss))
    | (b, None) =>
        let inp := ss_in ss ++ cut1 (ss_buf ss ++ b) in
        match ss_turn ss with
        | Running =>
            let '((inp', out, t), s') := serve1 exec sha512 inp (ss_os ss) in
            match t with
            | Stuck => (Err Blocked, Session s' [] inp' (ss_out ss ++ cut2 out) t)
            | _ =>
                let '(r, out') := receive_packet (Some req) (ss_out ss ++ cut2 out) in
                (r, Session s' [] inp' out' t)
            end
        | t =>
            let '(r, out') := receive_packet (Some req) (ss_out ss) in
            (r, Session (ss_os ss) [] inp out' t)
        end
    end.

  (** ** The same as a procedure call *)

  (** [Up]: the dispatcher waits for a request and nothing is under way.  [Down]: it has ended.  [Garbled]: a request could
      not be encoded or a child wrote to the connection; what follows is not described at this level.  [Losing k late]: like
      [Up], but the connection is lost with the request after the next [k] ones: before the request gets through, or
      ([late]) after it was carried out and before its answer gets through. *)
  Inductive link := Up | Down | Garbled | Losing (k : nat) (late : bool).
  Record remote := Remote { r_os : os; r_link : link }.

  (** a request while the connection holds *)
  Definition request_held (req : packet) (s : os) : result packet * remote :=
    match write_packet req with
    | (_, Some e) => (Err e, Remote s Garbled)
    | (_, None) =>
        let answered raw r s' :=
          match write_packet r with
          | (b, None) =>
              match raw with
              | [] => (deliver (Some req) r, Remote s' Up)
              | _ => (fst (receive_packet (Some req) [raw ++ b]), Remote s' Garbled)
              end
          | (b, Some _) =>
              match raw with
              | [] => (Err eof, Remote s' Down)
              | _ => (fst (receive_packet (Some req) [raw ++ b]), Remote s' Down)
              end
          end in
        match handle exec sha512 req s with
        | (Ok (Reply raw r), s') => answered raw r s'
        | (Ok CloseNow, s') => (Err eof, Remote s' Down)
        | (Ok NeverEnds, s') => (Err Blocked, Remote s' Down)
        | (Err (OSErr n a b), s') => answered [] (POSError n a b) s'
        | (Err e, s') => (Err eof, Remote s' Down)
        end
    end.
  Definition request (req : packet) (v : remote) : result packet * remote :=
    match r_link v with
    | Up => request_held req (r_os v)
    | Losing k late =>
        match write_packet req, k with
        | (_, Some e), _ => (Err e, Remote (r_os v) Garbled)
        | (_, None), O => (Err eof, Remote (if late then r_os (snd (request_held req (r_os v))) else r_os v) Down)
        | (_, None), S k' =>
            let '(x, v') := request_held req (r_os v) in
            (x, Remote (r_os v') (match r_link v' with Up => Losing k' late | l => l end))
        end
    | _ => (Err eof, v)
    end.

  (** ** tunnel_connector.py: the methods of the connector *)
  Definition C (A : Type) : Type := remote -> result A * remote.
  Global Instance C_bind : MBind C := fun A B f m v => match m v with (Ok a, v') => f a v' | (Err e, v') => (Err e, v') end.
  Global Instance C_ret : MRet C := fun A a v => (Ok a, v).
  Definition craise {A} (e : exn) : C A := fun v => (Err e, v).

  (** 12-24 [_expect_response_packet] *)
  Definition unexpected : exn := IOErr (lit "Invalid response from remote dispatcher. This is a bug.").

  (** connector.py:11-21 *)
  Record completed := Completed { cr_stdout : option bytes; cr_stderr : option bytes; cr_rc : Z }.
  (** 91-126 *)
  Definition conn_run (command : list pystr) (input : option bytes) (capture check : bool) (user group umask cwd : option pystr) : C completed :=
    r ← request (PProcessRun command input capture user group umask cwd);
    match r with
    | PProcessError m => craise (ValueError m)
    | PProcessCompleted o e rc =>
        if check && negb (rc =? 0)%Z then craise (CalledProcessError rc o e command)
        else mret (Completed o e rc)
    | _ => craise unexpected
    end.

  (** connector.py:23-45: the mode becomes text *)
  Record statres := StatRes {
    st_type : pystr; st_mode : pystr; st_owner : pystr; st_group : pystr; st_size : Z; st_mtime : Z; st_ctime : Z;
    st_sha : option bytes }.
  (** 128-150 *)
  Definition conn_stat (p : pystr) (follow sha : bool) : C (option statres) := fun v =>
    match request (PStat p follow sha) v with
    | (Err e, v') => if is_ValueError e then (Ok None, v') else (Err e, v')
    | (Ok (PStatResult t m o g s mt ct h), v') => (Ok (Some (StatRes t (oct_tail m) o g s mt ct h)), v')
    | (Ok _, v') => (Err unexpected, v')
    end.
  (** 152-164 *)
  Definition conn_resolve_user (u : option pystr) : C pystr :=
    r ← request (PResolveUser u); match r with PResolveResult x => mret x | _ => craise unexpected end.
  Definition conn_resolve_group (g : option pystr) : C pystr :=
    r ← request (PResolveGroup g); match r with PResolveResult x => mret x | _ => craise unexpected end.
  (** connector.py:47-67, 69-77 *)
  Record user_entry := UserEntry {
    ue_name : pystr; ue_uid : Z; ue_group : pystr; ue_gid : Z; ue_groups : list pystr; ue_hash : option pystr;
    ue_gecos : pystr; ue_home : pystr; ue_shell : pystr }.
  Record group_entry := GroupEntry { ge_name : pystr; ge_gid : Z; ge_members : list pystr }.
  (** 166-190 *)
  Definition conn_query_user (u : pystr) (hash : bool) : C user_entry :=
    r ← request (PQueryUser u hash);
    match r with PUserEntry n u g gi gs h ge ho sh => mret (UserEntry n u g gi gs h ge ho sh) | _ => craise unexpected end.
  Definition conn_query_group (g : pystr) : C group_entry :=
    r ← request (PQueryGroup g);
    match r with PGroupEntry n g ms => mret (GroupEntry n g ms) | _ => craise unexpected end.
  (** 192-197 *)
  Definition conn_getenv (k : pystr) : C (option pystr) :=
    r ← request (PGetenv k); match r with PEnvironVar v => mret v | _ => craise unexpected end.
  (** 199-212 *)
  Definition conn_upload (file : pystr) (content : bytes) (mode owner group : option pystr) : C unit :=
    r ← request (PUpload file content mode owner group); match r with POk => mret tt | _ => craise unexpected end.
  (** 214-219 *)
  Definition conn_download (file : pystr) : C bytes :=
    r ← request (PDownload file); match r with PDownloadResult c => mret c | _ => craise unexpected end.
  (** 51-53 *)
  Definition conn_check_alive : C unit :=
    r ← request PCheckAlive; match r with PAck => mret tt | _ => craise unexpected end.
End client.
