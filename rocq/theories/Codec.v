(** The wire format of the tunnel: connectors/tunnel_dispatcher.py 153-298 and the packet
    classes 303-727, [receive_packet] 729-772. *)
From Verif Require Import Base Utf8.

(** Type annotations of packet fields: tunnel_dispatcher.py:30-40 (i32, u32, i64, u64), the keys
    of [_serializers] 196-203, [_is_optional] and [_is_list] 188-194. *)
Inductive vtype :=
| TBool | TI32 | TU32 | TI64 | TU64 | TBytes | TStr
| TOpt (t : vtype)
| TList (t : vtype).

(** Python values that occur in packet fields. *)
Inductive value :=
| VBool (b : bool)
| VInt (z : Z)
| VBytes (b : bytes)
| VStr (s : pystr)
| VNone
| VList (l : list value).

(** ** Writing *)

(** [k] big endian bytes of [z] in two's complement: [struct.pack] with ">". *)
Fixpoint be_bytes (k : nat) (z : Z) : bytes :=
  match k with
  | O => []
  | S k' => n2b (Z.to_N ((z / 256 ^ Z.of_nat k') mod 256)) :: be_bytes k' z
  end.

(** [struct.pack(fmt, z)]: struct.error when out of range. *)
Definition pack_int (k : nat) (lo hi : Z) (z : Z) : bytes * option exn :=
  if ((lo <=? z) && (z <=? hi))%Z then (be_bytes k z, None) else ([], Some StructError).

(** The writer: bytes written so far, and the exception that stopped it, if any.  Bytes written
    before an exception stay in the output buffer. *)
Definition wseq (a : bytes * option exn) (b : unit -> bytes * option exn) : bytes * option exn :=
  match a with
  | (x, None) => let '(y, e) := b tt in (x ++ y, e)
  | (x, Some e) => (x, Some e)
  end.

(** [len(v)]: at most [sys.maxsize] *)
Definition py_len {A} (l : list A) : N := N.of_nat (List.length l).
Definition ser_len {A} (l : list A) : bytes * option exn :=
  if (py_len l <? 2 ^ 63)%N then pack_int 8 0 (2 ^ 64 - 1) (Z.of_N (py_len l))
  else ([], Some OverflowError).

(** tunnel_dispatcher.py:196-203 [_serializers] and 204-220 [_serialize].  Values that do
    not match the annotation raise; the typed packets below never produce them. *)
Fixpoint serialize (t : vtype) (v : value) : bytes * option exn :=
  match t with
  | TBool => match v with VBool b => ([n2b (if b then 1 else 0)%N], None) | _ => ([], Some TypeError) end
  | TI32 => match v with VInt z => pack_int 4 (- 2 ^ 31) (2 ^ 31 - 1) z | _ => ([], Some StructError) end
  | TU32 => match v with VInt z => pack_int 4 0 (2 ^ 32 - 1) z | _ => ([], Some StructError) end
  | TI64 => match v with VInt z => pack_int 8 (- 2 ^ 63) (2 ^ 63 - 1) z | _ => ([], Some StructError) end
  | TU64 => match v with VInt z => pack_int 8 0 (2 ^ 64 - 1) z | _ => ([], Some StructError) end
  | TBytes => match v with VBytes b => wseq (ser_len b) (fun _ => (b, None)) | _ => ([], Some TypeError) end
  | TStr =>
      match v with
      | VStr s =>
          match utf8_encode s with
          | Some b => wseq (ser_len b) (fun _ => (b, None))
          | None => ([], Some UnicodeEncodeError)
          end
      | _ => ([], Some AttributeError)
      end
  | TOpt t' =>
      match v with
      | VNone => ([n2b 0], None)
      | _ => wseq ([n2b 1], None) (fun _ => serialize t' v)
      end
  | TList t' =>
      match v with
      | VList l =>
          wseq (ser_len l) (fun _ =>
            (fix go (l : list value) :=
               match l with
               | [] => ([], None)
               | x :: r => wseq (serialize t' x) (fun _ => go r)
               end) l)
      | _ => ([], Some TypeError)
      end
  end.

(** ** Reading *)

(** First [n] elements and the rest. *)
Fixpoint splitN {A} (n : N) (l : list A) : list A * list A :=
  match l with
  | [] => ([], [])
  | b :: r => if (n =? 0)%N then ([], l) else let '(x, y) := splitN (N.pred n) r in (b :: x, y)
  end.

(** tunnel_dispatcher.py:169-171 [Connection.read] on a buffered reader: keeps
    reading from the transport until [n] bytes have arrived or the end of the stream is reached, where
    it returns what there is.  The transport is the list of (non empty) pieces it
    will deliver. *)
Fixpoint chunk_read (n : N) (cs : list bytes) : bytes * list bytes :=
  match cs with
  | [] => ([], [])
  | c :: r =>
      if (n =? 0)%N then ([], cs)
      else if (py_len c <=? n)%N then
        let '(d, r') := chunk_read (n - py_len c)%N r in (c ++ d, r')
      else let '(x, y) := splitN n c in (x, y :: r)
  end.

(** big endian value *)
Fixpoint be_val (acc : Z) (l : bytes) : Z :=
  match l with
  | [] => acc
  | b :: r => be_val (acc * 256 + Z.of_N (b2n b)) r
  end.
Definition to_signed (k : nat) (z : Z) : Z :=
  if (z <? 2 ^ (8 * Z.of_nat k - 1))%Z then z else (z - 2 ^ (8 * Z.of_nat k))%Z.

Section reader.
  (** The reader is abstract here, so that the same code reads from chunks and, in the proofs,
      from a plain list of bytes. *)
  Context {S : Type} (rd : N -> S -> bytes * S) (remaining : S -> nat).

  (** [conn.read(n)]: sizes above [sys.maxsize] are an OverflowError.
      Running out of memory for smaller sizes is not modelled. *)
  Definition read (n : N) (s : S) : result bytes * S :=
    if (n <? 2 ^ 63)%N then let '(d, s') := rd n s in (Ok d, s') else (Err OverflowError, s).

  (** [unpack(fmt, conn.read(k))]: struct.error on short data *)
  Definition unpack (k : nat) (s : S) : result Z * S :=
    match read (N.of_nat k) s with
    | (Ok d, s') => if (List.length d =? k)%nat then (Ok (be_val 0 d), s') else (Err StructError, s')
    | (Err e, s') => (Err e, s')
    end.

  Definition deser_bytes (s : S) : result bytes * S :=
    match unpack 8 s with
    | (Ok n, s') => read (Z.to_N n) s'
    | (Err e, s') => (Err e, s')
    end.

  (** [list(f(conn) for _ in range(n))] *)
  Fixpoint deser_list (f : S -> result value * S) (fuel : nat) (n : N) (s : S) : result (list value) * S :=
    if (n =? 0)%N then (Ok [], s)
    else match fuel with
         | O => (Err OutOfFuel, s)
         | Datatypes.S fuel' =>
             match f s with
             | (Err e, s') => (Err e, s')
             | (Ok v, s') =>
                 match deser_list f fuel' (N.pred n) s' with
                 | (Ok vs, s'') => (Ok (v :: vs), s'')
                 | (Err e, s'') => (Err e, s'')
                 end
             end
         end.

  (** tunnel_dispatcher.py:222-229 [_deserializers] and 231-245 [_deserialize] *)
  Fixpoint deserialize (t : vtype) (s : S) : result value * S :=
    match t with
    | TBool => match unpack 1 s with (Ok z, s') => (Ok (VBool (negb (z =? 0)%Z)), s') | (Err e, s') => (Err e, s') end
    | TI32 => match unpack 4 s with (Ok z, s') => (Ok (VInt (to_signed 4 z)), s') | (Err e, s') => (Err e, s') end
    | TU32 => match unpack 4 s with (Ok z, s') => (Ok (VInt z), s') | (Err e, s') => (Err e, s') end
    | TI64 => match unpack 8 s with (Ok z, s') => (Ok (VInt (to_signed 8 z)), s') | (Err e, s') => (Err e, s') end
    | TU64 => match unpack 8 s with (Ok z, s') => (Ok (VInt z), s') | (Err e, s') => (Err e, s') end
    | TBytes => match deser_bytes s with (Ok b, s') => (Ok (VBytes b), s') | (Err e, s') => (Err e, s') end
    | TStr =>
        match deser_bytes s with
        | (Ok b, s') =>
            match utf8_decode b with
            | Some x => (Ok (VStr x), s')
            | None => (Err UnicodeDecodeError, s')
            end
        | (Err e, s') => (Err e, s')
        end
    | TOpt t' =>
        match unpack 1 s with
        | (Ok z, s') => if (z =? 0)%Z then (Ok VNone, s') else deserialize t' s'
        | (Err e, s') => (Err e, s')
        end
    | TList t' =>
        match unpack 8 s with
        | (Ok n, s') =>
            match deser_list (deserialize t') (Datatypes.S (remaining s')) (Z.to_N n) s' with
            | (Ok l, s'') => (Ok (VList l), s'')
            | (Err e, s'') => (Err e, s'')
            end
        | (Err e, s') => (Err e, s')
        end
    end.

  (** tunnel_dispatcher.py:257-262 [_read_packet]: the fields in declaration order *)
  Fixpoint deser_fields (ts : list vtype) (s : S) : result (list value) * S :=
    match ts with
    | [] => (Ok [], s)
    | t :: r =>
        match deserialize t s with
        | (Err e, s') => (Err e, s')
        | (Ok v, s') =>
            match deser_fields r s' with
            | (Ok vs, s'') => (Ok (v :: vs), s'')
            | (Err e, s'') => (Err e, s'')
            end
        end
    end.
End reader.

Definition chunks_remaining (cs : list bytes) : nat := length (List.concat cs).

(** ** Packets *)

(** tunnel_dispatcher.py:303-727, in order of registration (= packet id). *)
Inductive packet :=
| POk                                                                 (* 303-305 *)
| PAck                                                                (* 307-309 *)
| PCheckAlive                                                         (* 311-319 *)
| PExit                                                               (* 321-327 *)
| POSError (errno : Z) (strerror msg : pystr)                          (* 329-334 *)
| PInvalidField (field error_message : pystr)                          (* 336-340 *)
| PProcessCompleted (stdout stderr : option bytes) (returncode : Z)    (* 342-347 *)
| PProcessError (message : pystr)                                      (* 349-352 *)
| PProcessRun (command : list pystr) (stdin : option bytes) (capture_output : bool)
    (user group umask cwd : option pystr)                              (* 354-363 *)
| PStatResult (type : pystr) (mode : Z) (owner group : pystr) (size mtime ctime : Z)
    (sha512sum : option bytes)                                         (* 424-434 *)
| PStat (path : pystr) (follow_links sha512sum : bool)                 (* 436-441 *)
| PResolveResult (value : pystr)                                       (* 490-493 *)
| PResolveUser (user : option pystr)                                   (* 495-501 *)
| PResolveGroup (group : option pystr)                                 (* 520-526 *)
| PUpload (file : pystr) (content : bytes) (mode owner group : option pystr) (* 545-554 *)
| PDownloadResult (content : bytes)                                    (* 591-594 *)
| PDownload (file : pystr)                                             (* 596-601 *)
| PUserEntry (name : pystr) (uid : Z) (group : pystr) (gid : Z) (groups : list pystr)
    (password_hash : option pystr) (gecos home shell : pystr)          (* 616-636 *)
| PQueryUser (user : pystr) (query_password_hash : bool)               (* 638-644 *)
| PGroupEntry (name : pystr) (gid : Z) (members : list pystr)          (* 682-690 *)
| PQueryGroup (group : pystr)                                          (* 692-696 *)
| PEnvironVar (value : option pystr)                                   (* 713-717 *)
| PGetenv (key : pystr).                                               (* 719-723 *)

Global Instance packet_eq_dec : EqDecision packet.
Proof. solve_decision. Defined.

(** [packet_id = u32(len(packets))] at registration, 285 *)
Definition pid (p : packet) : N :=
  match p with
  | POk => 0 | PAck => 1 | PCheckAlive => 2 | PExit => 3 | POSError _ _ _ => 4
  | PInvalidField _ _ => 5 | PProcessCompleted _ _ _ => 6 | PProcessError _ => 7
  | PProcessRun _ _ _ _ _ _ _ => 8 | PStatResult _ _ _ _ _ _ _ _ => 9 | PStat _ _ _ => 10
  | PResolveResult _ => 11 | PResolveUser _ => 12 | PResolveGroup _ => 13 | PUpload _ _ _ _ _ => 14
  | PDownloadResult _ => 15 | PDownload _ => 16 | PUserEntry _ _ _ _ _ _ _ _ _ => 17
  | PQueryUser _ _ => 18 | PGroupEntry _ _ _ => 19 | PQueryGroup _ => 20 | PEnvironVar _ => 21
  | PGetenv _ => 22
  end%N.

(** The annotations of the packet class with the given id; [None]: unknown id. *)
Definition schema (i : N) : option (list vtype) :=
  match i with
  | 0 | 1 | 2 | 3 => Some []
  | 4 => Some [TI64; TStr; TStr]
  | 5 => Some [TStr; TStr]
  | 6 => Some [TOpt TBytes; TOpt TBytes; TI32]
  | 7 => Some [TStr]
  | 8 => Some [TList TStr; TOpt TBytes; TBool; TOpt TStr; TOpt TStr; TOpt TStr; TOpt TStr]
  | 9 => Some [TStr; TU64; TStr; TStr; TU64; TU64; TU64; TOpt TBytes]
  | 10 => Some [TStr; TBool; TBool]
  | 11 => Some [TStr]
  | 12 | 13 => Some [TOpt TStr]
  | 14 => Some [TStr; TBytes; TOpt TStr; TOpt TStr; TOpt TStr]
  | 15 => Some [TBytes]
  | 16 => Some [TStr]
  | 17 => Some [TStr; TI64; TStr; TI64; TList TStr; TOpt TStr; TStr; TStr; TStr]
  | 18 => Some [TStr; TBool]
  | 19 => Some [TStr; TI64; TList TStr]
  | 20 => Some [TStr]
  | 21 => Some [TOpt TStr]
  | 22 => Some [TStr]
  | _ => None
  end%N.

Definition ostr (o : option pystr) : value := match o with Some s => VStr s | None => VNone end.
Definition obytes (o : option bytes) : value := match o with Some s => VBytes s | None => VNone end.
Definition strs (l : list pystr) : value := VList (List.map VStr l).

(** [getattr(this, f) for f in cls._fields] *)
Definition pfields (p : packet) : list value :=
  match p with
  | POk | PAck | PCheckAlive | PExit => []
  | POSError n s m => [VInt n; VStr s; VStr m]
  | PInvalidField f m => [VStr f; VStr m]
  | PProcessCompleted o e rc => [obytes o; obytes e; VInt rc]
  | PProcessError m => [VStr m]
  | PProcessRun c i o u g m w => [strs c; obytes i; VBool o; ostr u; ostr g; ostr m; ostr w]
  | PStatResult t m o g s mt ct h => [VStr t; VInt m; VStr o; VStr g; VInt s; VInt mt; VInt ct; obytes h]
  | PStat p f h => [VStr p; VBool f; VBool h]
  | PResolveResult v => [VStr v]
  | PResolveUser u => [ostr u]
  | PResolveGroup g => [ostr g]
  | PUpload f c m o g => [VStr f; VBytes c; ostr m; ostr o; ostr g]
  | PDownloadResult c => [VBytes c]
  | PDownload f => [VStr f]
  | PUserEntry n u g gi gs ph ge h s =>
      [VStr n; VInt u; VStr g; VInt gi; strs gs; ostr ph; VStr ge; VStr h; VStr s]
  | PQueryUser u q => [VStr u; VBool q]
  | PGroupEntry n g ms => [VStr n; VInt g; strs ms]
  | PQueryGroup g => [VStr g]
  | PEnvironVar v => [ostr v]
  | PGetenv k => [VStr k]
  end.

Definition to_ostr (v : value) : option (option pystr) :=
  match v with VStr s => Some (Some s) | VNone => Some None | _ => None end.
Definition to_obytes (v : value) : option (option bytes) :=
  match v with VBytes s => Some (Some s) | VNone => Some None | _ => None end.
Definition to_str (v : value) : option pystr := match v with VStr s => Some s | _ => None end.
Definition to_strs (v : value) : option (list pystr) :=
  match v with VList l => mapM to_str l | _ => None end.

(** Calling the class with the read fields, 262.  [None] cannot happen after reading along the schema (proved). *)
Definition of_fields (i : N) (l : list value) : option packet :=
  match i, l with
  | 0, [] => Some POk
  | 1, [] => Some PAck
  | 2, [] => Some PCheckAlive
  | 3, [] => Some PExit
  | 4, [VInt n; VStr s; VStr m] => Some (POSError n s m)
  | 5, [VStr f; VStr m] => Some (PInvalidField f m)
  | 6, [o; e; VInt rc] => o ← to_obytes o; e ← to_obytes e; Some (PProcessCompleted o e rc)
  | 7, [VStr m] => Some (PProcessError m)
  | 8, [c; i; VBool o; u; g; m; w] =>
      c ← to_strs c; i ← to_obytes i; u ← to_ostr u; g ← to_ostr g; m ← to_ostr m; w ← to_ostr w;
      Some (PProcessRun c i o u g m w)
  | 9, [VStr t; VInt m; VStr o; VStr g; VInt s; VInt mt; VInt ct; h] =>
      h ← to_obytes h; Some (PStatResult t m o g s mt ct h)
  | 10, [VStr p; VBool f; VBool h] => Some (PStat p f h)
  | 11, [VStr v] => Some (PResolveResult v)
  | 12, [u] => u ← to_ostr u; Some (PResolveUser u)
  | 13, [g] => g ← to_ostr g; Some (PResolveGroup g)
  | 14, [VStr f; VBytes c; m; o; g] =>
      m ← to_ostr m; o ← to_ostr o; g ← to_ostr g; Some (PUpload f c m o g)
  | 15, [VBytes c] => Some (PDownloadResult c)
  | 16, [VStr f] => Some (PDownload f)
  | 17, [VStr n; VInt u; VStr g; VInt gi; gs; ph; VStr ge; VStr h; VStr s] =>
      gs ← to_strs gs; ph ← to_ostr ph; Some (PUserEntry n u g gi gs ph ge h s)
  | 18, [VStr u; VBool q] => Some (PQueryUser u q)
  | 19, [VStr n; VInt g; ms] => ms ← to_strs ms; Some (PGroupEntry n g ms)
  | 20, [VStr g] => Some (PQueryGroup g)
  | 21, [v] => v ← to_ostr v; Some (PEnvironVar v)
  | 22, [VStr k] => Some (PGetenv k)
  | _, _ => None
  end%N.

(** The field names of each class. *)
Definition field_names (p : packet) : list pystr :=
  List.map lit
  match p with
  | POk | PAck | PCheckAlive | PExit => []
  | POSError _ _ _ => ["errno"; "strerror"; "msg"]
  | PInvalidField _ _ => ["field"; "error_message"]
  | PProcessCompleted _ _ _ => ["stdout"; "stderr"; "returncode"]
  | PProcessError _ => ["message"]
  | PProcessRun _ _ _ _ _ _ _ => ["command"; "stdin"; "capture_output"; "user"; "group"; "umask"; "cwd"]
  | PStatResult _ _ _ _ _ _ _ _ => ["type"; "mode"; "owner"; "group"; "size"; "mtime"; "ctime"; "sha512sum"]
  | PStat _ _ _ => ["path"; "follow_links"; "sha512sum"]
  | PResolveResult _ => ["value"]
  | PResolveUser _ => ["user"]
  | PResolveGroup _ => ["group"]
  | PUpload _ _ _ _ _ => ["file"; "content"; "mode"; "owner"; "group"]
  | PDownloadResult _ => ["content"]
  | PDownload _ => ["file"]
  | PUserEntry _ _ _ _ _ _ _ _ _ => ["name"; "uid"; "group"; "gid"; "groups"; "password_hash"; "gecos"; "home"; "shell"]
  | PQueryUser _ _ => ["user"; "query_password_hash"]
  | PGroupEntry _ _ _ => ["name"; "gid"; "members"]
  | PQueryGroup _ => ["group"]
  | PEnvironVar _ => ["value"]
  | PGetenv _ => ["key"]
  end%string.

(** Attributes every python object has; [getattr(None, f)] finds only these. *)
Definition object_attrs : list pystr :=
  List.map lit
  ["__class__"; "__delattr__"; "__dir__"; "__doc__"; "__eq__"; "__format__"; "__ge__";
   "__getattribute__"; "__gt__"; "__hash__"; "__init__"; "__init_subclass__"; "__le__"; "__lt__";
   "__ne__"; "__new__"; "__reduce__"; "__reduce_ex__"; "__repr__"; "__setattr__"; "__sizeof__";
   "__str__"; "__subclasshook__"; "__bool__"]%string.

(** Whether [getattr(request, f)] finds something.  Simplification: of the attributes that a NamedTuple
    has besides its fields only those of [object] are listed. *)
Definition has_attr (request : option packet) (f : pystr) : bool :=
  str_in f object_attrs || match request with Some p => str_in f (field_names p) | None => false end.

(** tunnel_dispatcher.py:264-269 [_write_packet] and 177-183 [write_packet]. *)
Fixpoint ser_fields (ts : list vtype) (vs : list value) : bytes * option exn :=
  match ts, vs with
  | t :: ts', v :: vs' => wseq (serialize t v) (fun _ => ser_fields ts' vs')
  | _, _ => ([], None)
  end.
Definition write_packet (p : packet) : bytes * option exn :=
  wseq (serialize TU32 (VInt (Z.of_N (pid p)))) (fun _ =>
    ser_fields (default [] (schema (pid p))) (pfields p)).

(** What [receive_packet] does with a packet that has been read, 763-768. *)
Definition deliver (request : option packet) (p : packet) : result packet :=
  match p with
  | POSError n s m => Err (RemoteOSError n s m)
  | PInvalidField f m =>
      if has_attr request f
      then Err (ValueError (lit "Invalid value given for field '" ++ f ++ lit "': " ++ m))
      else Err AttributeError
  | p => Ok p
  end.

Section receive.
  Context {S : Type} (rd : N -> S -> bytes * S) (remaining : S -> nat).

  Definition read_packet (s : S) : result packet * S :=
    match unpack rd 4 s with
    | (Err e, s') => (Err e, s')
    | (Ok i, s') =>
        match schema (Z.to_N i) with
        | None => (Err (IOErr (lit "Received invalid packet id")), s')
        | Some ts =>
            match deser_fields rd remaining ts s' with
            | (Err e, s'') => (Err e, s'')
            | (Ok vs, s'') =>
                match of_fields (Z.to_N i) vs with
                | Some p => (Ok p, s'')
                | None => (Err TypeError, s'')
                end
            end
        end
    end.

  (** tunnel_dispatcher.py:729-772 [receive_packet]: struct.error becomes IOError. *)
  Definition receive_gen (request : option packet) (s : S) : result packet * S :=
    match read_packet s with
    | (Ok p, s') => (deliver request p, s')
    | (Err StructError, s') => (Err (IOErr (lit "Unexpected EOF in data stream")), s')
    | (Err e, s') => (Err e, s')
    end.
End receive.

Definition receive_packet (request : option packet) (cs : list bytes) : result packet * list bytes :=
  receive_gen chunk_read chunks_remaining request cs.
