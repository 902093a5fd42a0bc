(** Specifications for the wire format.  They speak about packets and bytes only, not about how
    the code produces them. *)
From Verif Require Import Base Utf8 Codec.

(** What the peer's [receive_packet(request)] is expected to do with a packet: error
    packets become exceptions, all others are returned as they are. *)
Inductive received_as (request : option packet) : packet -> result packet -> Prop :=
| rcv_oserror n s m :
    received_as request (POSError n s m) (Err (RemoteOSError n s m))
| rcv_invalid f m p : request = Some p -> f ∈ field_names p ->
    received_as request (PInvalidField f m)
      (Err (ValueError (lit "Invalid value given for field '" ++ f ++ lit "': " ++ m)))
| rcv_plain p : (forall n s m, p <> POSError n s m) -> (forall f m, p <> PInvalidField f m) ->
    received_as request p (Ok p).

(** A sequence of packets is sent as the given bytes, without any exception. *)
Inductive sent : list packet -> bytes -> Prop :=
| sent_nil : sent [] []
| sent_cons p ps b bs : write_packet p = (b, None) -> sent ps bs -> sent (p :: ps) (b ++ bs).

(** Text that python can encode: no surrogates, no code points beyond U+10FFFF. *)
Definition text_ok (s : pystr) : Prop :=
  Forall (fun c => c < 1114112 /\ ~ (55296 <= c <= 57343))%N s.
Definition in_i32 (z : Z) : Prop := (- 2 ^ 31 <= z < 2 ^ 31)%Z.
Definition in_i64 (z : Z) : Prop := (- 2 ^ 63 <= z < 2 ^ 63)%Z.
Definition in_u64 (z : Z) : Prop := (0 <= z < 2 ^ 64)%Z.
Definition opt_ok {A} (P : A -> Prop) (o : option A) : Prop :=
  match o with Some a => P a | None => True end.
(** sizes that fit into memory *)
Definition small {A} (l : list A) : Prop := (4 * N.of_nat (length l) < 2 ^ 63)%N.
Definition str_ok (s : pystr) : Prop := text_ok s /\ small s.

(** All fields hold values of their declared types. *)
Definition packet_ok (p : packet) : Prop :=
  match p with
  | POk | PAck | PCheckAlive | PExit => True
  | POSError n s m => in_i64 n /\ str_ok s /\ str_ok m
  | PInvalidField f m => str_ok f /\ str_ok m
  | PProcessCompleted o e rc => opt_ok small o /\ opt_ok small e /\ in_i32 rc
  | PProcessError m => str_ok m
  | PProcessRun c i _ u g m w =>
      small c /\ Forall str_ok c /\ opt_ok small i /\ opt_ok str_ok u /\ opt_ok str_ok g /\ opt_ok str_ok m /\ opt_ok str_ok w
  | PStatResult t m o g s mt ct h =>
      str_ok t /\ in_u64 m /\ str_ok o /\ str_ok g /\ in_u64 s /\ in_u64 mt /\ in_u64 ct /\ opt_ok small h
  | PStat p _ _ => str_ok p
  | PResolveResult v => str_ok v
  | PResolveUser u => opt_ok str_ok u
  | PResolveGroup g => opt_ok str_ok g
  | PUpload f c m o g => str_ok f /\ small c /\ opt_ok str_ok m /\ opt_ok str_ok o /\ opt_ok str_ok g
  | PDownloadResult c => small c
  | PDownload f => str_ok f
  | PUserEntry n u g gi gs ph ge h s =>
      str_ok n /\ in_i64 u /\ str_ok g /\ in_i64 gi /\ (small gs /\ Forall str_ok gs) /\ opt_ok str_ok ph /\ str_ok ge
      /\ str_ok h /\ str_ok s
  | PQueryUser u _ => str_ok u
  | PGroupEntry n g ms => str_ok n /\ in_i64 g /\ small ms /\ Forall str_ok ms
  | PQueryGroup g => str_ok g
  | PEnvironVar v => opt_ok str_ok v
  | PGetenv k => str_ok k
  end.

(** [v'] is what is left of [v] when its final bytes were lost. *)
Inductive truncated : value -> value -> Prop :=
| trunc_bytes x y : y <> [] -> truncated (VBytes (x ++ y)) (VBytes x)
| trunc_str x y : y <> [] -> truncated (VStr (x ++ y)) (VStr x)
| trunc_last l v v' : truncated v v' -> truncated (VList (l ++ [v])) (VList (l ++ [v'])).

(** [q] is [p] with its last field truncated. *)
Definition packet_truncated (p q : packet) : Prop :=
  pid p = pid q /\
  exists fs v v', pfields p = fs ++ [v] /\ pfields q = fs ++ [v'] /\ truncated v v'.

(** Packets whose last field has a fixed width. *)
Definition fixed_end (p : packet) : Prop :=
  match p with
  | POk | PAck | PCheckAlive | PExit | PProcessCompleted _ _ _ | PStat _ _ _ | PQueryUser _ _
  | PResolveUser None | PResolveGroup None | PProcessRun _ _ _ _ _ _ None | PUpload _ _ _ _ None
  | PStatResult _ _ _ _ _ _ _ None | PEnvironVar None | PGroupEntry _ _ [] => True
  | _ => False
  end.
