(** Specification of a conversation with a remote host: handlers are called one after the other on the state of the remote. *)
From stdpp Require Import gmap.
From Verif Require Import Base Utf8 Codec Spec_Codec Paths Sys Dispatcher Client.

(** The packets that the methods of the connector send. *)
Definition is_request (p : packet) : Prop :=
  match p with
  | PCheckAlive | PExit | PProcessRun _ _ _ _ _ _ _ | PStat _ _ _ | PResolveUser _ | PResolveGroup _ | PUpload _ _ _ _ _
  | PDownload _ | PQueryUser _ _ | PQueryGroup _ | PGetenv _ => True
  | _ => False
  end.
(** commands do not get the connection as their output *)
Definition captured (p : packet) : Prop :=
  match p with PProcessRun _ _ c _ _ _ _ => c = true | _ => True end.
Definition encodable (p : packet) : Prop := exists b, write_packet p = (b, None).
Definition good_request (p : packet) : Prop := is_request p /\ captured p /\ encodable p.

Section spec.
  Variable exec : proc -> M xres.
  Variable sha512 : bytes -> bytes.

  (** One call: whether the dispatcher is alive, the state of the remote, the request, the result, and both afterwards. *)
  Inductive call : bool -> os -> packet -> result packet -> bool -> os -> Prop :=
  | call_answer s q r s' x :
      handle exec sha512 q s = (Ok (Reply [] r), s') -> encodable r -> received_as (Some q) r x ->
      call true s q x true s'
  | call_oserror s q n a b s' :
      handle exec sha512 q s = (Err (OSErr n a b), s') -> encodable (POSError n a b) ->
      call true s q (Err (RemoteOSError n a b)) true s'
  | call_unsendable s q r s' :
      handle exec sha512 q s = (Ok (Reply [] r), s') -> ~ encodable r ->
      call true s q (Err eof) false s'
  | call_unsendable_oserror s q n a b s' :
      handle exec sha512 q s = (Err (OSErr n a b), s') -> ~ encodable (POSError n a b) ->
      call true s q (Err eof) false s'
  | call_exit s q s' :
      handle exec sha512 q s = (Ok CloseNow, s') ->
      call true s q (Err eof) false s'
  | call_crash s q e s' :
      handle exec sha512 q s = (Err e, s') -> (forall n a b, e <> OSErr n a b) ->
      call true s q (Err eof) false s'
  | call_blocked s q s' :
      handle exec sha512 q s = (Ok NeverEnds, s') ->
      call true s q (Err Blocked) false s'
  | call_dead s q :
      call false s q (Err eof) false s.

  Inductive calls : bool -> os -> list packet -> list (result packet) -> bool -> os -> Prop :=
  | calls_nil a s : calls a s [] [] a s
  | calls_cons a s q x a' s' qs xs a'' s'' :
      call a s q x a' s' -> calls a' s' qs xs a'' s'' -> calls a s (q :: qs) (x :: xs) a'' s''.

  (** A conversation over the byte streams, each request with its own fragmentation in both directions. *)
  Fixpoint talk (l : list ((bytes -> list bytes) * (bytes -> list bytes) * packet)) (ss : session) : list (result packet) * session :=
    match l with
    | [] => ([], ss)
    | (c1, c2, q) :: r =>
        let '(x, ss') := request_bytes exec sha512 c1 c2 q ss in
        let '(xs, ss'') := talk r ss' in
        (x :: xs, ss'')
    end.
End spec.

Definition fragmentation (c : bytes -> list bytes) : Prop := forall b, List.concat (c b) = b.
(** A connection that was just opened. *)
Definition fresh (s : os) : session := Session s [] [] [] Running.
