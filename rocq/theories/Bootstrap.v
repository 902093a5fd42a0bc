(** connectors/ssh.py, connectors/local.py: the command that starts the dispatcher; tunnel_dispatcher.py 774-782: its flags. *)
From Verif Require Import Base Urls.

(** [base64.b64encode]: three bytes at a time become four characters. *)
Definition b64_char (v : N) : N :=
  if (v <? 26)%N then (65 + v)%N else if (v <? 52)%N then (71 + v)%N else if (v <? 62)%N then (v - 4)%N
  else if (v =? 62)%N then 43%N else 47%N.
Fixpoint b64encode (l : bytes) : pystr :=
  match l with
  | [] => []
  | [a] => let a := b2n a in [b64_char (a / 4); b64_char (a mod 4 * 16); 61; 61]%N
  | [a; b] => let a := b2n a in let b := b2n b in
              [b64_char (a / 4); b64_char (a mod 4 * 16 + b / 16); b64_char (b mod 16 * 4); 61]%N
  | a :: b :: c :: r =>
      let a := b2n a in let b := b2n b in let c := b2n c in
      [b64_char (a / 4); b64_char (a mod 4 * 16 + b / 16); b64_char (b mod 16 * 4 + c / 64); b64_char (c mod 64)]%N ++ b64encode r
  end.

Section bootstrap.
  (** [zlib.compress(_, 9)] *)
  Variable compress : bytes -> bytes.

  (** connectors/ssh.py:45-50: the command line for the remote; [source] is the content of tunnel_dispatcher.py,
      [debug] is [fora.args.debug]. *)
  Definition ssh_remote_command (source : bytes) (debug : bool) : pystr :=
    lit "env python3 -c ""$(echo '" ++ b64encode (compress source) ++
    lit "' | base64 -d | python -c 'import zlib,sys;sys.stdout.buffer.write(zlib.decompress(sys.stdin.buffer.read()))')"" " ++
    (if debug then lit "--debug" else []).

  (** connectors/ssh.py:17-52 [__init__] and [command].  [opts] is [host.ssh_opts] if the host has it. *)
  Definition ssh_command (source : bytes) (debug : bool) (opts : option (list pystr)) (url : option pystr) (fallback : pystr) : list pystr :=
    [lit "ssh"] ++ match opts with Some l => l | None => [] end ++ [ssh_connect_url url fallback] ++ [ssh_remote_command source debug].
End bootstrap.

(** connectors/local.py:24-36 [command]; [file] is [os.path.realpath(td.__file__)] *)
Definition local_command (file : pystr) (debug : bool) : list pystr :=
  [lit "python3"; file] ++ (if debug then [lit "--debug"] else []).

(** tunnel_dispatcher.py:781: [debug], given [sys.argv] *)
Definition dispatcher_debug (argv : list pystr) : bool :=
  match argv with
  | _ :: a :: _ => str_eqb a (lit "--debug")
  | _ => false
  end.
