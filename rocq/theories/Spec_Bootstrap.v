(** What starting the dispatcher means, independent of how the command is built. *)
From Verif Require Import Base Sh.

(** the bytes of a text, as they are given to a program; only for ASCII *)
Definition of_bytes (l : bytes) : list N := List.map b2n l.

(** RFC 4648: the value of a character, most significant bit first *)
Definition alphabet : list N := lit "ABCDEFGHIJKLMNOPQRSTUVWXYZabcdefghijklmnopqrstuvwxyz0123456789+/".
Fixpoint position (c : N) (l : list N) : option N :=
  match l with
  | [] => None
  | x :: r => if (x =? c)%N then Some 0%N else N.succ <$> position c r
  end.
Definition bits (width : nat) (v : N) : list bool := List.map (fun i => N.testbit v (N.of_nat i)) (rev (seq 0 width)).
(** [text] is an encoding of [out]: up to newlines, characters of the alphabet and at most two signs of padding, four at a time;
    the bits of the characters are those of the octets, followed by less than eight zeros. *)
Definition encodes (text out : list N) : Prop := exists body vs n m,
  List.filter (fun c => negb (c =? 10)%N) text = body ++ replicate n 61%N /\ (n <= 2)%nat /\ Nat.modulo (length body + n) 4 = 0%nat /\
  Forall2 (fun c v => position c alphabet = Some v) body vs /\
  vs ≫= bits 6 = (out ≫= bits 8) ++ replicate m false /\ (m < 8)%nat /\ Forall (fun v => (v < 256)%N) out.

Section spec.
  Variable compress : bytes -> bytes.
  Variable program : list (list N) -> list N -> list N.

  (** a text that every echo prints as it is: no backslash, no option *)
  Definition printable (s : list N) : Prop := 92%N ∉ s /\ head s <> Some 45%N.
  Definition echo_works : Prop := forall s input, printable s -> program [lit "echo"; s] input = s ++ [10%N].
  Definition base64_works : Prop := forall text out, encodes text out -> program [lit "base64"; lit "-d"] text = out.
  (** the program "python" exists and its zlib undoes [compress] *)
  Definition inflate : list N := lit "import zlib,sys;sys.stdout.buffer.write(zlib.decompress(sys.stdin.buffer.read()))".
  Definition python_works : Prop := forall s, program [lit "python"; lit "-c"; inflate] (of_bytes (compress s)) = of_bytes s.
  (** there is no program of this name *)
  Definition no_program (name : list N) : Prop := forall args input, program (name :: args) input = [].
End spec.

(** The interpreter of python that a process is: the code it runs and [sys.argv]. *)
Inductive code := Inline (text : list N) | File (name : list N).
Definition python3 (argv : list (list N)) : option (code * list (list N)) :=
  match argv with
  | p :: a :: r =>
      if str_eqb p (lit "python3") then
        if str_eqb a (lit "-c") then match r with t :: args => Some (Inline t, lit "-c" :: args) | [] => None end
        else if startswith a (lit "-") then None else Some (File a, a :: r)
      else None
  | _ => None
  end.
(** env runs its first operand *)
Definition env_runs (argv : list (list N)) : option (list (list N)) :=
  match argv with
  | e :: p :: r => if str_eqb e (lit "env") && negb (startswith p (lit "-")) && negb (has_char 61 p) then Some (p :: r) else None
  | _ => None
  end.
(** What the remote does with the command line that ssh hands to it. *)
Definition remote_start (program : list (list N) -> list N -> list N) (command : list N) : option (code * list (list N)) :=
  argv ← launched program command; p ← env_runs argv; python3 p.
