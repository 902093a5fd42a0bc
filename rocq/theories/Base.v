(** Python values used throughout the model: strings, bytes, exceptions and
    the few builtin functions on them that fora relies on. *)
From Coq Require Export NArith ZArith Ascii String.
From stdpp Require Export prelude strings.
Open Scope list_scope.

(** A python [str] is a list of code points.  Lone surrogates are allowed, as in python. *)
Notation pystr := (list N).
(** Python [bytes]. *)
Notation byte := Ascii.ascii.
Notation bytes := (list Ascii.ascii).

Definition b2n (b : byte) : N := N_of_ascii b.
Definition n2b (n : N) : byte := ascii_of_N n.

(** Literals. *)
Definition lit (x : string) : pystr := List.map N_of_ascii (list_ascii_of_string x).
Global Arguments lit : simpl never.
Definition blit (x : string) : bytes := list_ascii_of_string x.

(** Exceptions.  The constructors are the classes which the code distinguishes.
    Message texts are kept only where some code inspects them; f-string interpolations
    are dropped. *)
Inductive exn :=
| ValueError (msg : pystr)
| UnicodeEncodeError            (* subclass of ValueError *)
| UnicodeDecodeError            (* subclass of ValueError *)
| CycleError (cycle : list pystr) (* utils.py:37-42, subclass of ValueError *)
| IOErr (msg : pystr)           (* IOError/OSError raised by python code itself *)
| OSErr (errno : Z) (strerror : pystr) (msg : pystr)  (* OSError of a system call *)
| RemoteOSError (errno : Z) (strerror : pystr) (msg : pystr) (* tunnel_dispatcher.py:42-47, NOT an OSError *)
| StructError                   (* struct.error *)
| SubprocessError (msg : pystr)
| CalledProcessError (rc : Z) (out err : option bytes) (cmd : list pystr)
| OperationError (msg : pystr)  (* operations/api.py *)
| FatalError (msg : pystr)      (* utils.py:24-28 *)
| RuntimeError (msg : pystr)
| AttributeError | TypeError | KeyError | IndexError | OverflowError | AssertionError
| SystemExit (code : Z)         (* BaseException, not Exception *)
| UserExn (n : N)               (* any other exception raised by user code *)
| Blocked                       (* artefact of the model: the call never returns *)
| OutOfFuel.                    (* artefact of the model, never produced: proved *)

Global Instance exn_eq_dec : EqDecision exn.
Proof. solve_decision. Defined.

(** [except ValueError] *)
Definition is_ValueError (e : exn) : bool :=
  match e with
  | ValueError _ | UnicodeEncodeError | UnicodeDecodeError | CycleError _ => true
  | _ => false
  end.
(** [except OSError] / [except IOError] (the same class in python 3) *)
Definition is_OSError (e : exn) : bool :=
  match e with IOErr _ | OSErr _ _ _ => true | _ => false end.
(** [except Exception] *)
Definition is_Exception (e : exn) : bool :=
  match e with SystemExit _ | Blocked => false | _ => true end.

Inductive result (A : Type) := Ok (a : A) | Err (e : exn).
Arguments Ok {A} a.
Arguments Err {A} e.

Global Instance result_ret : MRet result := fun A a => Ok a.
Global Instance result_bind : MBind result := fun A B f m =>
  match m with Ok a => f a | Err e => Err e end.
Global Instance result_fmap : FMap result := fun A B f m =>
  match m with Ok a => Ok (f a) | Err e => Err e end.
Global Instance result_eq_dec `{EqDecision A} : EqDecision (result A).
Proof. solve_decision. Defined.

Definition is_ok {A} (r : result A) : bool := match r with Ok _ => true | _ => false end.
Definition from_option {A} (e : exn) (o : option A) : result A :=
  match o with Some a => Ok a | None => Err e end.

(** * Strings *)

Definition str_eqb (a b : pystr) : bool := bool_decide (a = b).

Fixpoint startswith (s p : pystr) : bool :=
  match p, s with
  | [], _ => true
  | c :: p', d :: s' => (c =? d)%N && startswith s' p'
  | _ :: _, [] => false
  end.
Definition endswith (s p : pystr) : bool := startswith (rev s) (rev p).

(** [c in s] for a single character *)
Definition has_char (c : N) (s : pystr) : bool := existsb (N.eqb c) s.

(** [s.find(c)], [None] for -1 *)
Fixpoint find_char (c : N) (s : pystr) : option nat :=
  match s with
  | [] => None
  | d :: s' => if (d =? c)%N then Some 0%nat else S <$> find_char c s'
  end.

(** [s.split(c)] for a single character separator (never empty) *)
Fixpoint split_char (c : N) (s : pystr) : list pystr :=
  match s with
  | [] => [[]]
  | d :: s' =>
      if (d =? c)%N then [] :: split_char c s'
      else match split_char c s' with
           | w :: ws => (d :: w) :: ws
           | [] => [[d]]
           end
  end.

(** [sep.join(l)] *)
Fixpoint join_str (sep : pystr) (l : list pystr) : pystr :=
  match l with
  | [] => []
  | [x] => x
  | x :: r => x ++ sep ++ join_str sep r
  end.

(** [str.isspace] for one character; exact list of CPython's [_PyUnicode_IsWhitespace]. *)
Definition is_space (c : N) : bool :=
  ((9 <=? c) && (c <=? 13) || (28 <=? c) && (c <=? 32) || (c =? 133) || (c =? 160)
   || (c =? 5760) || (8192 <=? c) && (c <=? 8202) || (c =? 8232) || (c =? 8233)
   || (c =? 8239) || (c =? 8287) || (c =? 12288))%N.

Fixpoint lstrip (s : pystr) : pystr :=
  match s with
  | c :: s' => if is_space c then lstrip s' else s
  | [] => []
  end.
Definition rstrip (s : pystr) : pystr := rev (lstrip (rev s)).
(** [s.strip()] *)
Definition strip (s : pystr) : pystr := rstrip (lstrip s).

(** Line boundaries of [str.splitlines] besides "\r\n". *)
Definition is_linebreak (c : N) : bool :=
  ((c =? 10) || (c =? 13) || (c =? 11) || (c =? 12) || (28 <=? c) && (c <=? 30)
   || (c =? 133) || (c =? 8232) || (c =? 8233))%N.

(** [s.splitlines()]: no empty string after a final line break. *)
Fixpoint splitlines (s : pystr) : list pystr :=
  match s with
  | [] => []
  | c :: s' =>
      if is_linebreak c then
        match s' with
        | d :: s'' => if ((c =? 13) && (d =? 10))%N then [] :: splitlines s''
                      else [] :: splitlines s'
        | [] => [[]]
        end
      else match splitlines s' with
           | w :: ws => (* the rest of this line *)
               (c :: w) :: ws
           | [] => [[c]]
           end
  end.

(** * Integers as text *)

Definition digit_val (c : N) : option N :=
  if ((48 <=? c) && (c <=? 57))%N then Some (c - 48)%N
  else if ((97 <=? c) && (c <=? 122))%N then Some (c - 87)%N
  else if ((65 <=? c) && (c <=? 90))%N then Some (c - 55)%N
  else None.

(** Digits with single underscores between them; [us] says that an underscore (or the
    end) is not allowed here. *)
Fixpoint parse_digits (base : N) (l : pystr) (acc : N) (us : bool) : option N :=
  match l with
  | [] => if us then None else Some acc
  | c :: r =>
      if (c =? 95)%N then if us then None else parse_digits base r acc true
      else match digit_val c with
           | Some d => if (d <? base)%N then parse_digits base r (acc * base + d)%N false else None
           | None => None
           end
  end.

(** Prefix handling of [int(s, 8)]: "0o"/"0O", optionally followed by one underscore. *)
Definition strip_oct_prefix (base : N) (l : pystr) : pystr :=
  match l with
  | a :: b :: r =>
      if ((base =? 8) && (a =? 48) && ((b =? 111) || (b =? 79)))%N then
        match r with
        | u :: r' => if (u =? 95)%N then r' else r
        | [] => r
        end
      else l
  | _ => l
  end.

(** [int(s, base)] for base 8 and 10; [None] is ValueError.
    Simplification: non-ASCII decimal digits, which python also accepts, are rejected. *)
Definition py_int (base : N) (s : pystr) : option Z :=
  let t := strip s in
  match t with
  | c :: r =>
      if (c =? 45)%N then (fun n => Z.opp (Z.of_N n)) <$> parse_digits base (strip_oct_prefix base r) 0 true
      else if (c =? 43)%N then Z.of_N <$> parse_digits base (strip_oct_prefix base r) 0 true
      else Z.of_N <$> parse_digits base (strip_oct_prefix base t) 0 true
  | [] => None
  end.

Fixpoint to_digits (fuel : nat) (base n : N) (acc : pystr) : pystr :=
  match fuel with
  | O => acc
  | S f =>
      let acc' := (48 + n mod base)%N :: acc in
      if (n <? base)%N then acc' else to_digits f base (n / base)%N acc'
  end.
(** digits of a number in base <= 10 *)
Definition show_N (base n : N) : pystr := to_digits (S (N.size_nat n)) base n [].

(** [str(z)] *)
Definition str_of_Z (z : Z) : pystr :=
  match z with
  | Zneg p => lit "-" ++ show_N 10 (Npos p)
  | _ => show_N 10 (Z.to_N z)
  end.
Definition str_of_N (n : N) : pystr := show_N 10 n.

(** [oct(z)[2:]]: for negative numbers the slice removes "-0". *)
Definition oct_tail (z : Z) : pystr :=
  match z with
  | Zneg p => lit "o" ++ show_N 8 (Npos p)
  | _ => show_N 8 (Z.to_N z)
  end.

(** * Dictionaries with insertion order *)
Section dict.
  Context {V : Type}.
  Fixpoint dget (k : pystr) (d : list (pystr * V)) : option V :=
    match d with
    | [] => None
    | (k', v) :: r => if str_eqb k k' then Some v else dget k r
    end.
  (** [d[k] = v]: keeps the position of an existing key, else appends *)
  Fixpoint dset (k : pystr) (v : V) (d : list (pystr * V)) : list (pystr * V) :=
    match d with
    | [] => [(k, v)]
    | (k', v') :: r => if str_eqb k k' then (k', v) :: r else (k', v') :: dset k v r
    end.
  Definition dhas (k : pystr) (d : list (pystr * V)) : bool :=
    match dget k d with Some _ => true | None => false end.
  (** [d.update(e)] *)
  Definition dupdate (d e : list (pystr * V)) : list (pystr * V) :=
    foldl (fun acc kv => dset kv.1 kv.2 acc) d e.
End dict.

Definition str_in (s : pystr) (l : list pystr) : bool := existsb (str_eqb s) l.

(** [list(dict.fromkeys(l))]: duplicates removed, first occurrence kept.  Used for
    [list(set(l))]: the order of a python set of strings is arbitrary (hash seed), which is
    treated as insertion order here; statements about order quantify over permutations. *)
Fixpoint dedup (l : list pystr) : list pystr :=
  match l with
  | [] => []
  | x :: r => x :: filter (fun y => y <> x) (dedup r)
  end.
