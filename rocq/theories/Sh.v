(** The part of a POSIX shell that the bootstrap command of the ssh connector needs: a model of the environment, not of code
    in /repo.  Texts are lists of byte values.  Whatever is outside of this part has no meaning here ([None]),
    except that reserved words are taken for programs. *)
From Verif Require Import Base.

(** a word is made of literal text and of command substitutions in double quotes *)
Inductive piece := Text (s : list N) | Subst (command : list N).
Inductive token := Word (ps : list piece) | Bar.

Inductive state :=
| Bare (word : option (list piece))
| Single (before : list piece) (s : list N)
| Double (before : list piece) (s : list N)
| Dollar (before : list piece) (s : list N)
| Inside (before : list piece) (command : list N) (quoted : bool).

(** characters without any special meaning outside of quotes: letters, digits and % + , - . / : @ ^ _
    (and those outside of ASCII) *)
Definition ordinary (c : N) : bool :=
  ((48 <=? c) && (c <=? 57) || (64 <=? c) && (c <=? 90) || (97 <=? c) && (c <=? 122) || (c =? 37) || (43 <=? c) && (c <=? 47) ||
   (c =? 58) || (c =? 94) || (c =? 95) || (128 <=? c))%N.
Definition before (word : option (list piece)) : list piece := match word with Some ps => ps | None => [] end.
Definition flush (word : option (list piece)) : list token := match word with Some ps => [Word ps] | None => [] end.

Fixpoint lex (st : state) (l : list N) : option (list token) :=
  match l with
  | [] => match st with Bare w => Some (flush w) | _ => None end
  | c :: r =>
      match st with
      | Bare w =>
          if (c =? 32)%N then app (flush w) <$> lex (Bare None) r
          else if (c =? 124)%N then app (flush w ++ [Bar]) <$> lex (Bare None) r
          else if (c =? 39)%N then lex (Single (before w) []) r
          else if (c =? 34)%N then lex (Double (before w) []) r
          else if ordinary c then lex (Bare (Some (before w ++ [Text [c]]))) r
          else None
      | Single b s => if (c =? 39)%N then lex (Bare (Some (b ++ [Text s]))) r else lex (Single b (s ++ [c])) r
      | Double b s =>
          if (c =? 34)%N then lex (Bare (Some (b ++ [Text s]))) r
          else if (c =? 36)%N then lex (Dollar b s) r
          else if (c =? 92)%N || (c =? 96)%N then None
          else lex (Double b (s ++ [c])) r
      | Dollar b s => if (c =? 40)%N then lex (Inside (b ++ [Text s]) [] false) r else None
      | Inside b s true => lex (Inside b (s ++ [c]) (negb (c =? 39)%N)) r
      | Inside b s false =>
          if (c =? 41)%N then lex (Double (b ++ [Subst s]) []) r
          else if (c =? 39)%N then lex (Inside b (s ++ [c]) true) r
          else if ordinary c || (c =? 32)%N || (c =? 124)%N then lex (Inside b (s ++ [c]) false) r
          else None
      end
  end.

(** the commands of a pipeline *)
Fixpoint stages (l : list token) : list (list (list piece)) :=
  match l with
  | [] => [[]]
  | Bar :: r => [] :: stages r
  | Word w :: r => match stages r with x :: xs => (w :: x) :: xs | [] => [[w]] end
  end.

(** what a command substitution makes of the output: NUL bytes and trailing newlines are dropped *)
Fixpoint drop_newlines (l : list N) : list N := match l with 10%N :: r => drop_newlines r | _ => l end.
Definition substituted (out : list N) : list N :=
  rev (drop_newlines (rev (List.filter (fun c => negb (c =? 0)%N) out))).

Section sh.
  (** What a program writes to its standard output, given its arguments (with its name) and its standard input.  Nothing if there
      is no such program. *)
  Variable program : list (list N) -> list N -> list N.

  Section run.
    Variable inner : list N -> option (list N).
    Definition expand_piece (p : piece) : option (list N) :=
      match p with Text s => Some s | Subst c => substituted <$> inner c end.
    Definition expand (w : list piece) : option (list N) := List.concat (A:=N) <$> mapM expand_piece w.
    Definition pipe (input : option (list N)) (stage : list (list piece)) : option (list N) :=
      match stage with
      | [] => None
      | _ => i ← input; argv ← mapM expand stage; Some (program argv i)
      end.
  End run.
  (** the output of a pipeline; [depth] bounds the nesting of substitutions *)
  Fixpoint output (depth : nat) (text : list N) : option (list N) :=
    match depth with
    | O => None
    | S d => toks ← lex (Bare None) text; foldl (pipe (output d)) (Some []) (stages toks)
    end.
  (** the program that takes the place of the shell: the text must be a single command *)
  Definition launched (text : list N) : option (list (list N)) :=
    toks ← lex (Bare None) text;
    match stages toks with
    | [(_ :: _) as words] => mapM (expand (output (length text))) words
    | _ => None
    end.
End sh.
