(** A terminal: rows of a width, on which characters are written one after another.  Each character takes one column. *)
From stdpp Require Import list.
From Verif Require Import Base Spec_Table.
Local Open Scope nat_scope.

(** The rows above, the row with the cursor, the column of the cursor. *)
Record screen := Screen { above : list pystr; row : pystr; column : nat }.
Definition blank : screen := Screen [] [] 0.
(** A line feed starts a new row (the tty adds the carriage return), a carriage return goes to the start of the row, and a
    character behind the last column goes to a new row. *)
Definition put (width : nat) (s : screen) (c : N) : screen :=
  if (c =? 10)%N then Screen (above s ++ [row s]) [] 0
  else if (c =? 13)%N then Screen (above s) (row s) 0
  else if column s =? width then Screen (above s ++ [row s]) [c] 1
  else Screen (above s) (take (column s) (row s) ++ c :: drop (S (column s)) (row s)) (S (column s)).
(** The screen after a text: control sequences set colours only. *)
Definition put_all (width : nat) (s : screen) (t : pystr) : screen := foldl (put width) s t.
Definition screen_of (width : nat) (t : pystr) : screen := put_all width blank (seen t).
Definition rows (width : nat) (t : pystr) : list pystr := above (screen_of width t) ++ [row (screen_of width t)].

(** The title of an operation, as one sees it. *)
Fixpoint indentation (colours : bool) (level : nat) : pystr :=
  match level with
  | O => []
  | S n => indentation colours n ++ (if colours then [if Nat.even n then 9474 else 9589] else [32])%N ++ [32]%N
  end.
Definition heading (colours dry : bool) (level : nat) (op_name description : pystr) (name : option pystr) : pystr :=
  indentation colours level ++ op_name ++ (if dry then lit " (dry)" else []) ++ lit " " ++ description ++
  match name with Some n => lit " (" ++ n ++ lit ")" | None => [] end.
(** A text that moves the cursor only by its length. *)
Definition printable (s : pystr) : Prop := 27%N ∉ s /\ 10%N ∉ s /\ 13%N ∉ s.
