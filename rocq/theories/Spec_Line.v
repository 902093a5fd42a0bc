(** * What the lines of a file are, stated without the code of [files.line] *)
From stdpp Require Import list.
From Coq Require Import NArith.
From Verif Require Import Base Utf8.

(** A text without line break. *)
Definition breakless (l : pystr) : Prop := Forall (fun c => is_linebreak c = false) l.

(** [lines_of s ls]: the lines of the text [s] are [ls].  A line ends at a line break or at the end of the text; carriage
    return and line feed count as one line break; there is no line after the last line break. *)
Inductive lines_of : pystr -> list pystr -> Prop :=
| lines_none : lines_of [] []
| lines_last l : breakless l -> l <> [] -> lines_of l [l]
| lines_crlf l r ls : breakless l -> lines_of r ls -> lines_of (l ++ 13%N :: 10%N :: r) (l :: ls)
| lines_break l c r ls : breakless l -> is_linebreak c = true -> ~ (c = 13%N /\ head r = Some 10%N) ->
    lines_of r ls -> lines_of (l ++ c :: r) (l :: ls).

(** The lines of a file, whose bytes need not be text: every byte that is not part of a character is kept as it is. *)
Definition file_lines (b : bytes) (ls : list pystr) : Prop := lines_of (utf8_decode_esc b) ls.

(** A line of the file that counts as the wanted one: equal to it, up to white space around both if that is to be ignored. *)
Definition counts (ignore_whitespace : bool) (text l : pystr) : Prop :=
  if ignore_whitespace then strip text = strip l else text = l.

(** [without P ls ks]: [ks] are the members of [ls] that are not [P], in the same order. *)
Inductive without {A} (P : A -> Prop) : list A -> list A -> Prop :=
| without_none : without P [] []
| without_it l ls ks : P l -> without P ls ks -> without P (l :: ls) ks
| without_keep l ls ks : ~ P l -> without P ls ks -> without P (l :: ls) (l :: ks).

(** Lines as bytes, for files in which lines end with a line feed and nothing else. *)
Definition lf : ascii := n2b 10.
Definition lf_ended (rows : list bytes) : bytes := flat_map (fun l => l ++ [lf]) rows.
(** The rows of [b]; the last one may lack its line feed. *)
Definition rows_of (b : bytes) (rows : list bytes) : Prop :=
  Forall (fun l => lf ∉ l) rows /\ (b = lf_ended rows \/ (last rows <> Some [] /\ rows <> [] /\ b ++ [lf] = lf_ended rows)).
Definition lf_only (b : bytes) : Prop := forall c, c ∈ utf8_decode_esc b -> is_linebreak c = true -> c = 10%N.
