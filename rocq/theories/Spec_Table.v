(** What one sees of a table on a terminal. *)
From Verif Require Import Base.
Local Open Scope nat_scope.

(** The text that is seen: control sequences (ECMA-48: ESC, "[", parameters, a final byte) are not. *)
Inductive mode := Plain | Escape | Sequence.
Fixpoint seen_in (m : mode) (s : pystr) : pystr :=
  match s with
  | [] => []
  | c :: r =>
      match m with
      | Plain => if (c =? 27)%N then seen_in Escape r else c :: seen_in Plain r
      | Escape => if (c =? 91)%N then seen_in Sequence r else seen_in Plain r
      | Sequence => if ((64 <=? c) && (c <=? 126))%N then seen_in Plain r else seen_in Sequence r
      end
  end.
Definition seen : pystr -> pystr := seen_in Plain.

(** A piece of a cell: a colour, or a text without ESC. *)
Definition colour (s : pystr) : Prop := exists p, s = [27; 91]%N ++ p ++ [109]%N /\ Forall (fun c => (48 <= c <= 63)%N) p.
Definition piece (s : pystr) : Prop := colour s \/ 27%N ∉ s.
Definition cell_ok (cell : list pystr) : Prop := Forall piece cell.
Definition cell_text (cell : list pystr) : pystr := seen (List.concat cell).

(** A row: the texts, filled up with spaces to the widths of the columns, with bars between. *)
Definition filled (w : nat) (t : pystr) : pystr := t ++ replicate (w - length t) 32%N.
Inductive row_of : list nat -> list (list pystr) -> pystr -> Prop :=
| row_last w c : row_of [w] [c] (filled w (cell_text c))
| row_more w c ws cs l : row_of ws cs l -> row_of (w :: ws) (c :: cs) (filled w (cell_text c) ++ [32; 9474; 32]%N ++ l).
(** The rule below the header. *)
Inductive rule_of : list nat -> pystr -> Prop :=
| rule_last w : rule_of [w] (replicate w 9472%N)
| rule_more w ws l : rule_of ws l -> rule_of (w :: ws) (replicate w 9472%N ++ [9472; 9532; 9472]%N ++ l).

(** The positions of the bars of a line, and when lines are aligned. *)
Definition is_bar (c : N) : bool := ((c =? 9474) || (c =? 9532))%N.
Fixpoint bars (at_ : nat) (s : pystr) : list nat :=
  match s with
  | [] => []
  | c :: r => if is_bar c then at_ :: bars (S at_) r else bars (S at_) r
  end.
Definition aligned (lines : list pystr) : Prop := exists ps n, Forall (fun l => bars 0 l = ps /\ length l = n) lines.

Definition fits_cell (c : list pystr) (b : Z) : Prop := (Z.of_nat (length (cell_text c)) <= b)%Z.
Definition total (l : list Z) : Z := foldr Z.add 0%Z l.
(** The share of the column [i] of [n] columns on a terminal of width [t]: the rest of the line, if each of the columns to its
    right took t/n; but at most 40. *)
Definition share (t : Z) (n i : nat) : Z := Z.min 40 (t - 3 * (Z.of_nat n - 1) - (Z.of_nat n - Z.of_nat i - 1) * (t / Z.of_nat n)).
