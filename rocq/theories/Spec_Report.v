(** What the report of an operation should tell. *)
From stdpp Require Import list.
From Verif Require Import Base Utf8 Op Spec_Op Spec_Table.
Local Open Scope nat_scope.

(** [t] stands for [s] in at most [w] characters: it is [s], or a beginning of it with an ellipsis. *)
Definition stands_for (w : nat) (s t : pystr) : Prop :=
  (length s <= w /\ t = s) \/ (w < length s /\ exists p, t = p ++ [8230]%N /\ p `prefix_of` s /\ length t = w).
Definition shown_as (short : bool) (w : nat) (s t : pystr) : Prop := if short then stands_for w s t else t = s.
(** The text of a value: strings as they are, bytes in hexadecimal, [other] of everything else. *)
Definition hexadecimal (b : bytes) : pystr :=
  List.concat (List.map (fun x => omap (fun i => lit "0123456789abcdef" !! i) [N.to_nat (b2n x / 16); N.to_nat (b2n x mod 16)]) b).
Definition text_of (other : pv -> pystr) (v : pv) : pystr := match v with VStr s => s | VBytes b => hexadecimal b | _ => other v end.
(** The entry for a key: "key: new", "key: old → new" or (if nothing changed) "key: value". *)
Definition entry_for (short : bool) (text : pv -> pystr) (k : pystr) (old new : pv) (t : pystr) : Prop := exists k' o n,
  shown_as short 12 k k' /\ shown_as short 9 (text old) o /\ shown_as short (match old with VNone => 21 | _ => 9 end) (text new) n /\
  ((same old new /\ t = k' ++ lit ": " ++ o) \/
   (~ same old new /\ old = VNone /\ t = k' ++ lit ": " ++ n) \/
   (~ same old new /\ old <> VNone /\ t = k' ++ lit ": " ++ o ++ [32; 8594; 32]%N ++ n)).

(** The keys that are reported: those with a final value that is new; all with a final value if [all]. *)
Definition reported (all : bool) (initial : state) (kv : pystr * pv) : Prop :=
  kv.2 <> VNone /\ (all = true \/ forall old, (kv.1, old) ∈ initial -> ~ same old kv.2).
Inductive those {A} (P : A -> Prop) : list A -> list A -> Prop :=
| those_nil : those P [] []
| those_in x l k : P x -> those P l k -> those P (x :: l) (x :: k)
| those_out x l k : ~ P x -> those P l k -> those P (x :: l) k.

(** Edits of a list of lines. *)
Inductive edit := Keep (l : bytes) | Del (l : bytes) | Add (l : bytes).
Definition before (s : list edit) : list bytes := omap (fun e => match e with Keep l | Del l => Some l | Add _ => None end) s.
Definition after (s : list edit) : list bytes := omap (fun e => match e with Keep l | Add l => Some l | Del _ => None end) s.
Definition removed (s : list edit) : list bytes := omap (fun e => match e with Del l => Some l | _ => None end) s.
Definition added (s : list edit) : list bytes := omap (fun e => match e with Add l => Some l | _ => None end) s.
(** A unified diff of an edit: all removed and added lines, some of those kept, and headers of hunks. *)
Inductive hunks : list edit -> list bytes -> Prop :=
| hunks_nil : hunks [] []
| hunks_skip x s l : hunks s l -> hunks (Keep x :: s) l
| hunks_keep x s l : hunks s l -> hunks (Keep x :: s) ((blit " " ++ x) :: l)
| hunks_del x s l : hunks s l -> hunks (Del x :: s) ((blit "-" ++ x) :: l)
| hunks_add x s l : hunks s l -> hunks (Add x :: s) ((blit "+" ++ x) :: l)
| hunks_head t s l : hunks s l -> hunks s ((blit "@@" ++ t) :: l).
(** What difflib promises. *)
Definition difflib_ok (unified : list bytes -> list bytes -> list bytes) : Prop := forall a b,
  (a = b -> unified a b = []) /\
  (a <> b -> exists s h1 h2 body, unified a b = h1 :: h2 :: body /\ before s = a /\ after s = b /\ hunks s body).

(** The lines of a text. *)
Inductive lines_of : bytes -> list bytes -> Prop :=
| lines_one l : n2b 10 ∉ l -> lines_of l [l]
| lines_more l t ls : n2b 10 ∉ l -> lines_of t ls -> lines_of (l ++ n2b 10 :: t) (l :: ls).
Definition file_lines (c : option bytes) (ls : list bytes) : Prop := match c with Some b => lines_of b ls | None => ls = [] end.
(** A text in UTF-8 without backslashes. *)
Definition clear_text (l : bytes) : Prop := exists s, utf8_encode s = Some l /\ 92%N ∉ s.
(** Reading a text with the escapes \0, \n, \r, \t and \xHH. *)
Definition hexval (c : N) : N := if (c <? 58)%N then c - 48 else c - 87.
Fixpoint unescaped (t : pystr) : pystr :=
  match t with
  | [] => []
  | c :: r =>
      if (c =? 92)%N then
        match r with
        | [] => []
        | e :: r1 =>
            if (e =? 48)%N then 0%N :: unescaped r1 else if (e =? 110)%N then 10%N :: unescaped r1
            else if (e =? 114)%N then 13%N :: unescaped r1 else if (e =? 116)%N then 9%N :: unescaped r1
            else match r1 with h :: l :: r2 => (hexval h * 16 + hexval l)%N :: unescaped r2 | _ => [] end
        end
      else c :: unescaped r
  end.
(** The texts behind the mark [c] ("-", "+"), in the lines that have it; and what one reads there. *)
Definition behind (c : N) (lines : list pystr) : list pystr :=
  omap (fun t => match seen t with c' :: r => if (c' =? c)%N then Some r else None | [] => None end) lines.
Definition marked (c : N) (lines : list pystr) : list (option bytes) := List.map (fun t => utf8_encode (unescaped t)) (behind c lines).
