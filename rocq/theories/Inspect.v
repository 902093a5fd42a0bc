(** main.py:66-187 [show_inventory]: the tables of variables of hosts, and utils.py:59-120: printing tables. *)
From Verif Require Import Base Paths Urls Wrapper Ranks Inventory.

(** ** utils.py:59-120 *)
(** 59-61 [len_ignore_leading_ansi], 63-65 [ansilen] *)
Definition esc : pystr := [27; 91]%N.
Definition len_ignore_leading_ansi (s : pystr) : nat := if startswith s esc then 0 else length s.
Definition ansilen (ss : list pystr) : nat := foldr (fun s n => len_ignore_leading_ansi s + n) 0 ss.
(** 67-69 [ansipad] *)
Definition ansipad (ss : list pystr) (pad : nat) : pystr := List.concat ss ++ replicate (pad - ansilen ss) 32%N.

(** 82-120 [print_table]: the lines printed.  [terminal] is [shutil.get_terminal_size((80, 20)).columns], [col] is [logger.col].
    Rows and [min_col_width] have as many elements as [header] (otherwise python fails or ignores the rest). *)
Definition zlen (ss : list pystr) : Z := Z.of_nat (ansilen ss).
Definition widen (ws : list Z) (row : list (list pystr)) : list Z := zip_with (fun w c => Z.max w (zlen c)) ws row.
Definition max_value_width (header : list (list pystr)) (rows : list (list (list pystr))) : list Z :=
  foldl widen (widen (replicate (length header) 0%Z) header) rows.
(** 97-102; the division is that of python *)
Definition first_widths (terminal : Z) (min_width ws : list Z) : list Z :=
  let cols := Z.of_nat (length ws) in
  let even := (terminal / cols)%Z in
  let available := (terminal - 3 * (cols - 1))%Z in
  zip_with (fun m iw => let '(i, w) := iw in Z.max m (Z.min 40 (Z.min w (available - (cols - Z.of_nat i - 1) * even)%Z)))
    min_width (zip (seq 0 (length ws)) ws).
(** 104-111: the rest goes to the last column that needs it *)
Fixpoint give_rest (rest : Z) (ws cw : list Z) : list Z * bool :=
  match ws, cw with
  | w :: ws, c :: cw =>
      let '(l, done) := give_rest rest ws cw in
      if done then (c :: l, true) else if (c <? w)%Z then ((c + rest)%Z :: l, true) else (c :: l, false)
  | _, _ => (cw, false)
  end.
Definition col_widths (terminal : Z) (min_width ws : list Z) : list Z :=
  let cw := first_widths terminal min_width ws in
  let available := (terminal - 3 * (Z.of_nat (length ws) - 1))%Z in
  let rest := (available - foldr Z.add 0 cw)%Z in
  if (0 <? rest)%Z then (give_rest rest ws cw).1 else cw.
Fixpoint join (delim : pystr) (l : list pystr) : pystr :=
  match l with [] => [] | [x] => x | x :: r => x ++ delim ++ join delim r end.
Definition print_table (col : pystr -> pystr) (columns : Z) (header : list (list pystr)) (rows : list (list (list pystr)))
    (min_width : list Z) : list pystr :=
  let terminal := Z.max columns 80 in
  let cw := List.map Z.to_nat (col_widths terminal min_width (max_value_width header rows)) in
  let box := col (esc ++ lit "90m") in
  let delim := box ++ [32; 9474; 32]%N ++ col (esc ++ lit "m") in
  let line row := join delim (zip_with ansipad row cw) in
  [line header; box ++ join [9472; 9532; 9472]%N (List.map (fun w => replicate w 9472%N) cw) ++ col (esc ++ lit "m")] ++
  List.map line rows.

(** ** main.py:142-185 *)
Section inspect.
  Notation history := (list (pystr * list snapshot)).
  (** [fora.inventory._topological_order], the host and its history *)
  Variable order : list pystr.
  Variable host : pystr.
  Variable hist : history.

  (** [list.index] *)
  Fixpoint index (x : pystr) (l : list pystr) : result Z :=
    match l with
    | [] => Err (ValueError (lit "is not in list"))
    | y :: r => if str_eqb x y then Ok 0%Z else i ← index x r; Ok (i + 1)%Z
    end.
  (** 116-122 [precedence].  Simplification: actors are names, the host is the actor with the name of the host. *)
  Definition precedence (actor : pystr) : result Z :=
    if str_eqb actor host then Ok (Z.of_nat (length order)) else index actor order.

  (** [host._variable_action_history.get(attr, [VariableActionSnapshot("definition", host, value)])] *)
  Definition actions (attr : pystr) (value : obj) : list snapshot :=
    match dget attr hist with Some l => l | None => [Snapshot true host (oval value)] end.
  (** 150.  An empty list would be an IndexError. *)
  Definition last_actor (attr : pystr) (value : obj) : result pystr :=
    match last (actions attr value) with Some s => Ok (sn_actor s) | None => Err IndexError end.
  (** 149 *)
  Definition declared_by_wrapper (attr : pystr) : bool := str_in attr (c_own host_cls) || str_in attr (c_annot host_cls).

  Record entry := Entry { en_attr : pystr; en_value : obj; en_declared : bool; en_prec : Z }.
  (** 145-151, with the precedence used for sorting *)
  Fixpoint entries (vs : ns) : result (list entry) :=
    match vs with
    | [] => Ok []
    | (attr, value) :: r =>
        if private attr || is_module value then entries r
        else a ← last_actor attr value;
             p ← precedence a;
             l ← entries r;
             Ok (Entry attr value (declared_by_wrapper attr) p :: l)
    end.
  (** 154: comparison of [(not tup[2], precedence(tup[3]), tup[0])]; strings are compared by code points *)
  Fixpoint str_leb (a b : pystr) : bool :=
    match a, b with
    | [], _ => true
    | _ :: _, [] => false
    | x :: a, y :: b => (x <? y)%N || (x =? y)%N && str_leb a b
    end.
  Definition entry_leb (a b : entry) : bool :=
    match en_declared a, en_declared b with
    | true, false => true
    | false, true => false
    | _, _ => (en_prec a <? en_prec b)%Z || (en_prec a =? en_prec b)%Z && str_leb (en_attr a) (en_attr b)
    end.
  Fixpoint insert_entry (x : entry) (l : list entry) : list entry :=
    match l with
    | [] => [x]
    | y :: r => if entry_leb x y then x :: y :: r else y :: insert_entry x r
    end.
  Definition sort_entries (l : list entry) : list entry := foldr insert_entry [] l.

  (** 155-165: the column "defined by", from right to left: precedences and names *)
  Fixpoint collect (l : list snapshot) (acc : list (Z * pystr)) : result (list (Z * pystr)) :=
    match l with
    | [] => Ok acc
    | s :: r =>
        p ← precedence (sn_actor s);
        let acc := (p, sn_actor s) :: acc in
        if sn_def s then Ok acc else collect r acc
    end.
  Definition defined_by (attr : pystr) (value : obj) : result (list (Z * pystr)) := collect (rev (actions attr value)) [].
  Record row := Row { r_attr : pystr; r_value : obj; r_defined_by : list (Z * pystr) }.
  Fixpoint rows (l : list entry) : result (list row) :=
    match l with
    | [] => Ok []
    | x :: r => d ← defined_by (en_attr x) (en_value x); l ← rows r; Ok (Row (en_attr x) (en_value x) d :: l)
    end.
  (** 145-180.  Simplification: colours and the column "type" are left out of the rows. *)
  Definition host_rows (w : wrapper) : result (list row) :=
    l ← entries (vars_hierarchical w None);
    rows (sort_entries l).
End inspect.
