(** logger.py and utils.py:323-346: what is shown of remote data. *)
From stdpp Require Import list.
From Verif Require Import Base Utf8 Op.
Local Open Scope Z_scope.

(** 44-62 [ellipsis].  [s[:k]]: a negative [k] counts from the end. *)
Definition upto {A} (l : list A) (k : Z) : list A :=
  if k <? 0 then firstn (Z.to_nat (Z.of_nat (length l) + k)) l else firstn (Z.to_nat k) l.
Definition dots : N := 8230.
Definition ellipsis (s : pystr) (width : Z) : pystr :=
  if width <? Z.of_nat (length s) then upto s (width - 1) ++ [dots] else s.

Local Open Scope N_scope.
(** [c.isprintable()] up to 0xff, which is all that is asked (169): the categories Cc (0-1f, 7f-9f), Zs (a0; the space counts as
    printable) and Cf (ad) are not printable *)
Definition isprintable_latin1 (c : N) : bool := ((32 <=? c) && (c <=? 126)) || ((161 <=? c) && (c <=? 255) && negb (c =? 173)).
(** 163-171 [escape_char] *)
Definition escape_char (c : N) : pystr :=
  if c =? 0 then lit "\0" else if c =? 10 then lit "\n" else if c =? 13 then lit "\r" else if c =? 9 then lit "\t"
  else if (c <=? 255) && negb (isprintable_latin1 c) then hex_escape c
  else [c].
(** 138-172 with the default encoding, which is the one used *)
Definition decode_escape (data : bytes) : pystr := List.concat (List.map escape_char (utf8_decode_bsr data)).

(** The colours, without the escape character (27): 31-33 [col] *)
Definition sgr (x : string) : pystr := 27 :: lit x.
Definition reset : pystr := sgr "[m".

(** [data.split(b'\n')] *)
Fixpoint split_nl (l : bytes) : list bytes :=
  match l with
  | [] => [[]]
  | b :: r => if (b2n b =? 10) then [] :: split_nl r
              else match split_nl r with [] => [[b]] | x :: t => (b :: x) :: t end
  end.
Section diff.
  (** [difflib.diff_bytes(difflib.unified_diff, a, b, lineterm=b'')]; not modelled *)
  Variable unified : list bytes -> list bytes -> list bytes.
  (** 230-236; the empty line has no [line[0]] *)
  Definition apply_color (l : pystr) : result pystr :=
    match l with
    | [] => Err IndexError
    | c :: _ => Ok ((if c =? 43 then sgr "[32m" else if c =? 45 then sgr "[31m" else if c =? 64 then sgr "[34m" else sgr "[90m") ++ l ++ reset)
    end.
  Fixpoint color_all (l : list pystr) : result (list pystr) :=
    match l with [] => Ok [] | x :: r => y ← apply_color x; t ← color_all r; Ok (y :: t) end.
  Definition diff_title (filename : pystr) (old new : option bytes) : pystr :=
    (match old, new with None, _ => lit "created" | _, None => lit "deleted" | _, _ => lit "modified" end) ++ lit ": " ++ filename.
  (** 215-242 *)
  Definition diff_shown (filename : pystr) (old new : option bytes) (color : bool) : result (list pystr) :=
    let bdiff := unified (match old with None => [] | Some b => split_nl b end) (match new with None => [] | Some b => split_nl b end) in
    let lines := List.map decode_escape (skipn 2 bdiff) in
    let title := diff_title filename old new in
    let rule := repeat 9472 (length title) in
    let header := [rule; title; rule] in
    if color then l ← color_all lines; Ok (List.map (fun x => sgr "[33m" ++ x ++ reset) header ++ l)
    else Ok (header ++ lines).
End diff.

(** [v.hex()] *)
Definition hex_of (b : bytes) : pystr := List.concat (List.map (fun x => [hexdigit (b2n x / 16); hexdigit (b2n x mod 16)]) b).
Section infos.
  (** [str(v)] of what is neither a string nor bytes *)
  Variable py_str : pv -> pystr.
  (** [use_color()], [fora.args.verbose] *)
  Variable use_color : bool.
  Variable verbose : N.
  Definition col (x : string) : pystr := if use_color then sgr x else [].
  (** 246-247 *)
  Definition to_str (v : pv) : pystr := match v with VBytes b => hex_of b | VStr s => s | _ => py_str v end.
  Definition is_None (v : pv) : bool := match v with VNone => true | _ => false end.
  Definition shorten (width : Z) (s : pystr) : pystr := if verbose =? 0 then ellipsis s width else s.
  (** 245-276 [_operation_state_infos] *)
  Fixpoint state_infos (initial final : state) : result (list pystr) :=
    match final with
    | [] => Ok []
    | (k, f) :: r =>
        if is_None f then state_infos initial r
        else i ← from_option KeyError (dget k initial);
             t ← state_infos initial r;
             let k := shorten 12 k in
             let si := shorten 9 (to_str i) in
             let sf := shorten (if is_None i then 21 else 9)%Z (to_str f) in
             Ok (if py_eq i f then (if 1 <=? verbose then [col "[90m" ++ k ++ lit ": " ++ si ++ col "[m"] else []) ++ t
                 else if is_None i then (col "[33m" ++ k ++ lit ": " ++ col "[32m" ++ sf ++ col "[m") :: t
                 else (col "[33m" ++ k ++ lit ": " ++ col "[31m" ++ si ++ col "[33m" ++ [32; 8594; 32] ++ col "[32m" ++ sf ++ col "[m") :: t)
    end.
End infos.

(** 68-78 [indent_prefix] *)
Definition indent_prefix (use_color : bool) (level : nat) : pystr :=
  if use_color then
    List.concat (List.map (fun i => if Nat.even i then sgr "[90m" ++ [9474] ++ reset ++ [32] else sgr "[90m" ++ [9589] ++ reset ++ [32]) (seq 0 level))
  else repeat 32 (2 * level).
Section print_operation.
  Variable unified : list bytes -> list bytes -> list bytes.
  Variable py_str : pv -> pystr.
  (** [use_color()]; [fora.args]; [state.indentation_level] *)
  Variables (use_color changes show_diff dry : bool) (verbose : N) (level : nat).
  Local Notation col := (col use_color).
  (** 99-101 [print_indented] *)
  Definition indented (msg : pystr) : pystr := indent_prefix use_color level ++ msg.
  (** 125-129 [print_operation_title] *)
  Definition operation_title (op_name description : pystr) (name : option pystr) (title_color : pystr) : pystr :=
    indented (title_color ++ op_name ++ col "[m" ++ (if dry then lit " " ++ col "[90m" ++ lit "(dry)" ++ col "[m" else []) ++ lit " " ++ description ++
      match name with Some n => lit " " ++ col "[90m" ++ lit "(" ++ n ++ lit ")" ++ col "[m" | None => [] end).
  (** [sep.join(l)] *)
  Fixpoint joined (sep : pystr) (l : list pystr) : pystr :=
    match l with [] => [] | [x] => x | x :: r => x ++ sep ++ joined sep r end.
  (** 306-309; the contents of the diffs are always coloured *)
  Fixpoint all_diffs (l : list (pystr * option bytes * option bytes)) : result (list pystr) :=
    match l with
    | [] => Ok []
    | (file, old, new) :: r => d ← diff_shown unified file old new true; t ← all_diffs r; Ok (d ++ t)
    end.
  (** 311-314 *)
  Fixpoint boxed (l : list pystr) : list pystr :=
    match l with
    | [] => []
    | [x] => [indented (col "[90m" ++ [9492; 32] ++ col "[m" ++ x)]
    | x :: r => indented (col "[90m" ++ [9474; 32] ++ col "[m" ++ x) :: boxed r
    end.
  (** 278-314 [print_operation]: the lines printed *)
  Definition print_operation (op_name description : pystr) (name : option pystr) (r : opres) (diffs : list (pystr * option bytes * option bytes)) : result (list pystr) :=
    let title_color := if or_success r then if or_changed r then col "[1;32m" else col "[1;90m" else col "[1;31m" in
    let title := 13 :: operation_title op_name description name title_color in
    if negb (or_success r) then
      Ok [title; indented (lit " " ++ col "[90m" ++ [9492] ++ col "[m" ++ lit " " ++ col "[31m" ++ default (lit "None") (or_message r) ++ col "[m")]
    else if negb changes then Ok [title]
    else
      let box := if (length (if show_diff then diffs else []) =? 0)%nat then 9492 else 9500 in
      infos ← state_infos py_str use_color verbose (or_initial r) (or_final r);
      let line := match infos with [] => [] | _ => [indented (col "[90m" ++ [box] ++ col "[m" ++ lit " " ++ joined (col "[90m" ++ lit "," ++ col "[m" ++ lit " ") infos)] end in
      if show_diff then d ← all_diffs diffs; Ok (title :: line ++ boxed d) else Ok (title :: line).
End print_operation.

(** utils.py:323-346 [print_process_error]: what is printed of the output of the failed command, 343 and 345.  The output is
    None if it was not captured.  The rules around it and the command line are left out. *)
Definition process_error_shown (out err : option bytes) : result (pystr * pystr) :=
  o ← from_option AttributeError out;
  e ← from_option AttributeError err;
  Ok (utf8_decode_bsr o, utf8_decode_bsr e).
(** loader.py:138-148: what [run_script] raises when the script raised [e]; [printed]: an inner script has printed it *)
Definition script_raises (e : exn) (printed : bool) : exn :=
  match e with
  | CalledProcessError _ out err _ =>
      if printed then e else match process_error_shown out err with Ok _ => e | Err e' => e' end
  | _ => e
  end.
