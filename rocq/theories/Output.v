(** What is written to the terminal around an operation: the decision about colours, the early title, debugging output.
    Modelled code: main.py:248-272, logger.py:25-33, 80-97, 125-136, operations/api.py:84-97, 186-221. *)
From stdpp Require Import list.
From Verif Require Import Base Op Logger.
Local Open Scope N_scope.

(** main.py:256-259: [args.no_color] after the options were read.  [flag]: --no-color, [env]: NO_COLOR is set,
    [tty]: the output is a terminal *)
Definition no_color (flag env tty : bool) : bool := if env || negb tty then true else flag.
(** logger.py:25-29.  [args]: [fora.args.no_color], None as long as [fora.args] is not set *)
Definition use_color (args : option bool) (env : bool) : bool := match args with None => negb env | Some n => negb n end.
(** main.py:209-272: when a function runs that prints something.  [ActionImmediateFunction] (--init, --inspect-inventory) runs
    within [parse_args], 247; [main_run] runs after [fora.args] is set, 271-272 *)
Inductive phase := Parsing | Running.
Definition colours_in (p : phase) (flag env tty : bool) : bool :=
  use_color (match p with Parsing => None | Running => Some (no_color flag env tty) end) env.

(** logger.py:80-85 [debug] and 87-97 [debug_args], whose message ends with the arguments: the line printed *)
Definition debug_line (debug : bool) (msg : pystr) : option pystr :=
  if debug then Some (lit "   " ++ sgr "[1;34m" ++ lit "DEBUG" ++ reset ++ lit ": " ++ msg) else None.

Section output.
  Variable unified : list bytes -> list bytes -> list bytes.
  Variable py_str : pv -> pystr.
  Variables (colours changes show_diff dry debug : bool) (verbose : N) (level : nat).
  Local Notation col := (col colours).
  (** logger.py:131-136 [print_operation_early] *)
  Definition operation_early (op_name description : pystr) (name : option pystr) : pystr :=
    operation_title colours dry level op_name description name (col "[1;33m") ++ (if debug then lit " (early status)" ++ [10] else []).
  (** api.py:84-97 [Operation.desc]; [nested]: [op.has_nested] *)
  Definition desc_output (nested : bool) (op_name description : pystr) (name : option pystr) : pystr :=
    operation_early op_name description name ++ (if nested then [10] else []).
  (** [print] of several lines *)
  Definition written (lines : list pystr) : pystr := List.concat (List.map (fun l => l ++ [10]) lines).
  (** api.py:186-221: what [success] and [failure] print *)
  Definition result_output (nested : bool) (op_name description : pystr) (name : option pystr) (r : opres) (diffs : list (pystr * option bytes * option bytes)) : result pystr :=
    if nested then Ok []
    else lines ← print_operation unified py_str colours changes show_diff dry verbose level op_name description name r diffs; Ok (written lines).
  (** Both; the code between prints nothing itself, other operations that it runs do (then [nested] is set). *)
  Definition operation_output (op_name description : pystr) (name : option pystr) (r : opres) (diffs : list (pystr * option bytes * option bytes)) : result pystr :=
    rest ← result_output false op_name description name r diffs; Ok (desc_output false op_name description name ++ rest).
End output.
