(** main.py 209-248: the options of the command line, as python's argparse reads them.
    argparse itself is not part of the project: cited is argparse.py of python 3.11.  Left out: the help texts; the messages of errors;
    mutually exclusive groups, sub-parsers, option files and other kinds of options, which this parser does not have. *)
From Verif Require Import Base.
Local Open Scope nat_scope.

(** main.py 217-246: the options, in the order in which they are added (argparse adds -h first, argparse.py 1789) *)
Inductive opt := OHelp | OVersion | OInit | OInspect | OHosts | ODry | OVerbose | ONoChanges | ODiff | ODebug | ONoColor.
Definition table : list (pystr * opt) :=
  [(lit "-h", OHelp); (lit "--help", OHelp); (lit "-V", OVersion); (lit "--version", OVersion); (lit "--init", OInit); (lit "--inspect-inventory", OInspect);
   (lit "-H", OHosts); (lit "--hosts", OHosts); (lit "--dry", ODry); (lit "--dry-run", ODry); (lit "--pretend", ODry); (lit "-v", OVerbose); (lit "--verbose", OVerbose);
   (lit "--no-changes", ONoChanges); (lit "--diff", ODiff); (lit "--debug", ODebug); (lit "--no-color", ONoColor)].
(** nargs: one argument, or none *)
Definition takes_value (o : opt) : bool := match o with OInit | OInspect | OHosts => true | _ => false end.
(** main.py 222 *)
Definition layouts : list pystr := List.map lit ["minimal"; "flat"; "dotfiles"; "modular"; "staging_prod"]%string.

(** The namespace.  A positional argument is a string, or (None) an empty list. *)
Record opts := Opts { n_hosts : option pystr; n_dry : bool; n_verbose : nat; n_changes : bool; n_diff : bool; n_debug : bool; n_no_color : bool; n_words : list (option pystr) }.
Definition no_opts : opts := Opts None false 0 true false false false [].
(** How the program goes on: it ends with an error message, or with one of the actions that end it (main.py 187, example_deploys.py 269-273, and
    the actions help and version of argparse), or it runs the script. *)
Inductive course := Refuses | Helps | Tells_version | Initialises (layout : pystr) | Inspects (inventory : pystr) | Runs (n : opts).

(** str.partition("=") *)
Fixpoint partition_eq (s : pystr) : pystr * bool * pystr :=
  match s with
  | [] => ([], false, [])
  | c :: r => if N.eqb c 61 then ([], true, r) else let '(a, b, d) := partition_eq r in (c :: a, b, d)
  end.

(** a reading of an argument: the option (None: none of this parser), its full name, whether an "=" follows it, and what is attached to it *)
Record reading := Reading { t_opt : option opt; t_name : pystr; t_eq : bool; t_arg : option pystr }.

Section parser.
  (** what matches \d *)
  Variable digit : N -> bool.
  (** argparse.py 1386 [_negative_number_matcher]: ^-\d+$|^-\d*\.\d+$, where $ also matches before a newline at the end *)
  Definition all_digits (s : pystr) : bool := negb (bool_decide (s = [])) && forallb digit s.
  Fixpoint skip_digits (s : pystr) : pystr := match s with c :: r => if digit c then skip_digits r else s | [] => [] end.
  Definition number (s : pystr) : bool := all_digits s || match skip_digits s with c :: r => N.eqb c 46 && all_digits r | [] => false end.
  Definition negative (s : pystr) : bool :=
    match s with c :: r => N.eqb c 45 && (number r || (bool_decide (last r = Some 10%N) && number (removelast r))) | [] => false end.

  (** 2300-2341 [_get_option_tuples] *)
  Definition option_tuples (s : pystr) : list reading :=
    if bool_decide (take 2 s = lit "--") then
      let '(p, eq, arg) := partition_eq s in
      omap (fun '(k, o) => if startswith k p then Some (Reading (Some o) k eq (if eq then Some arg else None)) else None) table
    else
      omap (fun '(k, o) => if str_eqb k (take 2 s) then Some (Reading (Some o) k false (Some (drop 2 s)))
                           else if startswith k s then Some (Reading (Some o) k false None) else None) table.
  (** 2243-2298 [_parse_optional]; [inr None]: an argument *)
  Definition parse_optional (s : pystr) : course + option reading :=
    match s with
    | [] => inr None
    | c :: _ =>
        if negb (N.eqb c 45) then inr None else
        match dget s table with
        | Some o => inr (Some (Reading (Some o) s false None))
        | None =>
            if length s =? 1 then inr None else
            let '(n, eq, arg) := partition_eq s in
            match (if eq then dget n table else None) with
            | Some o => inr (Some (Reading (Some o) n true (Some arg)))
            | None =>
                match option_tuples s with
                | _ :: _ :: _ => inl Refuses
                | [t] => inr (Some t)
                | [] => if negative s then inr None else if existsb (N.eqb 32) s then inr None else inr (Some (Reading None s false None))
                end
            end
        end
    end.

  (** 1936-1959: the patterns "O", "A" and "-" *)
  Inductive mark := Option (t : reading) | Arg | Dashes.
  Fixpoint marks (argv : list pystr) : course + list (pystr * mark) :=
    match argv with
    | [] => inr []
    | s :: r =>
        if str_eqb s (lit "--") then inr ((s, Dashes) :: List.map (fun s => (s, Arg)) r)
        else match parse_optional s with
             | inl e => inl e
             | inr t => match marks r with inl e => inl e | inr l => inr ((s, match t with Some t => Option t | None => Arg end) :: l) end
             end
    end.
  Definition is_option (x : pystr * mark) : bool := match x.2 with Option _ => true | _ => false end.

  (** 2475-2481, 2503-2507 [_get_values]: the first "--" is taken out (list.remove) *)
  Fixpoint remove_dashes (l : list pystr) : list pystr := match l with [] => [] | s :: l => if str_eqb s (lit "--") then l else s :: remove_dashes l end.
  Definition word_value (l : list pystr) : option pystr := match remove_dashes l with [s] => Some s | _ => None end.
  (** 1965-1983 [take_action], for the actions of this parser; 2557-2568 [_check_value] *)
  Definition take_action (a : opt * option pystr) (n : opts) : course + opts :=
    let '(Opts h d v ch df db nc w) := n in
    match a with
    | (OHelp, _) => inl Helps
    | (OVersion, _) => inl Tells_version
    | (OInit, x) => inl (match x with Some x => if str_in x layouts then Initialises x else Refuses | None => Refuses end)
    | (OInspect, x) => inl (match x with Some x => Inspects x | None => Refuses end)
    | (OHosts, x) => inr (Opts x d v ch df db nc w)
    | (ODry, _) => inr (Opts h true v ch df db nc w)
    | (OVerbose, _) => inr (Opts h d (S v) ch df db nc w)
    | (ONoChanges, _) => inr (Opts h d v false df db nc w)
    | (ODiff, _) => inr (Opts h d v ch true db nc w)
    | (ODebug, _) => inr (Opts h d v ch df true nc w)
    | (ONoColor, _) => inr (Opts h d v ch df db true w)
    end.
  Fixpoint take_actions (l : list (opt * option pystr)) (n : opts) : course + opts :=
    match l with [] => inr n | a :: l => match take_action a n with inl e => inl e | inr n => take_actions l n end end.

  (** What an argument that is read as options stands for: actions, then possibly an option without its value, or a rest that is no option. *)
  Record group := Group { g_actions : list (opt * option pystr); g_open : option opt; g_extra : option pystr }.
  Definition also (a : opt * option pystr) (g : group) : group := Group (a :: g_actions g) (g_open g) (g_extra g).
  (** 2005-2050: the option [o] with something attached; [long]: its name begins with two dashes *)
  Fixpoint attached (o : opt) (long eq : bool) (arg : pystr) : course + group :=
    if takes_value o then inr (Group [(o, Some arg)] None None) else
    match arg with
    | [] => inl Refuses
    | c :: r =>
        if long || eq || N.eqb c 45 then inl Refuses else
        match dget [45%N; c] table with
        | None => inr (Group [(o, None)] None (Some (45%N :: arg)))
        | Some o2 =>
            match r with
            | [] => inr (also (o, None) (if takes_value o2 then Group [] (Some o2) None else Group [(o2, None)] None None))
            | d :: r2 => match (if N.eqb d 61 then attached o2 false true r2 else attached o2 false false r) with inl e => inl e | inr g => inr (also (o, None) g) end
            end
        end
    end.
  Definition read_group (s : pystr) (t : reading) : course + group :=
    match t_opt t with
    | None => inr (Group [] None (Some s))
    | Some o =>
        match t_arg t with
        | Some arg => attached o (bool_decide (take 2 (t_name t) = lit "--")) (t_eq t) arg
        | None => inr (if takes_value o then Group [] (Some o) None else Group [(o, None)] None None)
        end
    end.
  Definition is_extra (o : option pystr) : list pystr := match o with Some s => [s] | None => [] end.
  (** 1986-2069 [consume_optional] at the option [(s, t)], where [rest] follows it.  (One argument: the next mark must be "A".) *)
  Definition consume_optional (s : pystr) (t : reading) (rest : list (pystr * mark)) (n : opts) (extras : list pystr) : course + (list (pystr * mark) * opts * list pystr) :=
    match read_group s t with
    | inl e => inl e
    | inr g =>
        match g_open g with
        | None => match take_actions (g_actions g) n with inl e => inl e | inr n => inr (rest, n, extras ++ is_extra (g_extra g)) end
        | Some o =>
            match rest with
            | (v, Arg) :: rest => match take_actions (g_actions g ++ [(o, Some v)]) n with inl e => inl e | inr n => inr (rest, n, extras ++ is_extra (g_extra g)) end
            | _ => inl Refuses
            end
        end
    end.

  (** the pattern "-*A-*": the strings it matches, and what follows *)
  Fixpoint dashes (l : list (pystr * mark)) : list pystr * list (pystr * mark) :=
    match l with (s, Dashes) :: l => let '(a, b) := dashes l in (s :: a, b) | _ => ([], l) end.
  Definition one_word (l : list (pystr * mark)) : option (list pystr * list (pystr * mark)) :=
    let '(a, l) := dashes l in
    match l with (s, Arg) :: l => let '(b, l) := dashes l in Some (a ++ s :: b, l) | _ => None end.
  Definition add_word (l : list pystr) (n : opts) : opts :=
    let '(Opts h d v ch df db nc w) := n in Opts h d v ch df db nc (w ++ [word_value l]).
  (** 2076-2092 [consume_positionals], 2227-2241 [_match_arguments_partial]: as many as possible of those that are left of the two *)
  Definition consume_positionals (l : list (pystr * mark)) (n : opts) : list (pystr * mark) * opts :=
    match n_words n with
    | [] => match one_word l with
            | None => (l, n)
            | Some (a, l1) => match one_word l1 with None => (l1, add_word a n) | Some (b, l2) => (l2, add_word b (add_word a n)) end
            end
    | [_] => match one_word l with None => (l, n) | Some (a, l1) => (l1, add_word a n) end
    | _ => (l, n)
    end.
  (** 2123-2125 *)
  Fixpoint to_option (l : list (pystr * mark)) : list pystr * list (pystr * mark) :=
    match l with
    | [] => ([], [])
    | x :: r => if is_option x then ([], l) else let '(a, b) := to_option r in (x.1 :: a, b)
    end.
  (** 2096-2134, 2136-2160 (both positional arguments are required), 1873-1878 [parse_args] (extra arguments are an error).  The loop is bounded by
      the number of arguments, since each round takes at least one. *)
  Fixpoint rounds (fuel : nat) (l : list (pystr * mark)) (n : opts) (extras : list pystr) : course :=
    match fuel with
    | O => Refuses
    | S fuel =>
        if existsb is_option l then
          match l with
          | (s, Option t) :: rest => match consume_optional s t rest n extras with inl e => e | inr (l, n, extras) => rounds fuel l n extras end
          | _ =>
              let '(l1, n1) := consume_positionals l n in
              if length l1 <? length l then rounds fuel l1 n1 extras
              else let '(a, l2) := to_option l in
                   match l2 with
                   | (s, Option t) :: rest => match consume_optional s t rest n (extras ++ a) with inl e => e | inr (l, n, extras) => rounds fuel l n extras end
                   | _ => Refuses
                   end
          end
        else
          let '(l1, n1) := consume_positionals l n in
          match n_words n1 with
          | [_; _] => match extras ++ List.map fst l1 with [] => Runs n1 | _ => Refuses end
          | _ => Refuses
          end
    end.
  (** main.py 209-251: what becomes of the arguments *)
  Definition parse_args (argv : list pystr) : course :=
    match marks argv with inl e => e | inr l => rounds (S (length argv)) l no_opts [] end.
End parser.
