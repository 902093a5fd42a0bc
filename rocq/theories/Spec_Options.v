(** What the words of a command line mean, said without the parser: main.py 217-246 and the documentation of the options there. *)
From Verif Require Import Base Options.
Local Open Scope nat_scope.

(** The arguments before the first "--". *)
Fixpoint before_dashes (argv : list pystr) : list pystr :=
  match argv with [] => [] | s :: r => if str_eqb s (lit "--") then [] else s :: before_dashes r end.

(** Ways to ask for a dry run: one of the three names, or an abbreviation of --dry-run or --pretend that means nothing else. *)
Definition dry_words : list pystr :=
  List.map lit ["--dry"; "--dry-"; "--dry-r"; "--dry-ru"; "--dry-run"; "--p"; "--pr"; "--pre"; "--pret"; "--prete"; "--preten"; "--pretend"]%string.

(** The long names of the options. *)
Definition long_names : list pystr :=
  List.map lit ["--help"; "--version"; "--init"; "--inspect-inventory"; "--hosts"; "--dry"; "--dry-run"; "--pretend"; "--verbose"; "--no-changes"; "--diff"; "--debug"; "--no-color"]%string.
(** [s] looks like a long option (two dashes, no blank), but no option begins with what it says before "=". *)
Definition up_to_eq (s p : pystr) : Prop := ~ In 61%N p /\ (s = p \/ exists v, s = p ++ 61%N :: v).
Definition misspelled (s : pystr) : Prop :=
  (exists r, s = 45%N :: 45%N :: r) /\ ~ In 32%N s /\ forall p, up_to_eq s p -> Forall (fun k => forall r, k <> p ++ r) long_names.

(** The options that are something else than a run of a script. *)
Definition ends_early (s : pystr) : Prop :=
  In s (List.map lit ["-h"; "--help"; "-V"; "--version"; "--init"; "--inspect-inventory"]%string)
  \/ exists v, s = lit "--init=" ++ v \/ s = lit "--inspect-inventory=" ++ v.

(** A command line in which everything is spelled out. *)
Inductive item :=
| Dry (w : pystr) | Verbose (w : pystr) | No_changes | Diff | Debug | No_color
| Hosts_eq (v : pystr)                (* --hosts=v *)
| Hosts_next (w v : pystr)            (* -H v, --hosts v *)
| Word (v : pystr).
Definition written (i : item) : list pystr :=
  match i with
  | Dry w | Verbose w => [w]
  | No_changes => [lit "--no-changes"] | Diff => [lit "--diff"] | Debug => [lit "--debug"] | No_color => [lit "--no-color"]
  | Hosts_eq v => [lit "--hosts=" ++ v]
  | Hosts_next w v => [w; v]
  | Word v => [v]
  end.
(** does not begin with a dash *)
Definition plain_word (v : pystr) : Prop := forall r, v <> 45%N :: r.
Definition proper (i : item) : Prop :=
  match i with
  | Dry w => In w (List.map lit ["--dry"; "--dry-run"; "--pretend"]%string)
  | Verbose w => In w (List.map lit ["-v"; "--verbose"]%string)
  | Hosts_next w v => In w (List.map lit ["-H"; "--hosts"]%string) /\ plain_word v
  | Word v => plain_word v
  | _ => True
  end.
(** What it asks for. *)
Fixpoint last_hosts (l : list item) : option pystr :=
  match l with
  | [] => None
  | i :: r => match last_hosts r with Some v => Some v | None => match i with Hosts_eq v | Hosts_next _ v => Some v | _ => None end end
  end.
Definition words (l : list item) : list pystr := omap (fun i => match i with Word v => Some v | _ => None end) l.
Definition asks_for (l : list item) (n : opts) : Prop :=
  n_hosts n = last_hosts l
  /\ (n_dry n = true <-> exists w, In (Dry w) l)
  /\ n_verbose n = length (List.filter (fun i => match i with Verbose _ => true | _ => false end) l)
  /\ (n_changes n = false <-> In No_changes l)
  /\ (n_diff n = true <-> In Diff l)
  /\ (n_debug n = true <-> In Debug l)
  /\ (n_no_color n = true <-> In No_color l).
