(** The one script that is run with bash: a model of the environment, not of code in /repo.

    The script must be a list of alternatives, separated by "||", each of the form "{ type &>/dev/null X && echo Y ; }" or
    "echo W", where X, Y and W are words without any special character.  Other scripts are left to [rest]. *)
From stdpp Require Import gmap.
From Verif Require Import Base Utf8 Sys Dispatcher.

Definition word_char (c : N) : bool :=
  ((48 <=? c) && (c <=? 57) || (65 <=? c) && (c <=? 90) || (97 <=? c) && (c <=? 122) || (c =? 43) || (c =? 45) || (c =? 46) || (c =? 95))%N.
Definition plain_word (w : pystr) : bool := match w with c :: _ => negb (c =? 45)%N && forallb word_char w | [] => false end.
Inductive alternative := TryEcho (x y : pystr) | Echo (w : pystr).
Definition parse_alternative (l : list pystr) : option alternative :=
  match l with
  | [t0; t1; t2; x; t3; t4; y; t5; t6] =>
      if str_eqb t0 (lit "{") && str_eqb t1 (lit "type") && str_eqb t2 (lit "&>/dev/null") && str_eqb t3 (lit "&&") && str_eqb t4 (lit "echo") &&
         str_eqb t5 (lit ";") && str_eqb t6 (lit "}") && plain_word x && plain_word y
      then Some (TryEcho x y) else None
  | [t0; w] => if str_eqb t0 (lit "echo") && plain_word w then Some (Echo w) else None
  | _ => None
  end.
Fixpoint split_tokens (sep : pystr) (l : list pystr) : list (list pystr) :=
  match l with
  | [] => [[]]
  | t :: r => if str_eqb t sep then [] :: split_tokens sep r
              else match split_tokens sep r with x :: xs => (t :: x) :: xs | [] => [[t]] end
  end.
Definition parse_script (script : pystr) : option (list alternative) := mapM parse_alternative (split_tokens (lit "||") (split_char 32 script)).
(** what is printed; [available]: the commands that "type" finds *)
Fixpoint perform (available : pystr -> bool) (l : list alternative) : option pystr :=
  match l with
  | [] => None
  | TryEcho x y :: r => if available x then Some y else perform available r
  | Echo w :: _ => Some w
  end.
Definition printed (w : pystr) : bytes := List.map n2b w ++ [n2b 10].
Definition bash (available : os -> pystr -> bool) (rest : proc -> M xres) (p : proc) : M xres := fun s =>
  match p_argv p with
  | [b; o; script] =>
      if str_eqb b (lit "bash") && str_eqb o (lit "-c") then
        match parse_script script with
        | Some l => match perform (available s) l with
                    | Some w => (Ok (XExit 0 (printed w) []), s)
                    | None => (Ok (XExit 1 [] []), s)
                    end
        | None => rest p s
        end
      else rest p s
  | _ => rest p s
  end.
