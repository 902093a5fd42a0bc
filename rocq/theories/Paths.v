(** Functions of [os.path] (posixpath) on strings. *)
From Verif Require Import Base.

Definition slash : N := 47.

(** [os.path.isabs] *)
Definition isabs (p : pystr) : bool := startswith p (lit "/").

(** [os.path.join(a, b)] *)
Definition path_join (a b : pystr) : pystr :=
  if isabs b then b
  else match a with
       | [] => b
       | _ => if endswith a (lit "/") then a ++ b else a ++ slash :: b
       end.

(** [os.path.join(a, b, c)] *)
Definition path_join3 (a b c : pystr) : pystr := path_join (path_join a b) c.
