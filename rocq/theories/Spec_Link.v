(** Specification of what symbolic links are about. *)
From stdpp Require Import gmap.
From Verif Require Import Base Paths Sys Spec_Sys Spec_Files.

(** Every file is in a directory. *)
Definition tree (fs : fsys) : Prop := kind_at fs [] = Some KDir /\ forall x q n, fs !! (x :: q) = Some n -> kind_at fs q = Some KDir.
(** There is a directory under this path. *)
Definition enterable (fs : fsys) (path : pystr) : Prop := exists d, leads fs true [] (comps path ++ [lit "."]) d.
