(** Specification of local directory trees and of paths built from names. *)
From stdpp Require Import gmap.
From Verif Require Import Base Codec Spec_Codec Paths Sys Spec_Sys Client Spec_Remote Control Spec_Control Op Files Spec_Files.

(** [inside t rel sub]: in the tree [t], following the names [rel] down from its top, there is [sub]. *)
Inductive inside : ltree -> list pystr -> ltree -> Prop :=
| inside_here t : inside t [] t
| inside_in es n t rel sub : (n, t) ∈ es -> inside t rel sub -> inside (LDir es) (n :: rel) sub.
(** A real directory or regular file, which is not a symbolic link. *)
Definition is_dir (sub : ltree) : Prop := exists es, sub = LDir es.
Definition is_regular (sub : ltree) (b : bytes) : Prop := sub = LFile b.
(** The operation takes links for what they lead to, without descending into directories. *)
Definition dir_like (sub : ltree) : Prop := is_dir sub \/ sub = LLinkDir.
Definition file_like (sub : ltree) (b : bytes) : Prop := sub = LFile b \/ sub = LLinkFile b.
(** No symbolic links, sockets and the like. *)
Definition no_links (t : ltree) : Prop := forall rel sub, inside t rel sub -> is_dir sub \/ exists b, is_regular sub b.
(** The listing of a directory has different names, which are names of files. *)
Definition tree_ok (t : ltree) : Prop := forall rel es, inside t rel (LDir es) -> NoDup es.*1 /\ forall n sub, (n, sub) ∈ es -> file_name n.
Definition contents_small (t : ltree) : Prop := forall rel sub b, inside t rel sub -> file_like sub b -> small b.

(** The absolute path of these names: /a/b/c *)
Definition path_of (ns : list pystr) : pystr := List.concat (List.map (cons slash) ns).

(** Whatever exists is in something that exists. *)
Definition rooted (fs : fsys) : Prop := forall x pl, is_Some (fs !! (x :: pl)) -> is_Some (fs !! pl).
