(** Deploy scripts that consist of several operations on files: what it means to run them. *)
From stdpp Require Import gmap.
From Verif Require Import Base Paths Sys Spec_Sys Dispatcher Client Control Spec_Control Op Coreutils Files Spec_Files Spec_Link Spec_Tree.
Local Open Scope nat_scope.

Section sequence.
  Variable step : Type.
  Variable does : step -> W opres.
  (** the paths a step is about *)
  Variable about : step -> pystr -> Prop.
  (** what has to hold when its turn comes *)
  Variable now : step -> os -> Prop.
  (** The steps are carried out in order; the first exception ends the script. *)
  Fixpoint play (l : list step) : W (list opres) :=
    match l with
    | [] => mret []
    | st :: l => r ← does st; rs ← play l; mret (r :: rs)
    end.
  Fixpoint in_turn (l : list step) (c : ctl) : Prop :=
    match l with
    | [] => True
    | st :: l => now st (sysof c) /\ forall res c1, does st c = (Ok res, c1) -> in_turn l c1
    end.
  (** no two steps are about the same place *)
  Fixpoint apart (s : os) (l : list step) : Prop :=
    match l with
    | [] => True
    | st :: l => (forall st' p q pl n m, st' ∈ l -> about st p -> about st' q -> sees s p pl n -> ~ sees s q pl m) /\ apart s l
    end.
End sequence.
(** The path is free (in a file system in which every file is in a directory), or is the link asked for. *)
Definition linkable (s : os) (path target : pystr) : Prop := (sees_none s path /\ tree (o_fs s)) \/ exists pl n, sees s path pl n /\ n_kind n = KLink target.
