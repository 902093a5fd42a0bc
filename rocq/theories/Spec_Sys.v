(** Specification of what paths and names mean, without link budgets and search loops. *)
From stdpp Require Import gmap.
From Verif Require Import Base Paths Sys.

Definition kind_at (fs : fsys) (pl : place) : option kind := n_kind <$> fs !! pl.
Definition plain_name (c : pystr) : Prop := c <> lit "." /\ c <> lit "..".

(** [leads fs follow cur l pl]: walking along [l] from the directory [cur] one arrives at [pl].  With [follow] a final symbolic link is
    followed as well. *)
Inductive leads (fs : fsys) (follow : bool) : place -> list pystr -> place -> Prop :=
| leads_done cur : leads fs follow cur [] cur
| leads_dot cur r pl : leads fs follow cur r pl -> leads fs follow cur (lit "." :: r) pl
| leads_dotdot cur r pl : leads fs follow (tail cur) r pl -> leads fs follow cur (lit ".." :: r) pl
| leads_dir cur c r pl : plain_name c -> kind_at fs (c :: cur) = Some KDir ->
    leads fs follow (c :: cur) r pl -> leads fs follow cur (c :: r) pl
| leads_file cur c b : plain_name c -> kind_at fs (c :: cur) = Some (KFile b) -> leads fs follow cur [c] (c :: cur)
| leads_other cur c t : plain_name c -> kind_at fs (c :: cur) = Some (KOther t) -> leads fs follow cur [c] (c :: cur)
| leads_this cur c t : plain_name c -> kind_at fs (c :: cur) = Some (KLink t) -> follow = false -> leads fs follow cur [c] (c :: cur)
| leads_link cur c r t pl : plain_name c -> kind_at fs (c :: cur) = Some (KLink t) -> t <> [] ->
    (r = [] -> follow = true) ->
    leads fs follow (if isabs t then [] else cur) (comps t ++ r) pl ->
    leads fs follow cur (c :: r) pl.

(** The path [p] names the file [n], which is at [pl]. *)
Definition names (fs : fsys) (cwd : place) (p : pystr) (follow : bool) (pl : place) (n : node) : Prop :=
  (nul ∉ p) /\ p <> [] /\ leads fs follow (if isabs p then [] else cwd) (comps p) pl /\ fs !! pl = Some n.

(** ** Accounts: names take precedence over numbers *)
Definition denotes_user (s : os) (u : pystr) (a : account) : Prop :=
  a ∈ o_passwd s /\
  (pw_name a = u \/ ((forall a', a' ∈ o_passwd s -> pw_name a' <> u) /\ py_int 10 u = Some (Z.of_N (pw_uid a)))).
Definition denotes_group (s : os) (g : pystr) (a : grent) : Prop :=
  a ∈ o_group s /\
  (gr_name a = g \/ ((forall a', a' ∈ o_group s -> gr_name a' <> g) /\ py_int 10 g = Some (Z.of_N (gr_gid a)))).

(** Nothing but the schedule of failures was used up. *)
Definition unaffected (s s' : os) : Prop := s' = set_faults (o_faults s') s.
(** At most the file system was changed. *)
Definition only_files (s s' : os) : Prop := s' = set_faults (o_faults s') (set_fs (o_fs s') s).
