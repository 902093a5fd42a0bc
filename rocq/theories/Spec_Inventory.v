(** What an inventory means, independently of how it is processed. *)
From Verif Require Import Base Paths Urls Wrapper Spec_Ranks Inventory.

(** [list(set(l))] is some list of the elements of [l] without duplicates. *)
Definition set_ok (e : env) : Prop := forall l, NoDup (e_set e l) /\ forall x, x ∈ e_set e l <-> x ∈ l.

(** ** Groups *)

(** a group declared in the inventory: name, groups it comes after, groups it comes before *)
Inductive declares : groupspec -> pystr -> list pystr -> list pystr -> Prop :=
| declares_str n : declares (GStr n) n [] []
| declares_decl d : declares (GDecl d) (gd_name d) (gd_after d) (gd_before d).
(** the groups a host names *)
Definition host_names_group (h : hostspec) (g : pystr) : Prop :=
  match h with HDecl d => g ∈ hd_groups d | _ => False end.

Section spec.
  Variable hs : list hostspec.
  Variable gs : option (list groupspec).

  (** explicitly declared, or used by a host when there are no declarations (every host is in [all]) *)
  Definition declared (g : pystr) : Prop :=
    match gs with
    | Some l => exists s a b, s ∈ l /\ declares s g a b
    | None => exists h, h ∈ hs /\ (host_names_group h g \/ g = s_all)
    end.
  Definition group_exists (g : pystr) : Prop := declared g \/ g = s_all \/ g = s_early.

  (** [v] has to come after [u].  The group for the variables of host declarations is internal; what a user
      declares under its name is ignored. *)
  Definition direct (u v : pystr) : Prop :=
    (exists l s a b, gs = Some l /\ s ∈ l /\ declares s v a b /\ u ∈ a /\ v <> s_early) \/
    (exists l s a b, gs = Some l /\ s ∈ l /\ declares s u a b /\ v ∈ b /\ u <> s_early) \/
    (u = s_all /\ declared v /\ v <> s_all /\ v <> s_early) \/
    (u = s_early /\ v = s_all /\ ~ declared s_all).

  (** what is mentioned in a declaration *)
  Definition mentioned (g : pystr) : Prop :=
    (exists h, h ∈ hs /\ host_names_group h g) \/
    exists l s n a b, gs = Some l /\ s ∈ l /\ declares s n a b /\ n <> s_early /\ (g ∈ a \/ g ∈ b).

  Definition specs_ok : Prop := forall l, gs = Some l ->
    (forall s, s ∈ l -> exists n a b, declares s n a b) /\
    (forall i j si sj n a b a' b', l !! i = Some si -> l !! j = Some sj -> declares si n a b -> declares sj n a' b' -> i = j).

  (** groups are acceptable: declared once, nothing unknown is mentioned, no group depends on itself *)
  Definition groups_ok : Prop :=
    specs_ok /\ (forall g, mentioned g -> group_exists g) /\ ~ cyclic direct.

  (** a module file is given explicitly for a group *)
  Definition has_file (g f : pystr) : Prop :=
    exists l d, gs = Some l /\ GDecl d ∈ l /\ gd_name d = g /\ g <> s_early /\ gd_file d = Some f.
End spec.

(** [u] comes before [v] in [l] *)
Definition precedes (l : list pystr) (u v : pystr) : Prop := exists l1 l2 l3, l = l1 ++ u :: l2 ++ v :: l3.

(** ** Hosts *)
(** what becomes of one element of [hosts] *)
Definition host_entry (h : hostspec) (nd : pystr * hostdecl) : Prop :=
  let '(n, d) := nd in
  let url := match h with HStr u => Some u | HDecl d0 => hd_url d0 | _ => None end in
  hd_name d = Some n /\
  hd_url d = qualify_url <$> url /\
  (forall g, g ∈ hd_groups d <-> host_names_group h g \/ g = s_all) /\ NoDup (hd_groups d) /\
  match h with
  | HStr u => extract_hostname (qualify_url u) = Ok n /\ hd_file d = None /\ hd_vars d = []
  | HDecl d0 =>
      match hd_name d0 with
      | Some m => n = m
      | None => exists u, hd_url d0 = Some u /\ extract_hostname (qualify_url u) = Ok n
      end /\ hd_file d = hd_file d0 /\ hd_vars d = hd_vars d0
  | _ => False
  end.

(** The longest chain of a graph *)
Definition longest {T} (edge : T -> T -> Prop) (n : nat) : Prop :=
  (exists u v, path edge u n v) /\ forall u v m, path edge u m v -> m <= n.

(** ** Variables *)

(** [A]: every module file just assigns constants, in the order of the list *)
Definition files_constant (e : env) (A : pystr -> option ns) : Prop :=
  forall p, match e_files e p with
            | Some run => exists a, A p = Some a /\ forall n, run n = Ok (dupdate n a)
            | None => A p = None
            end.
(** the value a file leaves in variable [x] *)
Definition assigned (A : pystr -> option ns) (p : pystr) (x : pystr) : option obj :=
  match A p with Some a => dget x (rev a) | None => None end.
(** the files of groups and hosts *)
Definition group_path (e : env) (groups : list (pystr * groupdecl)) (g : pystr) : pystr :=
  match dget g groups with
  | Some (GroupDecl _ (Some f) _ _) => path_join (e_base e) f
  | _ => path_join3 (e_base e) (e_groups_dir e) (g ++ lit ".py")
  end.
Definition host_path (e : env) (d : hostdecl) (n : pystr) : pystr :=
  match hd_file d with
  | Some f => path_join (e_base e) f
  | None => path_join3 (e_base e) (e_hosts_dir e) (n ++ lit ".py")
  end.
(** names without a meaning of their own for groups, for hosts *)
Definition group_var (x : pystr) : Prop := private x = false /\ x <> lit "name" /\ x ∉ base_attrs.
Definition host_var (x : pystr) : Prop := group_var x /\ x <> lit "host" /\ x ∉ host_members ++ host_methods.

(** the last of several definitions *)
Fixpoint latest (l : list (option obj)) : option obj :=
  match l with
  | [] => None
  | a :: r => match latest r with Some v => Some v | None => a end
  end.
(** given by the inventory itself *)
Definition inventory_value (e : env) (inv : wrapper) (x : pystr) : option obj :=
  latest [if str_eqb x (lit "fora_managed") then Some (fora_managed e) else None; dget x (exported inventory_cls inv)].
(** everything variable [x] of the host may be *)
Definition var_object (e : env) (A : pystr -> option ns) (inv : wrapper) (d : hostdecl) (x : pystr) (v : obj) : Prop :=
  (exists p, assigned A p x = Some v) \/ inventory_value e inv x = Some v \/ dget x (hd_vars d) = Some v.
(** python objects: identical ones are equal, there is one None, modules are not used as variables *)
Definition objects_ok (P : obj -> Prop) : Prop :=
  (forall v w, P v -> P w -> oid v = oid w -> v = w) /\
  (forall v w, P v -> P w -> oval v = VNone -> oval w = VNone -> v = w) /\
  (forall v, P v -> is_module v = false).

(** the same inventory with another order of groups, and other orders of the elements of sets *)
Definition same_surroundings (e1 e2 : env) : Prop :=
  e_base e1 = e_base e2 /\ e_groups_dir e1 = e_groups_dir e2 /\ e_hosts_dir e1 = e_hosts_dir e2 /\
  e_files e1 = e_files e2 /\ e_oid e1 = e_oid e2.
Definition same_groups (gs1 gs2 : option (list groupspec)) : Prop :=
  match gs1, gs2 with
  | Some l1, Some l2 => l1 ≡ₚ l2
  | None, None => True
  | _, _ => False
  end.

(** ** Acceptance *)
(** [p] defines [x] as [v] for the host: the declaration of the host, a group, or the inventory (which counts
    as part of the group [all]) *)
Definition defines (e : env) (A : pystr -> option ns) (inv : wrapper) (l : loaded) (d : hostdecl) (x p : pystr) (v : obj) : Prop :=
  (p = s_early /\ dget x (hd_vars d) = Some v) \/
  (p ∈ hd_groups d /\ assigned A (group_path e (l_groups l) p) x = Some v) \/
  (p = s_all /\ assigned A (group_path e (l_groups l) s_all) x = None /\ dget x (hd_vars d) = None /\ inventory_value e inv x = Some v).
(** values of different definitions are different objects, none is None *)
Definition fresh (e : env) (A : pystr -> option ns) (inv : wrapper) (l : loaded) (d : hostdecl) (x : pystr) : Prop :=
  (forall p q v w, defines e A inv l d x p v -> defines e A inv l d x q w -> p <> q -> oid v <> oid w) /\
  (forall p v, defines e A inv l d x p v -> oval v <> VNone).
(** only ordinary names are used for variables *)
Definition ordinary (e : env) (A : pystr -> option ns) (inv : wrapper) (d : hostdecl) : Prop :=
  forall x v, var_object e A inv d x v -> group_var x /\ x <> lit "host".
(** the files explicitly given exist *)
Definition files_exist (e : env) (l : loaded) (d : hostdecl) : Prop :=
  (forall g gd f, dget g (l_groups l) = Some gd -> gd_file gd = Some f -> e_files e (path_join (e_base e) f) <> None) /\
  (forall f, hd_file d = Some f -> e_files e (path_join (e_base e) f) <> None).

(** the name of a host: given, or extracted from its url *)
Definition host_named (h : hostspec) (n : pystr) : Prop :=
  match h with
  | HStr u => extract_hostname (qualify_url u) = Ok n
  | HDecl d => match hd_name d with
               | Some m => n = m
               | None => exists u, hd_url d = Some u /\ extract_hostname (qualify_url u) = Ok n
               end
  | _ => False
  end.
Definition hosts_ok (hs : list hostspec) : Prop := exists names, Forall2 host_named hs names /\ NoDup names.

(** [q] may come so early and [p] so late that their ranks overlap (variables of the host's declaration always
    come first) *)
Definition clash (hs : list hostspec) (gs : option (list groupspec)) (p q : pystr) : Prop :=
  exists N dp dq hp, longest (direct hs gs) N /\ depth (direct hs gs) p dp /\ depth (direct hs gs) q dq /\ height (direct hs gs) p hp /\
    (p = s_early \/ q <> s_early /\ dp <= dq) /\ dq + hp <= N.
