(** Who is responsible for the value of a variable. *)
From Verif Require Import Base Paths Urls Wrapper Ranks Inventory.

(** The modules of a host, in the order in which they were loaded, with the variables that are visible after each. *)
Notation moments := (list (pystr * ns)).

(** The modules that made the variable [x] what it is: the one that bound it last, and those that modified it since.
    Unbinding a variable makes everybody before irrelevant. *)
Fixpoint authors (x : pystr) (before : option obj) (acc : list pystr) (l : moments) : list pystr :=
  match l with
  | [] => acc
  | (m, vs) :: r =>
      match dget x vs with
      | None => authors x None [] r
      | Some v =>
          authors x (Some v)
            (match before with
             | Some o => if decide (oid o = oid v) then if decide (oval o = oval v) then acc else acc ++ [m] else [m]
             | None => [m]
             end) r
      end
  end.

(** [x] is never unbound again, and its first value is not None *)
Definition steady (x : pystr) (l : moments) : Prop := exists pre post,
  l = pre ++ post /\ (forall m vs, (m, vs) ∈ pre -> dget x vs = None) /\
  (forall m vs, (m, vs) ∈ post -> exists v, dget x vs = Some v) /\
  forall m vs v, head post = Some (m, vs) -> dget x vs = Some v -> oval v <> VNone.

Section chain.
  Variable e : env.
  Variable inv : wrapper.
  Variable groups : list (pystr * groupdecl).

  (** loading groups one after the other, starting from [init] *)
  Inductive chain : wrapper -> list pystr -> moments -> wrapper -> Prop :=
  | chain_nil init : chain init [] [] init
  | chain_cons init g gs w vs ms final :
      load_group e inv groups g (Some init) = Ok w -> exported_variables group_cls w = Ok vs -> chain w gs ms final ->
      chain init (g :: gs) ((g, vs) :: ms) final.
End chain.

(** The moments of the host [host], declared by [d], whose groups are [gs] in order: the declaration, the groups, the host. *)
Definition life (e : env) (inv : wrapper) (l : loaded) (host : pystr) (d : hostdecl) (gs : list pystr) (w : wrapper) (ms : moments) : Prop :=
  exists ms0 init vs, chain e inv (l_groups l) (early_wrapper e host d) gs ms0 init /\
    load_host e (l_hosts l) host init = Ok w /\ exported_variables host_cls w = Ok vs /\
    ms = (s_early, exported group_cls (early_wrapper e host d)) :: ms0 ++ [(host, vs)].

(** module files leave dictionaries *)
Definition files_dict (e : env) : Prop :=
  forall p f m m', e_files e p = Some f -> f m = Ok m' -> NoDup m.*1 -> NoDup m'.*1.

(** the attributes that every host has *)
Definition documented (x : pystr) : Prop :=
  x ∈ List.map lit ["inventory"; "name"; "url"; "groups"; "connector"; "connection"; "_variable_action_history"; "create_connector"; "vars_hierarchical"]%string.
(** by code points *)
Definition alphabetical (a b : pystr) : Prop :=
  (exists r, b = a ++ r) \/ exists p x y a' b', a = p ++ x :: a' /\ b = p ++ y :: b' /\ (x < y)%N.
(** The place of a module: the position of a group in the order of groups, then the host. *)
Definition place (order : list pystr) (host m : pystr) (p : Z) : Prop :=
  m = host /\ p = Z.of_nat (length order) \/ exists i, order !! i = Some m /\ p = Z.of_nat i.
