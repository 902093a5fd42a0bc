(** inventory_wrapper.py: declarations, group order, instantiation of hosts. *)
From Verif Require Import Base Paths Ranks Urls Wrapper.

(** inventory_wrapper.py:15-60 [HostDeclaration], 77-104 [GroupDeclaration] *)
Record hostdecl := HostDecl {
  hd_url : option pystr; hd_name : option pystr; hd_file : option pystr; hd_groups : list pystr; hd_vars : ns }.
Record groupdecl := GroupDecl {
  gd_name : pystr; gd_file : option pystr; gd_after : list pystr; gd_before : list pystr }.
(** Elements of the lists [hosts] and [groups] of an inventory: a string, a declaration (or a dict
    with its fields), a dict with wrong keys, anything else. *)
Inductive hostspec := HStr (url : pystr) | HDecl (d : hostdecl) | HBadDict | HOther.
Inductive groupspec := GStr (name : pystr) | GDecl (d : groupdecl) | GBadDict | GOther.

(** The surroundings: [list(set(l))] as a function of [l]; the directory of the inventory; the
    module files with the effect of executing them on the namespace; an object identity for each object
    created by the inventory itself. *)
Record env := Env {
  e_set : list pystr -> list pystr;
  e_base : pystr; e_groups_dir : pystr; e_hosts_dir : pystr;
  e_files : pystr -> option (ns -> result ns);
  e_oid : pystr -> N }.

Definition s_all : pystr := lit "all".
Definition s_early : pystr := lit "early-explicits".

Section inventory.
  Variable e : env.
  Implicit Types hosts : list (pystr * hostdecl).
  Implicit Types groups : list (pystr * groupdecl).

  (** 353-391 [_preprocess_host_declarations].  Simplification: the messages omit [str(host)]. *)
  Definition preprocess_host hosts (h : hostspec) : result (list (pystr * hostdecl)) :=
    decl ← match h with
           | HDecl d => Ok d
           | HStr u => Ok (HostDecl (Some u) None None [] [])
           | HBadDict => Err TypeError
           | HOther => Err (ValueError (lit "Invalid host declaration"))
           end;
    let url := qualify_url <$> hd_url decl in
    name ← match hd_name decl with
           | Some n => Ok n
           | None => match url with
                     | None => Err (ValueError (lit "Invalid host declaration, must include either a url or a name!"))
                     | Some u => extract_hostname u
                     end
           end;
    let grps := e_set e (hd_groups decl ++ [s_all]) in
    if dhas name hosts then Err (ValueError (lit "Duplicate host '" ++ name ++ lit "'"))
    else Ok (dset name (HostDecl url (Some name) (hd_file decl) grps (hd_vars decl)) hosts).
  Fixpoint preprocess_hosts hosts (l : list hostspec) : result (list (pystr * hostdecl)) :=
    match l with
    | [] => Ok hosts
    | h :: r => hosts' ← preprocess_host hosts h; preprocess_hosts hosts' r
    end.

  (** 393-439 [_preprocess_group_declarations] *)
  Definition preprocess_group groups (g : groupspec) : result (list (pystr * groupdecl)) :=
    decl ← match g with
           | GDecl d => Ok d
           | GStr n => Ok (GroupDecl n None [] [])
           | GBadDict => Err TypeError
           | GOther => Err (ValueError (lit "Invalid group declaration"))
           end;
    if dhas (gd_name decl) groups then Err (ValueError (lit "Duplicate group '" ++ gd_name decl ++ lit "'"))
    else
      let after := e_set e (gd_after decl ++ (if str_eqb (gd_name decl) s_all then [] else [s_all])) in
      Ok (dset (gd_name decl) (GroupDecl (gd_name decl) (gd_file decl) after (e_set e (gd_before decl))) groups).
  Fixpoint preprocess_group_list groups (l : list groupspec) : result (list (pystr * groupdecl)) :=
    match l with
    | [] => Ok groups
    | g :: r => groups' ← preprocess_group groups g; preprocess_group_list groups' r
    end.
  (** 405-411: without a declaration the groups used by the hosts *)
  Definition default_groups hosts : list groupspec :=
    List.map GStr (e_set e (List.concat (List.map (fun h => hd_groups h.2) hosts))).
  Definition preprocess_groups hosts (decl : option (list groupspec)) : result (list (pystr * groupdecl)) :=
    groups ← preprocess_group_list [] (match decl with Some l => l | None => default_groups hosts end);
    let groups := dset s_early (GroupDecl s_early None [] []) groups in
    Ok (if dhas s_all groups then groups
        else dset s_all (GroupDecl s_all None [s_early] []) groups).

  (** 441-461 [_ensure_used_groups_are_declared] *)
  Fixpoint all_declared groups (l : list pystr) (msg : pystr -> pystr) : result unit :=
    match l with
    | [] => Ok tt
    | g :: r => if dhas g groups then all_declared groups r msg else Err (ValueError (msg g))
    end.
  Fixpoint check_hosts groups hosts : result unit :=
    match hosts with
    | [] => Ok tt
    | (n, h) :: r =>
        _ ← all_declared groups (hd_groups h) (fun g => lit "Unknown group '" ++ g ++ lit "' used in declaration of host '" ++ n ++ lit "'");
        check_hosts groups r
    end.
  Fixpoint check_groups groups (l : list (pystr * groupdecl)) : result unit :=
    match l with
    | [] => Ok tt
    | (n, d) :: r =>
        _ ← all_declared groups (gd_after d) (fun g => lit "Unknown group '" ++ g ++ lit "' used in after set of group '" ++ n ++ lit "'");
        _ ← all_declared groups (gd_before d) (fun g => lit "Unknown group '" ++ g ++ lit "' used in after set of group '" ++ n ++ lit "'");
        check_groups groups r
    end.
  Definition ensure_declared hosts groups : result unit :=
    _ ← check_hosts groups hosts; check_groups groups groups.

  (** 463-485 [_merge_group_dependencies].  The loops append to lists of declarations reached through
      the dictionary; a name that is not a key would be a KeyError, excluded by the check before. *)
  Definition add_after (g : pystr) (x : pystr) groups : list (pystr * groupdecl) :=
    List.map (fun kd => if str_eqb kd.1 g then (kd.1, GroupDecl (gd_name kd.2) (gd_file kd.2) (gd_after kd.2 ++ [x]) (gd_before kd.2)) else kd) groups.
  Definition add_before (g : pystr) (x : pystr) groups : list (pystr * groupdecl) :=
    List.map (fun kd => if str_eqb kd.1 g then (kd.1, GroupDecl (gd_name kd.2) (gd_file kd.2) (gd_after kd.2) (gd_before kd.2 ++ [x])) else kd) groups.
  (** 469-471.  The values iterated over are the same objects as those changed; only [after] changes
      while [before] is read. *)
  Definition merge1 groups : list (pystr * groupdecl) :=
    foldl (fun acc kd => foldl (fun acc b => add_after b (gd_name kd.2) acc) acc (gd_before kd.2)) groups groups.
  (** 474-476 *)
  Definition merge2 groups : list (pystr * groupdecl) :=
    List.map (fun kd => (kd.1, GroupDecl (gd_name kd.2) (gd_file kd.2) (e_set e (gd_after kd.2)) [])) groups.
  (** 479-481 *)
  Definition merge3 groups : list (pystr * groupdecl) :=
    foldl (fun acc kd => foldl (fun acc a => add_before a (gd_name kd.2) acc) acc (gd_after kd.2)) groups groups.
  (** 484-485 *)
  Definition merge4 groups : list (pystr * groupdecl) :=
    List.map (fun kd => (kd.1, GroupDecl (gd_name kd.2) (gd_file kd.2) (gd_after kd.2) (e_set e (gd_before kd.2)))) groups.
  Definition merge_dependencies groups : list (pystr * groupdecl) := merge4 (merge3 (merge2 (merge1 groups))).

  (** 487-498 [_detect_self_dependencies] *)
  Fixpoint detect_self groups : result unit :=
    match groups with
    | [] => Ok tt
    | (_, d) :: r =>
        if str_in (gd_name d) (gd_before d) || str_in (gd_name d) (gd_after d)
        then Err (ValueError (lit "Group '" ++ gd_name d ++ lit "' must not depend on itself"))
        else detect_self r
    end.

  (** [sort(key=...)], stable *)
  Fixpoint insert_by (key : pystr -> Z) (x : pystr) (l : list pystr) : list pystr :=
    match l with
    | [] => [x]
    | y :: r => if (key x <=? key y)%Z then x :: y :: r else y :: insert_by key x r
    end.
  Definition sort_by (key : pystr -> Z) (l : list pystr) : list pystr := foldr (insert_by key) [] l.
  (** [max(ranks.values())] *)
  Definition max_rank (r : pystr -> Z) (names : list pystr) : Z := foldr (fun n acc => Z.max (r n) acc) (-1)%Z names.

  Record order := Order { o_min : pystr -> Z; o_max : pystr -> Z; o_names : list pystr }.

  (** 500-545 [_calculate_topological_order] *)
  Definition befores groups (g : pystr) : list pystr := match dget g groups with Some d => gd_before d | None => [] end.
  Definition afters groups (g : pystr) : list pystr := match dget g groups with Some d => gd_after d | None => [] end.
  Definition ranks (names : list pystr) (preds childs : pystr -> list pystr) : result (pystr -> Z) :=
    match rank_sort names preds childs with
    | Done r => Ok r
    | Cycle _ => Err (ValueError (lit "Dependency cycle detected!"))
    | KeyErr => Err KeyError
    | NoFuel => Err OutOfFuel
    end.
  Definition topological_order groups : result order :=
    let names := groups.*1 in
    rt ← ranks names (afters groups) (befores groups);
    rb ← ranks names (befores groups) (afters groups);
    if negb (max_rank rt names =? max_rank rb names)%Z then Err AssertionError
    else
      let n := max_rank rb names in
      Ok (Order rt (fun g => (n - rb g)%Z) (sort_by rt names)).

  (** 547-571 [load] up to the instantiation of hosts *)
  Record loaded := Loaded { l_hosts : list (pystr * hostdecl); l_groups : list (pystr * groupdecl); l_order : order }.
  Definition load_decls (hspecs : list hostspec) (gspecs : option (list groupspec)) : result loaded :=
    hosts ← preprocess_hosts [] hspecs;
    groups ← preprocess_groups hosts gspecs;
    _ ← ensure_declared hosts groups;
    let groups := merge_dependencies groups in
    _ ← detect_self groups;
    o ← topological_order groups;
    Ok (Loaded hosts groups o).

  (** ** Instantiation of a host *)

  (** types.py:97-106 called as [wrapper.exported_variables()]: if the wrapped module defines a variable
      with the name of one of the two methods used, calling it fails (values that are not callable). *)
  Definition exported_variables (c : cls) (w : wrapper) : result ns :=
    match w_module w with
    | Some (_, m) =>
        if dhas (lit "exported_variables") m || dhas (lit "is_exported_variable") m then Err TypeError else Ok (exported c w)
    | None => Ok (exported c w)
    end.

  Definition name_obj (n : pystr) : obj := Obj (e_oid e (lit "name:" ++ n)) (VStr n).
  Definition opaque (n : pystr) : obj := Obj (e_oid e n) (VOpaque (e_oid e n)).

  (** 618-625: execution of the module file, or nothing *)
  Definition run_module (file : option pystr) (default_file : pystr) (m : ns) : result ns :=
    let path := match file with None => default_file | Some f => path_join (e_base e) f end in
    match e_files e path with
    | None => match file with
              | Some _ => Err (ValueError (lit "Module file does not exist but was explicitly specified"))
              | None => Ok m
              end
    | Some exec => exec m
    end.
  Definition is_file (file : option pystr) (default_file : pystr) : bool :=
    match e_files e (match file with None => default_file | Some f => path_join (e_base e) f end) with
    | Some _ => true | None => false end.

  (** the wrapped object: a module, or a namespace when there is no file *)
  Definition module_obj (n : pystr) (f : bool) : obj :=
    if f then Obj (e_oid e n) (VModule (e_oid e n)) else opaque n.

  Definition fora_managed : obj := Obj (e_oid e (lit "fora_managed")) (VStr (lit "This file is managed by fora.")).

  (** 577-628 [load_group].  [inv] is the inventory itself.  Module attributes starting with two underscores
      are left out of the namespace. *)
  Definition load_group (inv : wrapper) groups (name : pystr) (init : option wrapper) : result wrapper :=
    match dget name groups with
    | None => Err KeyError
    | Some d =>
        let dflt := path_join3 (e_base e) (e_groups_dir e) (gd_name d ++ lit ".py") in
        let m := [(lit "name", name_obj (gd_name d))] in
        m ← (if str_eqb (gd_name d) s_all then
               iv ← exported_variables inventory_cls inv;
               Ok (dupdate (dset (lit "fora_managed") fora_managed m) iv)
             else Ok m);
        m ← match init with
            | Some w => v ← exported_variables group_cls w; Ok (dupdate m v)
            | None => Ok m
            end;
        m ← run_module (gd_file d) dflt m;
        Ok (Wrapper [(lit "name", name_obj (gd_name d))]
              (Some (module_obj (lit "group:" ++ gd_name d) (is_file (gd_file d) dflt), m)))
    end.

  (** types.py:129-158 [wrap] with the members and methods of a host *)
  Definition host_fields (h : hostdecl) (name : pystr) : ns :=
    [(lit "inventory", opaque (lit "inventory")); (lit "name", name_obj name);
     (lit "url", match hd_url h with
                 | Some u => Obj (e_oid e (lit "url:" ++ name)) (VStr u)
                 | None => Obj (e_oid e (lit "None")) VNone end);
     (lit "groups", opaque (lit "groups:" ++ name));
     (lit "connector", Obj (e_oid e (lit "None")) VNone); (lit "connection", Obj (e_oid e (lit "None")) VNone)].
  (** 630-676 [load_host] *)
  Definition load_host hosts (host : pystr) (init : wrapper) : result wrapper :=
    match dget host hosts with
    | None => Err KeyError
    | Some d =>
        match hd_name d with
        | None => Err AssertionError
        | Some name =>
            let dflt := path_join3 (e_base e) (e_hosts_dir e) (name ++ lit ".py") in
            let m := host_fields d name ++
                     [(lit "create_connector", opaque (lit "method:create_connector"));
                      (lit "vars_hierarchical", opaque (lit "method:vars_hierarchical"))] in
            v ← exported_variables group_cls init;
            m ← run_module (hd_file d) dflt (dupdate m v);
            Ok (Wrapper (host_fields d name)
                  (Some (module_obj (lit "host:" ++ name) (is_file (hd_file d) dflt), m)))
        end
    end.

  (** 45-53 of types.py [VariableActionSnapshot]; [true] is "definition", [false] "modification".
      Simplification: [copy(value)] is a deep copy here. *)
  Record snapshot := Snapshot { sn_def : bool; sn_actor : pystr; sn_val : pyval }.
  Notation history := (list (pystr * list snapshot)).
  Record conflict := Conflict { cf_prev : pystr; cf_cur : pystr; cf_attr : pystr }.

  (** 750-782 [record_variable_change] *)
  Definition previous_value (hist : history) (attr : pystr) : pyval :=
    match dget attr hist with
    | None => VNone
    | Some l => match last l with Some s => sn_val s | None => VNone end
    end.
  Definition overwritten (init : option wrapper) (attr : pystr) (value : obj) : bool :=
    match init with
    | None => false
    | Some w => match get_attr group_cls w attr with
                | Some (FObj o) => negb (oid o =? oid value)%N
                | Some (FClass _) => true
                | None => false
                end
    end.
  Definition record_change (o : order) (actor : pystr) (init : option wrapper) (group : option pystr)
      (attr : pystr) (value : obj) (st : history * list conflict) : history * list conflict :=
    let '(hist, conflicts) := st in
    let was_modified := negb (bool_decide (previous_value hist attr = oval value)) in
    let was_overwritten := overwritten init attr value in
    let is_def := negb (was_modified && negb was_overwritten) in
    if match init with None => true | Some _ => was_overwritten || was_modified end then
      let new := match group, init, dget attr hist with
                 | Some g, Some _, Some prevs =>
                     List.map (fun p => Conflict (sn_actor p) actor attr)
                       (List.filter (fun p => (o_min o g <=? o_max o (sn_actor p))%Z && (sn_def p || is_def)) prevs)
                 | _, _, _ => []
                 end in
      (dset attr (match dget attr hist with Some l => l | None => [] end ++ [Snapshot is_def actor (oval value)]) hist,
       conflicts ++ new)
    else st.
  Definition record_all (o : order) (actor : pystr) (init : option wrapper) (group : option pystr) (vs : ns)
      (st : history * list conflict) : history * list conflict :=
    foldl (fun st kv => record_change o actor init group kv.1 kv.2 st) st vs.

  (** 784-798: the variables given in the declaration of the host *)
  Definition early_wrapper (host : pystr) (d : hostdecl) : wrapper :=
    Wrapper [(lit "name", name_obj s_early); (lit "host", opaque (lit "decl:" ++ host))]
      (Some (opaque (lit "explicits"), dupdate [] (hd_vars d))).
  Definition early_history (o : order) (host : pystr) (d : hostdecl) : history * list conflict :=
    record_all o s_early None (Some s_early) ((lit "host", opaque (lit "decl:" ++ host)) :: hd_vars d) ([], []).

  (** 800-806 *)
  Fixpoint load_groups (inv : wrapper) groups (o : order) (l : list pystr) (init : wrapper) (st : history * list conflict)
      : result (wrapper * (history * list conflict)) :=
    match l with
    | [] => Ok (init, st)
    | g :: r =>
        w ← load_group inv groups g (Some init);
        vs ← exported_variables group_cls w;
        load_groups inv groups o r w (record_all o g (Some init) (Some g) vs st)
    end.

  (** 697-823 [instanciate_host] *)
  Definition instanciate_host (inv : wrapper) (l : loaded) (host : pystr) : result (wrapper * history) :=
    match dget host (l_hosts l) with
    | None => Err AssertionError
    | Some d =>
        let in_order := List.filter (fun g => str_in g (hd_groups d)) (o_names (l_order l)) in
        r ← load_groups inv (l_groups l) (l_order l) in_order (early_wrapper host d) (early_history (l_order l) host d);
        let '(init, (hist, conflicts)) := r in
        match conflicts with
        | _ :: _ => Err (ValueError (lit "Conflict in variable assignment from two groups with ambiguous ordering."))
        | [] =>
            w ← load_host (l_hosts l) host init;
            vs ← exported_variables host_cls w;
            Ok (w, (record_all (l_order l) host (Some init) None vs (hist, [])).1)
        end
    end.

  (** 573-575 *)
  Fixpoint instanciate_all (inv : wrapper) (l : loaded) (names : list pystr) : result (list (pystr * wrapper)) :=
    match names with
    | [] => Ok []
    | h :: r =>
        w ← instanciate_host inv l h;
        ws ← instanciate_all inv l r;
        Ok ((h, w.1) :: ws)
    end.
  Definition load (inv : wrapper) (hspecs : list hostspec) (gspecs : option (list groupspec)) : result (list (pystr * wrapper)) :=
    l ← load_decls hspecs gspecs;
    instanciate_all inv l (l_hosts l).*1.
End inventory.
