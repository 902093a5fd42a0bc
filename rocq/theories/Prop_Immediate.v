(** C80: an inventory that is a single host. *)
From Coq Require Import Lia.
From Verif Require Import Base Paths Ranks Urls Wrapper Dict_proofs Inventory Spec_Inventory Prop_Urls Immediate.
Local Open Scope nat_scope.

(** ** Specification *)
(** What may be given instead of an inventory, the url that is meant and the name of the host. *)
Inductive single : pystr -> pystr -> pystr -> Prop :=
| single_bare user host : plain host -> match user with Some u => 64%N ∉ u /\ 58%N ∉ u | None => True end ->
    single (ssh_part user host None) (lit "ssh://" ++ ssh_part user host None) host
| single_ssh user host port : plain host -> match user with Some u => 64%N ∉ u | None => True end ->
    match user, port with None, Some p => 64%N ∉ p | _, _ => True end ->
    single (lit "ssh://" ++ ssh_part user host port) (lit "ssh://" ++ ssh_part user host port) host
| single_local name : name <> [] -> single (lit "local:" ++ name) (lit "local:" ++ name) name
| single_localhost : single (lit "local:") (lit "local:") (lit "localhost").

Lemma set_nil e : set_ok e -> e_set e [] = [].
Proof. intros H. destruct (H []) as [_ K]. destruct (e_set e []) as [|x l]; [reflexivity|]. exfalso. apply (not_elem_of_nil x), K. left. Qed.
Lemma set_one e x : set_ok e -> e_set e [x] = [x].
Proof.
  intros H. destruct (H [x]) as [D K]. destruct (e_set e [x]) as [|y [|z l]].
  - exfalso. apply (not_elem_of_nil x), K. left.
  - f_equal. apply elem_of_list_singleton, K. left.
  - exfalso. assert (y = x) as -> by (apply elem_of_list_singleton, K; left). assert (z = x) as -> by (apply elem_of_list_singleton, K; right; left).
    apply NoDup_cons in D as [D _]. apply D. left.
Qed.
Definition single_groups : list (pystr * groupdecl) := [(s_all, GroupDecl s_all None [] []); (s_early, GroupDecl s_early None [] [])].
Lemma load_single e u : set_ok e ->
  load_decls (immediate_env e) [HStr u] None =
  (n ← extract_hostname (qualify_url u);
   o ← topological_order single_groups;
   Ok (Loaded [(n, HostDecl (Some (qualify_url u)) (Some n) None [s_all] [])] single_groups o)).
Proof.
  intros H. assert (Hn : e_set (immediate_env e) [] = []) by exact (set_nil e H). assert (H1 : forall x, e_set (immediate_env e) [x] = [x]) by (intros x; exact (set_one e x H)).
  unfold load_decls. cbn [preprocess_hosts preprocess_host hd_url hd_name mbind result_bind fmap option_fmap option_map].
  destruct (extract_hostname (qualify_url u)) as [n|x]; [|reflexivity]. cbn [mbind result_bind hd_groups app hd_file hd_vars dhas dget].
  rewrite H1. change (dset n (HostDecl (Some (qualify_url u)) (Some n) None [s_all] []) []) with [(n, HostDecl (Some (qualify_url u)) (Some n) None [s_all] [])].
  unfold preprocess_groups, default_groups. change (List.concat (List.map (fun h => hd_groups h.2) [(n, HostDecl (Some (qualify_url u)) (Some n) None [s_all] [])])) with [s_all].
  rewrite H1. cbn [List.map preprocess_group_list preprocess_group mbind result_bind gd_name dhas dget gd_after gd_before gd_file].
  change (str_eqb s_all s_all) with true. cbn [app]. rewrite Hn. cbn [mbind result_bind].
  set (g := dset s_early (GroupDecl s_early None [] []) (dset s_all (GroupDecl s_all None [] []) [])).
  assert (Eg : g = single_groups) by (vm_compute; reflexivity). rewrite Eg. clear g Eg.
  change (dhas s_all single_groups) with true. cbn [mbind result_bind]. 
  assert (En : forall h, ensure_declared [(n, HostDecl h (Some n) None [s_all] [])] single_groups = Ok tt) by (intros h; vm_compute; reflexivity).
  rewrite En. cbn [mbind result_bind].
  assert (Em : merge_dependencies (immediate_env e) single_groups = single_groups).
  { unfold merge_dependencies. change (merge1 single_groups) with single_groups. unfold merge2, merge4. cbn [List.map single_groups gd_after gd_before gd_name gd_file fst snd]. rewrite Hn. 
    change (merge3 _) with single_groups. cbn [List.map single_groups gd_after gd_before gd_name gd_file fst snd]. rewrite Hn. reflexivity. }
  rewrite Em. change (detect_self single_groups) with (Ok tt : result unit). cbn [mbind result_bind]. reflexivity.
Qed.
Lemma single_order : exists o, topological_order single_groups = Ok o /\ List.filter (fun g => str_in g [s_all]) (o_names o) = [s_all].
Proof. eexists. split; [vm_compute; reflexivity|]. vm_compute. reflexivity. Qed.
Section single_host.
  Variable e : env.
  Variables n u : pystr.
  Definition single_decl : hostdecl := HostDecl (Some u) (Some n) None [s_all] [].
  Definition explicits : obj := opaque (immediate_env e) (lit "explicits").
  Definition decl_obj : obj := opaque (immediate_env e) (lit "decl:" ++ n).
  Definition all_wrapper : wrapper :=
    Wrapper [(lit "name", name_obj (immediate_env e) s_all)]
      (Some (opaque (immediate_env e) (lit "group:" ++ s_all),
        [(lit "name", name_obj (immediate_env e) s_all); (lit "fora_managed", fora_managed (immediate_env e)); (lit "module", explicits); (lit "host", decl_obj)])).
  Definition all_exports : ns := [(lit "module", explicits); (lit "fora_managed", fora_managed (immediate_env e)); (lit "host", decl_obj)].
  Definition host_wrapper : wrapper :=
    Wrapper (host_fields (immediate_env e) single_decl n)
      (Some (opaque (immediate_env e) (lit "host:" ++ n),
        host_fields (immediate_env e) single_decl n ++
        [(lit "create_connector", opaque (immediate_env e) (lit "method:create_connector")); (lit "vars_hierarchical", opaque (immediate_env e) (lit "method:vars_hierarchical"))] ++ all_exports)).
  Lemma load_all : load_group (immediate_env e) (immediate_wrapper e) single_groups s_all (Some (early_wrapper (immediate_env e) n single_decl)) = Ok all_wrapper.
  Proof. vm_compute. reflexivity. Qed.
  Lemma exports_all : exported_variables group_cls all_wrapper = Ok all_exports.
  Proof. vm_compute. reflexivity. Qed.
  Lemma no_conflict o : exists hist, record_all o s_all (Some (early_wrapper (immediate_env e) n single_decl)) (Some s_all) all_exports
    (early_history (immediate_env e) o n single_decl) = (hist, []).
  Proof.
    unfold early_history. cbn [hd_vars single_decl record_all foldl fst snd].
    set (h0 := record_change o s_early None (Some s_early) (lit "host") (opaque (immediate_env e) (lit "decl:" ++ n)) ([], [])).
    assert (E0 : h0 = ([(lit "host", [Snapshot false s_early (oval decl_obj)])], [])) by (vm_compute; reflexivity). rewrite E0. clear h0 E0.
    unfold record_all, all_exports. cbn [foldl fst snd].
    set (init := Some (early_wrapper (immediate_env e) n single_decl)).
    assert (R : forall a v h, dget a h = None -> exists h', record_change o s_all init (Some s_all) a v (h, []) = (h', []) /\ forall b, b <> a -> dget b h' = dget b h).
    { intros a v h Ha. unfold record_change. rewrite Ha. unfold init at 1. destruct (_ || _).
      - eexists. split; [reflexivity|]. intros b Hb. rewrite dget_dset. destruct (decide (b = a)); [contradiction|reflexivity].
      - exists h. split; [reflexivity|]. intros b _. reflexivity. }
    set (h0 := [(lit "host", [Snapshot false s_early (oval decl_obj)])]).
    destruct (R (lit "module") explicits h0) as (h1 & -> & D1); [vm_compute; reflexivity|].
    destruct (R (lit "fora_managed") (fora_managed (immediate_env e)) h1) as (h2 & -> & D2).
    { rewrite D1; [vm_compute; reflexivity|]. intros H. vm_compute in H. discriminate. }
    assert (Hh : dget (lit "host") h2 = Some [Snapshot false s_early (oval decl_obj)]).
    { rewrite D2, D1; [vm_compute; reflexivity|intros H; vm_compute in H; discriminate|intros H; vm_compute in H; discriminate]. }
    exists h2. unfold record_change. unfold previous_value. rewrite Hh. cbn [last sn_val]. rewrite bool_decide_true by reflexivity. cbn [negb].
    assert (Eo : overwritten init (lit "host") decl_obj = false).
    { unfold overwritten, init. assert (Eg : get_attr group_cls (early_wrapper (immediate_env e) n single_decl) (lit "host") = Some (FObj decl_obj)) by (vm_compute; reflexivity).
      rewrite Eg, N.eqb_refl. reflexivity. }
    rewrite Eo. unfold init. reflexivity.
  Qed.
  Lemma load_single_host : load_host (immediate_env e) [(n, single_decl)] n all_wrapper = Ok host_wrapper.
  Proof.
    unfold load_host. assert (E : dget n [(n, single_decl)] = Some single_decl) by (cbn [dget]; rewrite str_eqb_refl; reflexivity).
    rewrite E. cbn [single_decl hd_name]. rewrite exports_all. cbn [mbind result_bind]. vm_compute. reflexivity.
  Qed.
  Lemma host_exports : exists v, exported_variables host_cls host_wrapper = Ok v.
  Proof. eexists. vm_compute. reflexivity. Qed.
  Lemma instanciate_single o : List.filter (fun g => str_in g [s_all]) (o_names o) = [s_all] ->
    exists hist, instanciate_host (immediate_env e) (immediate_wrapper e) (Loaded [(n, single_decl)] single_groups o) n = Ok (host_wrapper, hist).
  Proof.
    intros Ho. unfold instanciate_host. cbn [l_hosts l_groups l_order].
    assert (E : dget n [(n, single_decl)] = Some single_decl) by (cbn [dget]; rewrite str_eqb_refl; reflexivity).
    rewrite E. change (hd_groups single_decl) with [s_all]. rewrite Ho. cbn [load_groups]. rewrite load_all. cbn [mbind result_bind]. rewrite exports_all. cbn [mbind result_bind].
    destruct (no_conflict o) as [hist ->]. rewrite load_single_host. cbn [mbind result_bind]. destruct host_exports as [v ->]. cbn [mbind result_bind]. eexists. reflexivity.
  Qed.
End single_host.
Lemma single_name arg url n : single arg url n -> qualify_url arg = url /\ extract_hostname url = Ok n.
Proof.
  intros [user host Hp Hu|user host port Hp Hu Hq|name Hn|].
  - assert (E : 58%N ∉ ssh_part user host None).
    { unfold ssh_part. rewrite app_nil_r. destruct user as [w|]; [|cbn [app]; apply Hp]. rewrite !elem_of_app. destruct Hu as [_ Hu].
      intros [[H|H]|H]; [contradiction|apply elem_of_list_singleton in H; discriminate|apply Hp, H]. }
    split; [apply C34_unqualified, E|]. apply (C34_ssh_hostname user host None Hp); [destruct user; tauto|destruct user; exact I].
  - split; [|apply C34_ssh_hostname; assumption]. apply C34_unqualified. apply elem_of_app. left. apply (bool_decide_unpack _). vm_compute. exact I.
  - split; [apply C34_unqualified; apply elem_of_app; left; apply (bool_decide_unpack _); vm_compute; exact I|]. rewrite C34_local_hostname. rewrite decide_False by exact Hn. reflexivity.
  - split; vm_compute; reflexivity.
Qed.
Lemma load_inventory_single e read arg : set_ok e -> endswith arg (lit ".py") = false ->
  load_inventory e read arg = fatal (n ← extract_hostname (qualify_url arg); Ok [(n, host_wrapper e n (qualify_url arg))]).
Proof.
  intros He Ha. unfold load_inventory. rewrite Ha. f_equal. unfold load. rewrite (load_single e arg He).
  destruct (extract_hostname (qualify_url arg)) as [n|x]; [|reflexivity]. cbn [mbind result_bind]. destruct single_order as (o & Eo & Fo). rewrite Eo. cbn [mbind result_bind l_hosts].
  change ([(n, HostDecl (Some (qualify_url arg)) (Some n) None [s_all] [])].*1) with [n]. cbn [instanciate_all].
  destruct (instanciate_single e n (qualify_url arg) o Fo) as [hist E]. unfold single_decl in E. rewrite E. reflexivity.
Qed.
Lemma no_suffix arg : ~ lit ".py" `suffix_of` arg -> endswith arg (lit ".py") = false.
Proof.
  intros H. unfold endswith. destruct (startswith (rev arg) (rev (lit ".py"))) eqn:E; [|reflexivity]. exfalso. apply H. apply startswith_true in E as [r E].
  exists (rev r). rewrite <- (rev_involutive arg), E, rev_app_distr, rev_involutive. reflexivity.
Qed.

(** C80.  Full statement (false): the same without the hypothesis on ".py"; below. *)
Theorem C80_single_partial : forall e read arg url n, set_ok e -> single arg url n -> ~ lit ".py" `suffix_of` arg ->
  exists w, load_inventory e read arg = Ok [(n, w)] /\
    (exists o, get_attr host_cls w (lit "url") = Some (FObj o) /\ oval o = VStr url) /\
    (exists o, get_attr host_cls w (lit "name") = Some (FObj o) /\ oval o = VStr n) /\
    forall x o, host_var x -> get_attr host_cls w x = Some (FObj o) -> x = lit "fora_managed".
Proof.
  intros e read arg url n He Hs Hp. destruct (single_name arg url n Hs) as [Hq Hn]. exists (host_wrapper e n url).
  split; [rewrite (load_inventory_single e read arg He (no_suffix arg Hp)), Hq, Hn; reflexivity|].
  split; [eexists; split; [vm_compute; reflexivity|reflexivity]|]. split; [eexists; split; [vm_compute; reflexivity|reflexivity]|].
  intros x o ((Hx1 & Hx2 & Hx3) & Hx4 & Hx5) H. destruct (decide (x = lit "fora_managed")) as [->|Nf]; [reflexivity|]. exfalso.
  assert (F : forall y, y ∈ (lit "host" :: lit "fora_managed" :: base_attrs ++ host_members ++ host_methods) -> str_eqb x y = false).
  { intros y Hy. apply str_eqb_false. intros ->. apply elem_of_cons in Hy as [Hy|Hy]; [contradiction|]. apply elem_of_cons in Hy as [Hy|Hy]; [contradiction|].
    apply elem_of_app in Hy as [Hy|Hy]; contradiction. }
  unfold get_attr in H. cbn [w_module host_wrapper] in H. rewrite Hx1 in H.
  assert (E1 : dget x (host_fields (immediate_env e) (single_decl n url) n ++ [(lit "create_connector", opaque (immediate_env e) (lit "method:create_connector"));
    (lit "vars_hierarchical", opaque (immediate_env e) (lit "method:vars_hierarchical"))] ++ all_exports e n) = None).
  { unfold host_fields, all_exports. cbn [app dget]. rewrite !F by (apply (bool_decide_unpack _); vm_compute; exact I). reflexivity. }
  rewrite E1 in H. unfold object_get in H. cbn [instance_dict w_module host_wrapper w_dict] in H.
  assert (E2 : dget x (dset (lit "module") (opaque (immediate_env e) (lit "host:" ++ n)) (host_fields (immediate_env e) (single_decl n url) n)) = None).
  { rewrite dget_dset. destruct (decide (x = lit "module")) as [->|Nm].
    - exfalso. apply Hx3. apply (bool_decide_unpack _). vm_compute. exact I.
    - unfold host_fields. cbn [dget]. rewrite !F by (apply (bool_decide_unpack _); vm_compute; exact I). reflexivity. }
  rewrite E2 in H. destruct (str_in x (c_attrs host_cls)); discriminate.
Qed.
Print Assumptions C80_single_partial.
(** A schema that is neither ssh nor local is refused. *)
Theorem C80_refused : forall e read schema rest, set_ok e -> 58%N ∉ schema -> schema <> lit "ssh" -> schema <> lit "local" -> ~ lit ".py" `suffix_of` (schema ++ lit ":" ++ rest) ->
  exists m, load_inventory e read (schema ++ lit ":" ++ rest) = Err (FatalError m).
Proof.
  intros e read schema rest He H1 H2 H3 Hp. rewrite (load_inventory_single e read _ He (no_suffix _ Hp)).
  destruct (C34_unqualified (schema ++ lit ":" ++ rest)) as (_ & Q & _). rewrite Q by (apply elem_of_app; right; left).
  unfold extract_hostname. assert (Hc : has_char 58 (schema ++ lit ":" ++ rest) = true).
  { destruct (C34_unqualified (schema ++ lit ":" ++ rest)) as (_ & Q' & Q''). rewrite Q' in Q'' by (apply elem_of_app; right; left). exact Q''. }
  rewrite Hc. cbn [negb].
  assert (Hh : head (split_char 58 (schema ++ lit ":" ++ rest)) = Some schema).
  { clear - H1. change (lit ":" ++ rest) with (58%N :: rest). induction schema as [|c s IH]; [reflexivity|]. apply not_elem_of_cons in H1 as [H1 H2].
    specialize (IH H2). cbn [app split_char]. destruct (N.eqb_spec c 58) as [->|]; [contradiction|]. destruct (split_char 58 (s ++ 58%N :: rest)) as [|x t]; [discriminate|].
    cbn [head] in IH |- *. injection IH as ->. reflexivity. }
  rewrite Hh. cbn [default from_option]. change (id schema) with schema. rewrite (proj2 (str_eqb_false schema (lit "ssh")) H2), (proj2 (str_eqb_false schema (lit "local")) H3).
  cbn [mbind result_bind fatal]. eexists. reflexivity.
Qed.
Print Assumptions C80_refused.
(** A host in Paraguay is taken for the file of an inventory: it cannot be read, or it is read. *)
Theorem C80_suffix_refuted : exists arg url n, single arg url n /\
  forall e read, set_ok e -> (forall x, read arg = Err x -> load_inventory e read arg = Err x) /\
    (forall i, read arg = Ok i -> if_hosts i = Some (Some []) -> if_groups i = None -> forall w, load_inventory e read arg <> Ok [(n, w)]).
Proof.
  exists (lit "www.example.com.py"), (lit "ssh://www.example.com.py"), (lit "www.example.com.py"). split.
  { apply (single_bare None (lit "www.example.com.py")); [|exact I]. split; apply (bool_decide_unpack _); vm_compute; exact I. }
  intros e read He. split.
  - intros x Hr. unfold load_inventory. change (endswith (lit "www.example.com.py") (lit ".py")) with true. rewrite Hr. reflexivity.
  - intros i Hr Hh Hg w. unfold load_inventory. change (endswith (lit "www.example.com.py") (lit ".py")) with true. rewrite Hr. cbn [mbind result_bind]. rewrite Hh, Hg.
    unfold load. destruct (load_decls e [] None) as [l|x] eqn:El.
    + assert (Eh : l_hosts l = []).
      { unfold load_decls in El. cbn [preprocess_hosts mbind result_bind] in El. destruct (preprocess_groups e [] None) as [g|]; [|discriminate]. cbn [mbind result_bind] in El.
        destruct (ensure_declared [] g) as [[]|]; [|discriminate]. cbn [mbind result_bind] in El. destruct (detect_self (merge_dependencies e g)) as [[]|]; [|discriminate]. cbn [mbind result_bind] in El.
        destruct (topological_order (merge_dependencies e g)) as [o|]; [|discriminate]. cbn [mbind result_bind] in El. injection El as <-. reflexivity. }
      cbn [mbind result_bind]. rewrite Eh. cbn. discriminate.
    + cbn [mbind result_bind]. destruct x; cbn; discriminate.
Qed.
Print Assumptions C80_suffix_refuted.
(** The help text promises ssh for urls without a schema; a port is taken for one. *)
Theorem C80_port_refuted : exists host port, plain host /\
  forall e read, set_ok e -> exists m, load_inventory e read (ssh_part None host (Some port)) = Err (FatalError m).
Proof.
  exists (lit "example.com"), (lit "2222"). split; [split; apply (bool_decide_unpack _); vm_compute; exact I|]. intros e read He.
  apply (C80_refused e read (lit "example.com") (lit "2222") He).
  - apply (bool_decide_unpack _). vm_compute. exact I.
  - intros H. vm_compute in H. discriminate.
  - intros H. vm_compute in H. discriminate.
  - intros [k H]. apply (f_equal (@rev N)) in H. rewrite (rev_app_distr k (lit ".py")) in H. vm_compute in H. discriminate.
Qed.
Print Assumptions C80_port_refuted.
Example C80_example : single (lit "root@example.com") (lit "ssh://root@example.com") (lit "example.com") /\ ~ lit ".py" `suffix_of` lit "root@example.com" /\
  single (lit "local:") (lit "local:") (lit "localhost").
Proof.
  split; [|split; [|constructor]].
  - apply (single_bare (Some (lit "root")) (lit "example.com")); (split; apply (bool_decide_unpack _); vm_compute; exact I).
  - intros [k H]. apply (f_equal (@rev N)) in H. rewrite (rev_app_distr k (lit ".py")) in H. vm_compute in H. discriminate.
Qed.
