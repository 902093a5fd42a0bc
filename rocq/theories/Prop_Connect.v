(** C95, C96: hosts are reached where they are said to be; whether fora knows how to reach them is known only when their turn comes. *)
From Coq Require Import Lia.
From stdpp Require Import gmap.
From Verif Require Import Base Sys Dispatcher Client Control Files_examples Remote_examples Prop_Control Prop_Files Prop_Dry Coreutils Fleet Prop_Fleet.
From Verif Require Import Dict_proofs Paths Urls Wrapper Spec_Wrapper Wrapper_proofs Ranks Inventory Spec_Inventory Inventory_proofs Inventory_proofs2 Inventory_vars Inventory_values Inventory_main
  Inventory_examples Prop_Inventory Prop_Urls Bootstrap Connect Spec_Connect.
From Verif Require Sys_proofs.
Local Open Scope nat_scope.

Definition s_url : pystr := lit "url".
Definition s_connector : pystr := lit "connector".
Lemma reserved x : x = s_url \/ x = s_connector -> group_var x /\ x <> lit "host" /\ x <> lit "module" /\ private x = false.
Proof. intros [->| ->]; (split; [split; [reflexivity|split; [discriminate|apply (bool_decide_unpack _); vm_compute; exact I]]|split; [discriminate|split; [discriminate|reflexivity]]]). Qed.

Lemma load_host_member e A hosts host d init w x : files_constant e A -> dget host hosts = Some d -> load_host e hosts host init = Ok w -> wf init -> x = s_url \/ x = s_connector ->
  exists n, hd_name d = Some n /\ exists mo m, w = Wrapper (host_fields e d n) (Some (mo, m)) /\
    dget x m = match assigned A (host_path e d n) x with Some v => Some v
               | None => match dget x (exported group_cls init) with Some v => Some v | None => dget x (host_fields e d n) end end.
Proof.
  intros HA Ed E Hi Hx. unfold load_host in E. rewrite Ed in E. destruct (hd_name d) as [n|] eqn:En; [|discriminate].
  exists n. split; [reflexivity|]. destruct (exported_variables group_cls init) as [vs|] eqn:Ev; cbn in E; [|discriminate].
  apply exported_ok in Ev as ->. cbn in E.
  match type of E with context [run_module e ?f ?p ?m] => destruct (run_module e f p m) as [m'|] eqn:Er; [|discriminate] end.
  cbn in E. apply Ok_inj in E. apply (run_module_get e A HA) in Er as [_ Hm].
  eexists _, m'. split; [symmetry; exact E|]. rewrite Hm.
  assert (Hp : match hd_file d with
               | Some f => path_join (e_base e) f
               | None => path_join3 (e_base e) (e_hosts_dir e) (n ++ lit ".py") end = host_path e d n).
  { unfold host_path. reflexivity. }
  rewrite Hp. destruct (assigned A (host_path e d n) x); [reflexivity|].
  rewrite dget_dupdate_nodup by (apply exported_nodup; exact Hi).
  destruct (dget x (exported group_cls init)); [reflexivity|]. destruct Hx as [->| ->]; vm_compute; reflexivity.
Qed.

Definition member (e : env) (d : hostdecl) (host x : pystr) : option obj := dget x (host_fields e d host).
Lemma member_value e A inv hs gs l host d w x script : loads e A inv hs gs l host d w -> x = s_url \/ x = s_connector ->
  host_get w script x = FObj <$> latest (member e d host x :: settings_of e A inv l d host x).
Proof.
  intros [Hset HA Hinv Hl Hd Hnd Hmod [hist E]] Hx. pose proof (load_accepted _ _ _ _ Hset Hl) as Hacc. destruct (reserved x Hx) as (Hgv & Hhost & Hmodule & Hpriv).
  unfold instanciate_host in E. rewrite Hd in E. fold (host_groups l d) in E.
  destruct (load_groups e inv (l_groups l) (l_order l) (host_groups l d) _ _) as [[init [h c]]|] eqn:El; cbn in E; [|discriminate].
  destruct c; [|discriminate].
  destruct (load_host e (l_hosts l) host init) as [w'|] eqn:Eh; cbn in E; [|discriminate].
  destruct (exported_variables host_cls w') as [vs|]; cbn in E; [|discriminate]. injection E as -> _.
  assert (Hg : forall k dd, dget k (l_groups l) = Some dd -> gd_name dd = k).
  { intros k dd Hk. apply (acc_file _ _ _ Hacc). exact Hk. }
  apply (load_groups_value e A HA inv Hinv (l_groups l) Hg x Hgv) in El as [Hwi Hval]; [| |apply early_wf].
  2: { intros g. split; intros v0 Hv0; apply (Hmod x); [left; eexists; exact Hv0|right; left; exact Hv0]. }
  destruct (load_host_member e A _ _ _ _ _ x HA Hd Eh Hwi Hx) as (n & Hn & mo & m & Ew & Em).
  destruct (host_all _ _ _ _ _ Hacc Hd) as [Hall Hname]. rewrite Hname in Hn. apply (inj Some) in Hn as <-.
  assert (Hearly : dget x (exported group_cls (early_wrapper e host d)) = dget x (hd_vars d)).
  { assert (Hev : dget x (vars (early_wrapper e host d)) = dget x (hd_vars d)).
    { rewrite early_vars; [|exact Hnd|exact Hmodule|apply Hgv]. unfold early_ns. cbn [dget]. rewrite (proj2 (str_eqb_false _ _) Hhost). reflexivity. }
    rewrite exported_plain; [exact Hev|apply early_wf|apply Hgv| |cbn; apply not_elem_of_nil|].
    - cbn [c_annot group_cls]. rewrite elem_of_list_singleton. apply Hgv.
    - intros v0 Hv0. apply (Hmod x). right. right. rewrite Hev in Hv0. exact Hv0. }
  rewrite Hval, (nxt_latest e A inv (l_groups l) x), (proj2 (str_in_true _ _) Hall), Hearly in Em.
  assert (Em' : dget x m = latest (member e d host x :: settings_of e A inv l d host x)).
  { rewrite Em. unfold settings_of, member. fold (host_groups l d). rewrite app_comm_cons, (assoc_L app), latest_app. cbn [latest].
    destruct (assigned A (host_path e d host) x); reflexivity. }
  assert (Hs : exists v, latest (member e d host x :: settings_of e A inv l d host x) = Some v).
  { cbn [latest]. destruct (latest (settings_of e A inv l d host x)); [eauto|]. destruct Hx as [->| ->]; eexists; reflexivity. }
  destruct Hs as [v Hv]. rewrite Hv in *. unfold host_get, get_attr. rewrite Ew. cbn [w_module]. rewrite Hpriv, Em'. reflexivity.
Qed.

(** ** C95 *)
(** The url by which a host is reached: that of its file, else that of its last group that has one, else that of the variables of its declaration, else that of the
    inventory, else the one it is declared with.  It is used unless a connector is given in one of these ways. *)
Theorem C95_url : forall e A inv hs gs l host d w script, loads e A inv hs gs l host d w ->
  exists o, oval o = match hd_url d with Some u => VStr u | None => VNone end /\
    host_get w script (lit "url") = FObj <$> latest (Some o :: settings_of e A inv l d host (lit "url")).
Proof.
  intros e A inv hs gs l host d w script H. eexists. split; [|exact (member_value e A inv hs gs l host d w s_url script H (or_introl eq_refl))].
  destruct (hd_url d); reflexivity.
Qed.
Print Assumptions C95_url.

Lemma declared e hs gs l h host d : set_ok e -> load_decls e hs gs = Ok l -> h ∈ hs -> host_named h host -> dget host (l_hosts l) = Some d -> host_entry h (host, d).
Proof.
  intros Hset Hl Hin Hn Hd. destruct (load_hosts e hs gs l Hset Hl) as [HF HN]. apply elem_of_list_lookup in Hin as [i Hi].
  destruct (Forall2_lookup_l _ _ _ _ _ HF Hi) as ([n d'] & Hj & He).
  assert (n = host) as ->.
  { destruct He as (_ & _ & _ & _ & He). destruct h as [u|d0| |]; cbn [host_named] in Hn; [destruct He as [He _]; congruence| |destruct He..].
    destruct He as [He _]. destruct (hd_name d0); [congruence|]. destruct He as (u & E1 & E2), Hn as (u' & E3 & E4). congruence. }
  assert (d' = d) as ->; [|exact He].
  apply elem_of_list_lookup_2 in Hj. apply (dget_in _ _ _ HN) in Hj. congruence.
Qed.

Lemma by_connector e A inv hs gs l host d w script : loads e A inv hs gs l host d w ->
  (forall o, latest (settings_of e A inv l d host s_connector) = Some o -> oval o = VNone) ->
  create_connector script w = connector_by_url (FObj <$> latest (member e d host s_url :: settings_of e A inv l d host s_url)).
Proof.
  intros H Hc. unfold create_connector. fold s_url s_connector. rewrite !(member_value e A inv hs gs l host d w _ script H) by auto. cbn [latest].
  destruct (latest (settings_of e A inv l d host s_connector)) as [o|]; [cbn [fmap option_fmap option_map]; rewrite (Hc o eq_refl)|]; reflexivity.
Qed.
Lemma schema_of p rest : 58%N ∉ p -> has_char 58 (p ++ 58%N :: rest) = true /\ head (split_char 58 (p ++ 58%N :: rest)) = Some p.
Proof.
  intros H. split.
  - destruct (Sys_proofs.has_char_spec 58 (p ++ 58%N :: rest)) as [|K]; [reflexivity|]. exfalso. apply K, elem_of_app. right. left.
  - induction p as [|c s IH]; [reflexivity|]. apply not_elem_of_cons in H as [H1 H2]. specialize (IH H2). cbn [app split_char].
    destruct (N.eqb_spec c 58) as [->|]; [contradiction|]. destruct (split_char 58 (s ++ 58%N :: rest)) as [|x t]; [discriminate|].
    cbn [head] in IH |- *. injection IH as ->. reflexivity.
Qed.
Lemma split_at u : 58%N ∈ u -> exists schema rest, u = schema ++ 58%N :: rest /\ 58%N ∉ schema.
Proof.
  induction u as [|c u IH]; [intros H; apply elem_of_nil in H as []|]. destruct (N.eqb_spec c 58) as [->|Hc].
  - intros _. exists [], u. split; [reflexivity|apply not_elem_of_nil].
  - intros [H|H]%elem_of_cons; [congruence|]. destruct (IH H) as (s & r & -> & Hs). exists (c :: s), r. split; [reflexivity|]. apply not_elem_of_cons. auto.
Qed.
Definition by_string (u : pystr) : result connector := connector_by_url (Some (FObj (Obj 0 (VStr u)))).
Lemma by_string_of o u : oval o = VStr u -> connector_by_url (Some (FObj o)) = by_string u.
Proof. intros E. unfold by_string, connector_by_url. rewrite E. reflexivity. Qed.
Lemma by_ssh rest : by_string (lit "ssh:" ++ rest) = Ok (SshTo (lit "ssh:" ++ rest)).
Proof.
  change (lit "ssh:" ++ rest) with (lit "ssh" ++ 58%N :: rest). unfold by_string, connector_by_url. cbn [oval].
  destruct (schema_of (lit "ssh") rest) as [-> ->]; [apply (bool_decide_unpack _); vm_compute; exact I|]. reflexivity.
Qed.
Lemma by_local rest : by_string (lit "local:" ++ rest) = Ok LocalHere.
Proof.
  change (lit "local:" ++ rest) with (lit "local" ++ 58%N :: rest). unfold by_string, connector_by_url. cbn [oval].
  destruct (schema_of (lit "local") rest) as [-> ->]; [apply (bool_decide_unpack _); vm_compute; exact I|]. reflexivity.
Qed.
Lemma by_string_inv u k : by_string u = Ok k -> lit "ssh:" `prefix_of` u \/ lit "local:" `prefix_of` u.
Proof.
  unfold by_string, connector_by_url. cbn [oval]. destruct (Sys_proofs.has_char_spec 58 u) as [H|H]; cbn [negb]; [|discriminate].
  destruct (split_at u H) as (s & r & -> & Hs). destruct (schema_of s r Hs) as [_ ->]. cbn [default from_option]. change (id s) with s.
  destruct (str_eqb_spec s (lit "ssh")) as [->|]; [intros _; left; exists r; reflexivity|].
  destruct (str_eqb_spec s (lit "local")) as [->|]; [intros _; right; exists r; reflexivity|discriminate].
Qed.

(** the place of a connector *)
Definition serves (k : connector) (p : place) : Prop := forall compress source file debug opts,
  exists command, connector_command compress source file debug opts k = Some command /\ starts_at opts command p.
Lemma url_serves u p : url_of u p -> exists k, by_string u = Ok k /\ serves k p.
Proof.
  intros [user host port|user host port Hn|name].
  - eexists. split; [exact (by_ssh (lit "//" ++ ssh_part user host port))|]. intros compress source file debug opts. eexists. split; [reflexivity|].
    exists (ssh_remote_command compress source debug). unfold ssh_command, ssh_connect_url.
    rewrite startswith_app. change (lit "ssh:" ++ lit "//" ++ ssh_part user host port) with (lit "ssh://" ++ ssh_part user host port). rewrite startswith_app.
    destruct opts; reflexivity.
  - eexists. split; [exact (by_ssh (ssh_part user host port))|]. intros compress source file debug opts. eexists. split; [reflexivity|].
    exists (ssh_remote_command compress source debug). unfold ssh_command, ssh_connect_url. rewrite startswith_app.
    change (startswith (lit "ssh:" ++ ssh_part user host port) (lit "ssh://")) with (startswith (ssh_part user host port) (lit "//")).
    destruct (startswith (ssh_part user host port) (lit "//")) eqn:E; [exfalso; apply Hn; apply startswith_true in E as [r E]; exists r; exact E|].
    destruct opts; reflexivity.
  - eexists. split; [exact (by_local name)|]. intros compress source file debug opts. eexists. split; [reflexivity|]. exists file. eexists. reflexivity.
Qed.

(** A host is reached at the place that the last url says, be it the one in the list of hosts or one set later.
    Full statement (false): the second case of [said] with [declared_at] instead of [url_of]; below. *)
Inductive said (h : hostspec) (later : option obj) (p : place) : Prop :=
| said_declared u : later = None -> declared_url h = Some u -> declared_at u p -> said h later p
| said_later o u : later = Some o -> oval o = VStr u -> url_of u p -> said h later p.
Theorem C95_place_partial : forall e A inv hs gs l h host d w script p, loads e A inv hs gs l host d w -> h ∈ hs -> host_named h host ->
  (forall o, latest (settings_of e A inv l d host (lit "connector")) = Some o -> oval o = VNone) ->
  said h (latest (settings_of e A inv l d host (lit "url"))) p ->
  exists k, create_connector script w = Ok k /\
  forall compress source file debug opts, exists command, connector_command compress source file debug opts k = Some command /\ starts_at opts command p.
Proof.
  intros e A inv hs gs l h host d w script p H Hin Hn Hc Hs. rewrite (by_connector e A inv hs gs l host d w script H Hc). cbn [latest]. fold s_url in Hs.
  destruct Hs as [u El Eu Hu|o u El Eo Hu].
  - rewrite El. destruct (declared e hs gs l h host d (ls_set _ _ _ _ _ _ _ _ _ H) (ls_load _ _ _ _ _ _ _ _ _ H) Hin Hn (ls_host _ _ _ _ _ _ _ _ _ H)) as (_ & Hurl & _).
    change (match h with HStr u0 => Some u0 | HDecl d0 => hd_url d0 | _ => None end) with (declared_url h) in Hurl. rewrite Eu in Hurl. cbn [fmap option_fmap option_map] in Hurl.
    unfold member. change (dget s_url (host_fields e d host)) with (Some (match hd_url d with Some u => Obj (e_oid e (lit "url:" ++ host)) (VStr u) | None => Obj (e_oid e (lit "None")) VNone end)).
    rewrite Hurl. cbn [fmap option_fmap option_map]. erewrite by_string_of by reflexivity.
    destruct (C34_unqualified u) as (Q1 & Q2 & _). destruct Hu as [u p Hu|user host' Hb].
    + rewrite Q2; [exact (url_serves u p Hu)|]. destruct Hu; apply elem_of_app; left; apply (bool_decide_unpack _); vm_compute; exact I.
    + rewrite Q1 by exact Hb. exact (url_serves _ _ (url_ssh user host' None)).
  - rewrite El. cbn [fmap option_fmap option_map]. rewrite (by_string_of o u Eo). exact (url_serves u p Hu).
Qed.
Print Assumptions C95_place_partial.

(** ** C96 *)
(** Whether a host can be reached is a matter of its url alone. *)
Theorem C96_reachable : forall e A inv hs gs l h host d w script, loads e A inv hs gs l host d w -> h ∈ hs -> host_named h host ->
  latest (settings_of e A inv l d host (lit "connector")) = None -> latest (settings_of e A inv l d host (lit "url")) = None ->
  ((exists k, create_connector script w = Ok k) <-> reachable h) /\ forall x, create_connector script w = Err x -> exists m, x = FatalError m.
Proof.
  intros e A inv hs gs l h host d w script H Hin Hn Hc Hu.
  rewrite (by_connector e A inv hs gs l host d w script H) by (intros o Ho; fold s_connector in Hc; congruence). cbn [latest]. fold s_url in Hu. rewrite Hu.
  destruct (declared e hs gs l h host d (ls_set _ _ _ _ _ _ _ _ _ H) (ls_load _ _ _ _ _ _ _ _ _ H) Hin Hn (ls_host _ _ _ _ _ _ _ _ _ H)) as (_ & Hurl & _).
  change (match h with HStr u0 => Some u0 | HDecl d0 => hd_url d0 | _ => None end) with (declared_url h) in Hurl.
  unfold member. change (dget s_url (host_fields e d host)) with (Some (match hd_url d with Some u => Obj (e_oid e (lit "url:" ++ host)) (VStr u) | None => Obj (e_oid e (lit "None")) VNone end)).
  rewrite Hurl. unfold reachable. destruct (declared_url h) as [u|]; cbn [fmap option_fmap option_map].
  2: { split; [split; [intros [k E]; discriminate E|intros (u & E & _); discriminate E]|]. intros x [= <-]. eauto. }
  erewrite by_string_of by reflexivity. destruct (C34_unqualified u) as (Q1 & Q2 & Q3). split; [split|].
  - intros [k E]. exists u. split; [reflexivity|]. destruct (decide (58%N ∈ u)) as [Hm|Hm]; [|auto]. right. rewrite Q2 in E by exact Hm. exact (by_string_inv u k E).
  - intros (u' & [= <-] & [Hm|[[r ->]|[r ->]]]).
    + rewrite Q1 by exact Hm. eexists. exact (by_ssh (lit "//" ++ u)).
    + rewrite Q2 by (apply elem_of_app; left; apply (bool_decide_unpack _); vm_compute; exact I). eexists. apply by_ssh.
    + rewrite Q2 by (apply elem_of_app; left; apply (bool_decide_unpack _); vm_compute; exact I). eexists. apply by_local.
  - intros x. unfold by_string, connector_by_url. cbn [oval]. rewrite Q3. cbn [negb]. destruct (str_eqb _ _); [discriminate|]. destruct (str_eqb _ _); [discriminate|].
    intros [= <-]. eauto.
Qed.
Print Assumptions C96_reachable.

(** Hosts without a name of their own: if fora does not know how to reach one of them, the inventory is refused. *)
Theorem C96_early_partial : forall e hs gs l h, set_ok e -> load_decls e hs gs = Ok l -> h ∈ hs -> declared_name h = None -> reachable h.
Proof.
  intros e hs gs l h Hset Hl Hin Hname. destruct (load_hosts e hs gs l Hset Hl) as [HF _]. apply elem_of_list_lookup in Hin as [i Hi].
  destruct (Forall2_lookup_l _ _ _ _ _ HF Hi) as ([n d] & _ & _ & _ & _ & _ & He).
  assert (K : exists u, declared_url h = Some u /\ extract_hostname (qualify_url u) = Ok n).
  { destruct h as [u|d0| |]; [exists u; split; [reflexivity|apply He]| |destruct He..]. cbn [declared_name] in Hname. destruct He as [He _]. rewrite Hname in He. exact He. }
  destruct K as (u & Eu & En). exists u. split; [exact Eu|]. destruct (C34_unqualified u) as (Q1 & Q2 & _). destruct (decide (58%N ∈ u)) as [Hm|Hm]; [|auto]. right.
  rewrite Q2 in En by exact Hm. destruct (split_at u Hm) as (s & r & -> & Hs). unfold extract_hostname in En. destruct (schema_of s r Hs) as [E1 E2]. rewrite E1, E2 in En.
  cbn [negb default from_option] in En. change (id s) with s in En.
  destruct (str_eqb_spec s (lit "ssh")) as [->|]; [left; exists r; reflexivity|]. destruct (str_eqb_spec s (lit "local")) as [->|]; [right; exists r; reflexivity|discriminate].
Qed.
Print Assumptions C96_early_partial.
Theorem C96_known_partial : forall e A inv hs gs l h host d w script, loads e A inv hs gs l host d w -> h ∈ hs -> host_named h host -> declared_name h = None ->
  latest (settings_of e A inv l d host (lit "connector")) = None -> latest (settings_of e A inv l d host (lit "url")) = None ->
  exists k, create_connector script w = Ok k.
Proof.
  intros e A inv hs gs l h host d w script H Hin Hn Hname Hc Hu. apply (C96_reachable e A inv hs gs l h host d w script H Hin Hn Hc Hu).
  exact (C96_early_partial e hs gs l h (ls_set _ _ _ _ _ _ _ _ _ H) (ls_load _ _ _ _ _ _ _ _ _ H) Hin Hname).
Qed.
Print Assumptions C96_known_partial.

(** ** Cases *)
Definition named (n u : string) (groups : list string) : hostspec := HDecl (HostDecl (Some (lit u)) (Some (lit n)) None (List.map lit groups) []).
Definition yard : list hostspec := [HStr (lit "alice@web"); named "db" "ssh:db.lan:2200" []; named "me" "local:" []; named "moved" "ssh://old" ["y"]; HStr (lit "late")]%string.
Definition yard_files : list (pystr * ns) :=
  [(gfile "y", [(lit "url", Obj 41 (VStr (lit "ssh://bob@new:22")))]); (lit "/inv/hosts/late.py", [(lit "url", Obj 42 (VStr (lit "web2")))])].
Definition yard_groups : option (list groupspec) := Some [grp "y" [] []].
Definition made_or (files : list (pystr * ns)) (l : loaded) (host : string) : wrapper :=
  match instanciate_host (ex_env files) (ex_inv []) l (lit host) with Ok (w, _) => w | Err _ => Wrapper [] None end.
Definition loadsb (files : list (pystr * ns)) hs gs (host : string) : bool :=
  match load_decls (ex_env files) hs gs with
  | Ok l => match dget (lit host) (l_hosts l) with
            | Some d => match instanciate_host (ex_env files) (ex_inv []) l (lit host) with
                        | Ok _ => objectsb (ex_pairs files (ex_inv []) d) && bool_decide (NoDup (lit "host" :: (hd_vars d).*1))
                        | Err _ => false end
            | None => false end
  | Err _ => false
  end.
Lemma loads_ex files hs gs host : loadsb files hs gs host = true -> let l := load_or (ex_env files) hs gs in
  loads (ex_env files) (ex_A files) (ex_inv []) hs gs l (lit host) (decl_or l host) (made_or files l host).
Proof.
  unfold loadsb, load_or, decl_or, made_or. destruct (load_decls (ex_env files) hs gs) as [l|] eqn:El; [|discriminate]. cbv zeta.
  destruct (dget (lit host) (l_hosts l)) as [d|] eqn:Ed; [|discriminate]. destruct (instanciate_host _ _ l (lit host)) as [[w hist]|] eqn:Ei; [|discriminate].
  intros [H1 H2]%andb_true_iff. destruct (objectsb_ok _ _ _ H1) as [_ Ho]. constructor; try assumption.
  - apply ex_set.
  - apply ex_constant.
  - split; apply (bool_decide_unpack _); vm_compute; exact I.
  - apply bool_decide_eq_true in H2. exact H2.
  - intros x v Hv. exact (proj2 (proj2 (Ho x)) v Hv).
  - eauto.
Qed.
Definition yard_l : loaded := load_or (ex_env yard_files) yard yard_groups.
Definition yard_settings (host x : string) : option obj :=
  latest (settings_of (ex_env yard_files) (ex_A yard_files) (ex_inv []) yard_l (decl_or yard_l host) (lit host) (lit x)).
Definition yard_connector (host : string) : result connector := create_connector None (made_or yard_files yard_l host).

Example C95_case :
  forallb (loadsb yard_files yard yard_groups) ["web"; "db"; "me"; "moved"; "late"]%string = true /\
  List.map (fun h => yard_settings h "connector") ["web"; "db"; "me"; "moved"; "late"]%string = [None; None; None; None; None] /\
  said (HStr (lit "alice@web")) (yard_settings "web" "url") (There (Some (lit "alice")) (lit "web") None) /\
  said (named "db" "ssh:db.lan:2200" []) (yard_settings "db" "url") (There None (lit "db.lan") (Some (lit "2200"))) /\
  said (named "me" "local:" []) (yard_settings "me" "url") Here /\
  said (named "moved" "ssh://old" ["y"]%string) (yard_settings "moved" "url") (There (Some (lit "bob")) (lit "new") (Some (lit "22"))) /\
  yard_connector "db" = Ok (SshTo (lit "ssh:db.lan:2200")) /\ yard_connector "me" = Ok LocalHere /\ yard_connector "moved" = Ok (SshTo (lit "ssh://bob@new:22")).
Proof.
  split; [vm_compute; reflexivity|]. split; [vm_compute; reflexivity|].
  split; [eapply said_declared; [vm_compute; reflexivity|reflexivity|]; apply (at_bare (Some (lit "alice")) (lit "web")); apply (bool_decide_unpack _); vm_compute; exact I|].
  split; [eapply said_declared; [vm_compute; reflexivity|reflexivity|]; apply at_url, (url_ssh_short None (lit "db.lan") (Some (lit "2200"))); intros [k E]; discriminate E|].
  split; [eapply said_declared; [vm_compute; reflexivity|reflexivity|]; apply at_url, (url_local [])|].
  split; [eapply said_later; [vm_compute; reflexivity|reflexivity|]; apply (url_ssh (Some (lit "bob")) (lit "new") (Some (lit "22")))|].
  vm_compute. auto.
Qed.

(** A url that is set in a file is not completed like those in the list of hosts: the same text is refused when the host is to be reached. *)
Theorem C95_place_refuted : exists e A inv hs gs l h host d w o u p, loads e A inv hs gs l host d w /\ h ∈ hs /\ host_named h host /\
  latest (settings_of e A inv l d host (lit "connector")) = None /\
  latest (settings_of e A inv l d host (lit "url")) = Some o /\ oval o = VStr u /\ declared_at u p /\
  forall script, exists m, create_connector script w = Err (FatalError m).
Proof.
  exists (ex_env yard_files), (ex_A yard_files), (ex_inv []), yard, yard_groups, yard_l, (HStr (lit "late")), (lit "late"), (decl_or yard_l "late"), (made_or yard_files yard_l "late"),
    (Obj 42 (VStr (lit "web2"))), (lit "web2"), (There None (lit "web2") None).
  split; [apply (loads_ex yard_files yard yard_groups "late"); vm_compute; reflexivity|].
  split; [unfold yard; repeat (first [apply elem_of_list_here | apply elem_of_list_further])|]. split; [vm_compute; reflexivity|]. split; [vm_compute; reflexivity|]. split; [vm_compute; reflexivity|].
  split; [reflexivity|]. split; [apply (at_bare None (lit "web2")); apply (bool_decide_unpack _); vm_compute; exact I|].
  intros script. eexists. vm_compute. reflexivity.
Qed.
Print Assumptions C95_place_refuted.

(** C96.  Full statement (false): if the inventory is loaded, fora knows how to reach all hosts, so that no host is changed if it does not know how to reach another. *)
(** connection.py:26-35: the connector is made when the turn of the host comes.  [connect]: what opening it leads to. *)
Definition opened (ws : list (pystr * wrapper)) (connect : connector -> result Client.link) (h : pystr) : result Client.link :=
  match dget h ws with
  | Some w => k ← create_connector None w; connect k
  | None => Err KeyError
  end.
Definition pair_hosts : list hostspec := [HStr (lit "a"); named "b" "docker:b" []].
Definition pair_ws : list (pystr * wrapper) := match load (ex_env []) (ex_inv []) pair_hosts None with Ok ws => ws | Err _ => [] end.
Definition pair_run (argv : list string) : result unit * (fleet * ctl) :=
  fora (fun _ => coreutils echo) fake_hash (fun _ _ _ => Ok false) (lit "d") (fun l => l) (fun cwd p => if isabs p then p else cwd ++ lit "/" ++ p) (fun _ => true) ex_inode ex_code 5 (fun _ => false)
    (fun _ => Ok pair_ws.*1) ex_base (opened pair_ws (fun _ => Ok Up)) (fun _ => Ok tt) (List.map lit argv)
    (fun _ => site, Ctl (Remote site Down) no_settings [] None [] (lit "/d") [] 0).
Definition fatal_end (x : result unit * (fleet * ctl)) : bool := match fst x with Err (FatalError _) => true | _ => false end.
Lemma fatal_end_true (x : result unit * (fleet * ctl)) : fatal_end x = true -> exists m, fst x = Err (FatalError m).
Proof. unfold fatal_end. destruct (fst x) as [|[]]; try discriminate. eauto. Qed.
Lemma untouched_there (x : result unit * (fleet * ctl)) : fst (snd x) (lit "a") = site -> there x "a" = false.
Proof. intros E. unfold there. rewrite E. vm_compute. reflexivity. Qed.
Theorem C96_early_refuted : exists e inv hs gs ws, set_ok e /\ load e inv hs gs = Ok ws /\ ws = pair_ws /\
  let x := pair_run ["inv.py"; "deploy.py"]%string in
  (exists m, fst x = Err (FatalError m)) /\ fst (snd x) (lit "a") <> site.
Proof.
  exists (ex_env []), (ex_inv []), pair_hosts, None, pair_ws. split; [apply ex_set|]. split; [vm_compute; reflexivity|]. split; [reflexivity|]. cbv zeta. split.
  - apply fatal_end_true. vm_compute. reflexivity.
  - intros E. apply untouched_there in E. assert (K : there (pair_run ["inv.py"; "deploy.py"]%string) "a" = true) by (vm_compute; reflexivity). congruence.
Qed.
Print Assumptions C96_early_refuted.
(** The inventory has a host that is unreachable and one that is not; without a name of its own the former would have been refused. *)
Example C96_case : pair_ws.*1 = [lit "a"; lit "b"] /\ reachable (HStr (lit "a")) /\ ~ reachable (named "b" "docker:b" []) /\
  (exists m, load (ex_env []) (ex_inv []) [HStr (lit "a"); HStr (lit "docker:b")] None = Err (ValueError m)) /\
  loadsb [] pair_hosts None "a" = true /\ loadsb [] pair_hosts None "b" = true /\ declared_name (HStr (lit "a")) = None.
Proof.
  split; [vm_compute; reflexivity|]. split; [exists (lit "a"); split; [reflexivity|]; left; apply (bool_decide_unpack _); vm_compute; exact I|]. split.
  { intros (u & E & H). injection E as <-. destruct H as [H|[[k H]|[k H]]]; [apply H; apply (bool_decide_unpack _); vm_compute; exact I|discriminate H..]. }
  split; [eexists; vm_compute; reflexivity|]. split; [vm_compute; reflexivity|]. split; [vm_compute; reflexivity|reflexivity].
Qed.
