(** C72: what the questions of a connection tell is true: query_user, query_group, home_dir, getenv, download, download_or. *)
From Coq Require Import Lia ZifyBool ZifyN ZifyNat.
From stdpp Require Import gmap.
From Verif Require Import Base Utf8 Dict_proofs Codec Spec_Codec Paths Sys Spec_Sys Sys_proofs Dispatcher Client Spec_Session Codec_proofs Codec_proofs2 Session_proofs Spec_Remote Remote_safe Remote_proofs Remote_run Control Spec_Control Control_proofs
  Walk_proofs Op Op_proofs Files Files_plain Spec_Files Shell_proofs Steps Spec_Account Query_proofs Digits Readonly Thrift Remote_examples.
Local Open Scope nat_scope.

(** ** What is true of an account *)
(** The values are those of the account that the name or number denotes, the groups are all those that list it. *)
Definition describes_user (s : os) (u : pystr) (hash : bool) (x : user_entry) : Prop :=
  exists a, denotes_user s u a /\ ue_name x = pw_name a /\ ue_uid x = Z.of_N (pw_uid a) /\ ue_gid x = Z.of_N (pw_gid a) /\
    (ue_group x, pw_gid a) ∈ gids s /\ (forall g, g ∈ ue_groups x <-> member s g (pw_name a)) /\
    ue_hash x = (if hash then secret s (pw_name a) else None) /\ (hash = true -> ue_hash x <> None) /\
    ue_gecos x = pw_gecos a /\ ue_home x = pw_dir a /\ ue_shell x = pw_shell a.
(** No such account, or one without a primary group or (if asked for) without a password. *)
Definition no_such_user (s : os) (u : pystr) (hash : bool) : Prop :=
  (forall a, ~ denotes_user s u a) \/
  exists a, denotes_user s u a /\ ((forall g, (g, pw_gid a) ∉ gids s) \/ hash = true /\ secret s (pw_name a) = None).
Definition describes_group (s : os) (g : pystr) (x : group_entry) : Prop :=
  exists e, denotes_group s g e /\ ge_name x = gr_name e /\ ge_gid x = Z.of_N (gr_gid e) /\ ge_members x = gr_mem e.
(** Nothing is changed but the connection, which may be lost. *)
Definition asked_only (c c' : ctl) : Prop := c' = set_remote (c_remote c') c /\ sysof c' = sysof c.
(** The connection was lost, or hangs. *)
Definition trouble (e : exn) : Prop := e = eof \/ e = Blocked \/ exists n a b, e = RemoteOSError n a b.

Section query.
  Variable exec : proc -> M xres.
  Variable sha512 : bytes -> bytes.

  Lemma lookup_user_total s u : nul ∉ u -> exists o, lookup_user s u = Ok o /\ match o with Some a => denotes_user s u a | None => forall a, ~ denotes_user s u a end.
  Proof. intros H. destruct (lookup_user_nul s u H) as [o E]. exists o. split; [exact E|]. apply Remote_run.lookup_user_ok. exact E. Qed.
  Lemma lookup_group_total s u : nul ∉ u -> exists o, lookup_group s u = Ok o /\ match o with Some a => denotes_group s u a | None => forall a, ~ denotes_group s u a end.
  Proof. intros H. destruct (lookup_group_nul s u H) as [o E]. exists o. split; [exact E|]. apply Remote_run.lookup_group_ok. exact E. Qed.

  (** what the handler answers *)
  Lemma handle_query_user_says u hash s : nul ∉ u -> exists r, handle_query_user u hash s = (r, s) /\
    ((exists m, r = Ok (Reply [] (PInvalidField (lit "user") m)) /\ no_such_user s u hash) \/
     (exists n i g gi gs h ge ho sh, r = Ok (Reply [] (PUserEntry n i g gi gs h ge ho sh)) /\ describes_user s u hash (UserEntry n i g gi gs h ge ho sh)) \/
     exists k a b, r = Err (OSErr k a b) /\ hash = true /\ o_uid s <> 0%N).
  Proof.
    intros Hu. unfold handle_query_user. cbv [mbind M_bind bindM getM lift]. destruct (lookup_user_total s u Hu) as (o & -> & Ho).
    destruct o as [a|]; [|eexists; split; [reflexivity|left; eexists; split; [reflexivity|left; exact Ho]]]. cbn zeta.
    assert (Hk : forall h, h = (if hash then secret s (pw_name a) else None) -> (hash = true -> h <> None) ->
      exists r, (match getgrgid s (Z.of_N (pw_gid a)) with
                 | Ok g => answer (PUserEntry (pw_name a) (Z.of_N (pw_uid a)) (gr_name g) (Z.of_N (pw_gid a)) (List.map gr_name (List.filter (fun g => str_in (pw_name a) (gr_mem g)) (o_group s))) h (pw_gecos a) (pw_dir a) (pw_shell a))
                 | Err _ => answer (PInvalidField (lit "user") (lit "The user's primary group doesn't exist")) end) s = (r, s) /\
      ((exists m, r = Ok (Reply [] (PInvalidField (lit "user") m)) /\ no_such_user s u hash) \/
       (exists n i g gi gs h ge ho sh, r = Ok (Reply [] (PUserEntry n i g gi gs h ge ho sh)) /\ describes_user s u hash (UserEntry n i g gi gs h ge ho sh)) \/
       exists k a b, r = Err (OSErr k a b) /\ hash = true /\ o_uid s <> 0%N)).
    { intros h Hh Hne. destruct (getgrgid s (Z.of_N (pw_gid a))) as [g|e] eqn:Eg.
      - eexists. split; [reflexivity|]. right. left. do 9 eexists. split; [reflexivity|]. exists a. cbn [ue_name ue_uid ue_gid ue_group ue_groups ue_hash ue_gecos ue_home ue_shell].
        split; [exact Ho|]. split_and!; try reflexivity; [|apply groups_of_spec|exact Hh|exact Hne].
        unfold getgrgid in Eg. destruct (List.find _ _) as [g'|] eqn:Ef; [|discriminate]. injection Eg as ->.
        apply List.find_some in Ef as [E1 E2]. apply elem_of_list_In in E1. apply elem_of_list_fmap. exists g. split; [f_equal; lia|exact E1].
      - eexists. split; [reflexivity|]. left. eexists. split; [reflexivity|]. right. exists a. split; [exact Ho|]. left. intros g Hg.
        destruct (proj1 (getgrgid_found s (pw_gid a)) (ex_intro _ g Hg)) as (e' & H & _). congruence. }
    destruct hash; [|apply Hk; [reflexivity|discriminate]].
    unfold getspnam, secret in *. destruct (N.eqb_spec (o_uid s) 0) as [E0|E0].
    - destruct (dget (pw_name a) (o_shadow s)) as [h|] eqn:Es; cbn [Base.from_option].
      + apply Hk; [reflexivity|discriminate].
      + eexists. split; [reflexivity|]. left. eexists. split; [reflexivity|]. right. exists a. split; [exact Ho|]. right. split; [reflexivity|exact Es].
    - eexists. split; [reflexivity|]. right. right. do 3 eexists. split; [reflexivity|]. split; [reflexivity|exact E0].
  Qed.
  Lemma handle_query_group_says g s : nul ∉ g -> exists r, handle_query_group g s = (Ok (Reply [] r), s) /\
    ((exists m, r = PInvalidField (lit "group") m /\ forall e, ~ denotes_group s g e) \/
     exists n i ms, r = PGroupEntry n i ms /\ describes_group s g (GroupEntry n i ms)).
  Proof.
    intros Hu. unfold handle_query_group. cbv [mbind M_bind bindM getM lift]. destruct (lookup_group_total s g Hu) as (o & -> & Ho).
    destruct o as [a|]; eexists; (split; [reflexivity|]); [right|left; eauto]. do 3 eexists. split; [reflexivity|]. exists a. split; [exact Ho|]. auto.
  Qed.

  (** *** The connector *)
  Lemma conn_query_user_says u hash s l x v : c_string u -> conn_query_user exec sha512 u hash (Remote s l) = (x, v) ->
    r_os v = s /\ match x with Ok y => describes_user s u hash y | Err e => is_ValueError e = true /\ no_such_user s u hash \/ is_ValueError e = false /\ trouble e end.
  Proof.
    intros Hu E. unfold conn_query_user in E. cbv [mbind C_bind] in E. destruct (request exec sha512 (PQueryUser u hash) (Remote s l)) as [y w] eqn:Er.
    destruct (handle_query_user_says u hash s (proj2 Hu)) as (r & Hh & Hr).
    assert (Henc : encodable (PQueryUser u hash)) by (apply packet_ok_write; cbn; apply short_ok; apply Hu).
    apply request_pure in Er as [Hv Hx].
    2:{ cbn [handle]. rewrite Hh. intros r0 s' [= _ <-]. reflexivity. }
    2:{ cbn [handle]. rewrite Hh. cbn [fst]. intros raw r0 ->. destruct Hr as [(m & [= -> _] & _)|[(n & i & g & gi & gs & h & ge & ho & sh & [= -> _] & _)|(k & a & b & [=] & _)]]; reflexivity. }
    destruct Hx as [(e & -> & He)|(p & Hp & ->)].
    { injection E as <- <-. split; [exact Hv|]. right. destruct He as [-> |[-> |[(n & a & b & ->)|He]]]; [..|contradiction]; (split; [reflexivity|]); unfold trouble; eauto 8. }
    cbn [handle] in Hp. rewrite Hh in Hp. cbn [fst] in Hp. subst r.
    destruct Hr as [(m & [= ->] & Hno)|[(n & i & g & gi & gs & h & ge & ho & sh & [= ->] & Hd)|(k & a & b & [=] & _)]].
    - cbn [deliver] in E. unfold has_attr in E. change (str_in (lit "user") (field_names (PQueryUser u hash))) with true in E. rewrite orb_true_r in E. injection E as <- <-.
      split; [exact Hv|]. left. split; [reflexivity|exact Hno].
    - cbn in E. injection E as <- <-. split; [exact Hv|exact Hd].
  Qed.
  Lemma conn_query_group_says g s l x v : c_string g -> conn_query_group exec sha512 g (Remote s l) = (x, v) ->
    r_os v = s /\ match x with Ok y => describes_group s g y | Err e => is_ValueError e = true /\ (forall e, ~ denotes_group s g e) \/ is_ValueError e = false /\ trouble e end.
  Proof.
    intros Hu E. unfold conn_query_group in E. cbv [mbind C_bind] in E. destruct (request exec sha512 (PQueryGroup g) (Remote s l)) as [y w] eqn:Er.
    destruct (handle_query_group_says g s (proj2 Hu)) as (r & Hh & Hr).
    assert (Henc : encodable (PQueryGroup g)) by (apply packet_ok_write; cbn; apply short_ok; apply Hu).
    apply request_pure in Er as [Hv Hx].
    2:{ cbn [handle]. rewrite Hh. intros r0 s' [= _ <-]. reflexivity. }
    2:{ cbn [handle]. rewrite Hh. cbn [fst]. intros raw r0 [= -> _]. reflexivity. }
    destruct Hx as [(e & -> & He)|(p & Hp & ->)].
    { injection E as <- <-. split; [exact Hv|]. right. destruct He as [-> |[-> |[(n & a & b & ->)|He]]]; [..|contradiction]; (split; [reflexivity|]); unfold trouble; eauto 8. }
    cbn [handle] in Hp. rewrite Hh in Hp. cbn [fst] in Hp. injection Hp as ->.
    destruct Hr as [(m & -> & Hno)|(n & i & ms & -> & Hd)].
    - cbn [deliver] in E. unfold has_attr in E. change (str_in (lit "group") (field_names (PQueryGroup g))) with true in E. rewrite orb_true_r in E. injection E as <- <-.
      split; [exact Hv|]. left. split; [reflexivity|exact Hno].
    - cbn in E. injection E as <- <-. split; [exact Hv|exact Hd].
  Qed.

  (** *** The connection *)
  Lemma or_default_of {A} (m : W A) d c r c' : or_default m d c = (r, c') ->
    exists x, m c = (x, c') /\ match x with Ok a => r = Ok (Some a) | Err e => if is_ValueError e then r = Ok d else r = Err e end.
  Proof.
    unfold or_default, wtry. unfold mbind, W_bind. destruct (m c) as [[a|e] c1]; [intros [= <- <-]; exists (Ok a); split; reflexivity|]. cbn.
    destruct (is_ValueError e) eqn:E; intros [= <- <-]; eexists; (split; [reflexivity|]); cbn; rewrite E; reflexivity.
  Qed.

  (** query_user answers with the true entry, or with the default if there is no such (complete) account. *)
  Theorem C72_query_user u hash d c r c' : c_string u -> query_user exec sha512 u hash d c = (r, c') ->
    asked_only c c' /\
    match r with
    | Ok o => (exists x, o = Some x /\ describes_user (sysof c) u hash x) \/ o = d /\ no_such_user (sysof c) u hash
    | Err e => trouble e
    end.
  Proof.
    intros Hu E. unfold query_user in E. apply or_default_of in E as (x & E & Hx). unfold via in E.
    destruct (conn_query_user exec sha512 u hash (c_remote c)) as [y v] eqn:Ec. injection E as <- <-. unfold asked_only, sysof.
    destruct (c_remote c) as [s l] eqn:Hc. apply conn_query_user_says in Ec as [Hv Hy]; [|exact Hu]. split; [split; [reflexivity|exact Hv]|].
    destruct y as [y|e]; [subst r; left; eauto|]. destruct Hy as [[Hz Hy]|[Hz Hy]]; rewrite Hz in Hx; subst r; auto.
  Qed.
  Theorem C72_query_group g d c r c' : c_string g -> query_group exec sha512 g d c = (r, c') ->
    asked_only c c' /\
    match r with
    | Ok o => (exists x, o = Some x /\ describes_group (sysof c) g x) \/ o = d /\ forall e, ~ denotes_group (sysof c) g e
    | Err e => trouble e
    end.
  Proof.
    intros Hu E. unfold query_group in E. apply or_default_of in E as (x & E & Hx). unfold via in E.
    destruct (conn_query_group exec sha512 g (c_remote c)) as [y v] eqn:Ec. injection E as <- <-. unfold asked_only, sysof.
    destruct (c_remote c) as [s l] eqn:Hc. apply conn_query_group_says in Ec as [Hv Hy]; [|exact Hu]. split; [split; [reflexivity|exact Hv]|].
    destruct y as [y|e]; [subst r; left; eauto|]. destruct Hy as [[Hz Hy]|[Hz Hy]]; rewrite Hz in Hx; subst r; auto.
  Qed.

  (** The environment of the dispatcher. *)
  Theorem C72_getenv k d c r c' : short k -> getenv exec sha512 k d c = (r, c') ->
    asked_only c c' /\
    match r with
    | Ok o => (exists x, dget k (o_env (sysof c)) = Some x /\ o = Some x) \/ dget k (o_env (sysof c)) = None /\ o = d
    | Err e => trouble e
    end.
  Proof.
    intros Hk E. unfold getenv in E. unfold mbind, W_bind in E. unfold via, conn_getenv in E. cbv [mbind C_bind] in E.
    destruct (request exec sha512 (PGetenv k) (c_remote c)) as [y w] eqn:Er. unfold asked_only, sysof. destruct (c_remote c) as [s l] eqn:Hc. cbn [r_os].
    assert (Henc : encodable (PGetenv k)) by (apply packet_ok_write; cbn; apply short_ok; exact Hk).
    apply request_pure in Er as [Hv Hx]; [|intros r0 s' [= _ <-]; reflexivity|intros raw r0 [= <- _]; reflexivity].
    destruct Hx as [(e & -> & He)|(p & [= <-] & ->)].
    - injection E as <- <-. split; [split; [reflexivity|exact Hv]|]. destruct He as [-> |[-> |[(n & a & b & ->)|He]]]; [..|contradiction]; unfold trouble; eauto 8.
    - cbn in E. injection E as <- <-. split; [split; [reflexivity|exact Hv]|]. destruct (dget k (o_env s)); eauto.
  Qed.

  (** home_dir: the home of the account, or an error if there is no such account (or one without a primary group). *)
  Lemma resolve_own s l x v : conn_resolve_user exec sha512 None (Remote s l) = (x, v) ->
    r_os v = s /\ match x with Ok n => exists a, denotes_user s (str_of_N (o_uid s)) a /\ n = pw_name a | Err e => is_ValueError e = true /\ (forall a, ~ denotes_user s (str_of_N (o_uid s)) a) \/ is_ValueError e = false /\ trouble e end.
  Proof.
    intros E. unfold conn_resolve_user in E. cbv [mbind C_bind] in E. destruct (request exec sha512 (PResolveUser None) (Remote s l)) as [y w] eqn:Er.
    assert (Hn : nul ∉ str_of_N (o_uid s)) by apply str_of_N_no_nul.
    destruct (lookup_user_total s (str_of_N (o_uid s)) Hn) as (o & Ho & Hd).
    assert (Hh : handle_resolve_user None s = (Ok (Reply [] (match o with None => PInvalidField (lit "user") (lit "The user does not exist") | Some pw => PResolveResult (pw_name pw) end)), s)).
    { unfold handle_resolve_user. cbv [mbind M_bind bindM getM lift]. rewrite Ho. destruct o; reflexivity. }
    assert (Henc : encodable (PResolveUser None)) by (apply packet_ok_write; exact I).
    apply request_pure in Er as [Hv Hx].
    2:{ cbn [handle]. rewrite Hh. intros r0 s' [= _ <-]. reflexivity. }
    2:{ cbn [handle]. rewrite Hh. cbn [fst]. intros raw r0 [= <- _]. reflexivity. }
    destruct Hx as [(e & -> & He)|(p & Hp & ->)].
    { injection E as <- <-. split; [exact Hv|]. right. destruct He as [-> |[-> |[(n & a & b & ->)|He]]]; [..|contradiction]; (split; [reflexivity|]); unfold trouble; eauto 8. }
    cbn [handle] in Hp. rewrite Hh in Hp. cbn [fst] in Hp. injection Hp as <-. destruct o as [a|]; cbn in E; injection E as <- <-; (split; [exact Hv|]); [eauto|left; split; [reflexivity|exact Hd]].
  Qed.
  Theorem C72_home_dir u c r c' : c_string u -> home_dir exec sha512 (Some u) c = (r, c') ->
    asked_only c c' /\
    match r with
    | Ok h => exists a, denotes_user (sysof c) u a /\ h = pw_dir a
    | Err e => is_ValueError e = true /\ no_such_user (sysof c) u false \/ trouble e
    end.
  Proof.
    intros Hu E. unfold home_dir in E. unfold mbind, W_bind, mret, W_ret in E. unfold via in E.
    destruct (conn_query_user exec sha512 u false (c_remote c)) as [y v] eqn:Ec. unfold asked_only, sysof.
    destruct (c_remote c) as [s l] eqn:Hc. apply conn_query_user_says in Ec as [Hv Hy]; [|exact Hu].
    destruct y as [y|e]; injection E as <- <-; (split; [split; [reflexivity|exact Hv]|]).
    - destruct Hy as (a & Ha & H). exists a. split; [exact Ha|]. apply H.
    - destruct Hy as [Hy|[_ Hy]]; auto.
  Qed.
  (** Without a name: the home of the user that the dispatcher runs as, provided no account has this number for a name. *)
  Theorem C72_own_home_partial c h c' : Forall (fun a => c_string (pw_name a)) (o_passwd (sysof c)) -> NoDup (List.map pw_name (o_passwd (sysof c))) ->
    (forall a, a ∈ o_passwd (sysof c) -> pw_name a <> str_of_N (o_uid (sysof c))) ->
    home_dir exec sha512 None c = (Ok h, c') ->
    asked_only c c' /\ exists a, a ∈ o_passwd (sysof c) /\ pw_uid a = o_uid (sysof c) /\ h = pw_dir a.
  Proof.
    intros Hs Hnd Hno E. unfold home_dir in E. unfold mbind, W_bind, mret, W_ret in E. unfold resolve_user, via in E.
    destruct (conn_resolve_user exec sha512 None (c_remote c)) as [y v] eqn:Ec. unfold asked_only, sysof in *.
    destruct (c_remote c) as [s l] eqn:Hc. cbn [r_os] in *. apply resolve_own in Ec as [Hv Hy]. destruct y as [n|e]; [|discriminate]. destruct Hy as (a & Ha & ->).
    cbn [c_remote set_remote] in E. destruct v as [s1 l1]. cbn [r_os] in Hv. subst s1.
    destruct (conn_query_user exec sha512 (pw_name a) false (Remote s l1)) as [y v] eqn:Eq.
    assert (Han : c_string (pw_name a)) by (eapply Forall_forall in Hs; [exact Hs|apply Ha]).
    apply conn_query_user_says in Eq as [Hv Hy]; [|exact Han].
    destruct y as [y|e]; [|discriminate]. injection E as <- <-. split; [split; [reflexivity|exact Hv]|]. exists a. split; [apply Ha|]. split.
    - destruct Ha as [Ha [Hx|[_ Hx]]]; [destruct (Hno a Ha Hx)|]. unfold str_of_N in Hx. rewrite py_int_show in Hx by (right; reflexivity). injection Hx as Hx. lia.
    - destruct Hy as (b & Hb & _ & _ & _ & _ & _ & _ & _ & _ & Hh & _). rewrite Hh. f_equal.
      assert (pw_name b = pw_name a) by (destruct Hb as [Hb [Hx|[Hx _]]]; [exact Hx|destruct (Hx a (proj1 Ha) eq_refl)]).
      eapply NoDup_map_inj; [exact Hnd|apply Hb|apply Ha|assumption].
  Qed.

  (** *** Downloads *)
  (** A missing file is reported as such by no failing system call. *)
  Definition honest (s : os) : Prop := forall n k fl, o_faults s = FErr n k :: fl -> n <> ENOENT.
  Lemma conn_download_says p s l x v : c_string p -> conn_download exec sha512 p (Remote s l) = (x, v) ->
    unaffected s (r_os v) /\
    match x with
    | Ok b => exists pl n, names (o_fs s) (o_cwd s) p true pl n /\ (n_kind n = KFile b \/ exists t, n_kind n = KOther t)
    | Err e => is_ValueError e = true /\ (honest s -> forall pl n, ~ names (o_fs s) (o_cwd s) p true pl n) \/ is_ValueError e = false /\ trouble e
    end.
  Proof.
    intros Hp E. unfold conn_download in E. cbv [mbind C_bind] in E.
    destruct (request exec sha512 (PDownload p) (Remote s l)) as [y w] eqn:Er.
    assert (Hw : v = w) by (destruct y as [[]|]; injection E as _ <-; reflexivity). subst w.
    assert (Henc : encodable (PDownload p)) by (apply packet_ok_write; cbn; apply short_ok; apply Hp).
    apply request_as_up in Er as [[Hv (e & -> & He)]|(y0 & v0 & Er & Hv & Hy & _)].
    { injection E as <-. rewrite Hv. split; [apply unaffected_refl|]. right. destruct He as [->|He]; [|contradiction]. split; [reflexivity|left; reflexivity]. }
    assert (Hh := request_state exec sha512 _ _ _ _ Henc Er). rewrite Hv, Hh. split; [apply handle_download_unaffected|].
    destruct Hy as [->| ->]; [|injection E as <-; right; split; [reflexivity|left; reflexivity]].
    destruct Henc as [b0 Hb]. unfold request in Er. cbn [r_link r_os] in Er. unfold request_held in Er. rewrite Hb in Er. cbn [handle] in Er. unfold handle_download in Er.
    destruct (sys_read p s) as [[c|e] s1] eqn:Ed.
    - apply read_names in Ed as [_ Hn]. cbn [answer] in Er. unfold answer, pure in Er. cbn beta iota in Er.
      destruct (write_packet (PDownloadResult c)) as [b' [e|]]; injection Er as <- <-; cbn in E; injection E as <-; [right; split; [reflexivity|left; reflexivity]|exact Hn].
    - assert (He : exists k, e = oserr k /\ (k = ENOENT -> honest s -> forall pl n, ~ names (o_fs s) (o_cwd s) p true pl n)).
      { unfold sys_read, syscall, next_fault in Ed. destruct (o_faults s) as [|[|n k] fl] eqn:Ef.
        1,2: injection Ed as Ed _; unfold set_faults in Ed; cbn [o_fs o_cwd] in Ed;
          destruct (resolve_node (o_fs s) (o_cwd s) p true) as [[pl n]|e1] eqn:En;
          [destruct (n_kind n); try discriminate Ed; injection Ed as <-; eexists; (split; [reflexivity|discriminate])|];
          injection Ed as ->; assert (Hk := En); apply resolve_node_err in Hk as [[Hk _]|[_ Hk]]; [destruct (proj2 Hp Hk)|];
          destruct Hk as [->|[->| ->]]; eexists; (split; [reflexivity|]); try discriminate; intros _ _ pl n Hn; apply names_resolve in Hn as [Hn|Hn]; rewrite En in Hn; discriminate Hn.
        injection Ed as <- _. exists n. split; [reflexivity|]. intros -> Ho. destruct (Ho _ _ _ Ef eq_refl). }
      destruct He as (k & -> & Hno). cbn [oserr] in Er. destruct (Z.eqb_spec k ENOENT) as [Hk|Hk].
      + unfold answer, pure in Er. cbn beta iota in Er. destruct (write_packet (PInvalidField _ _)) as [b' [e|]]; injection Er as <- <-; cbn in E; injection E as <-; [right; split; [reflexivity|left; reflexivity]|left; auto].
      + destruct (write_packet (POSError _ _ _)) as [b' [e|]]; injection Er as <- <-; cbn in E; injection E as <-; right; (split; [reflexivity|]); unfold trouble; eauto 8.
  Qed.
  (** download gives the content of the named file, or nothing of that name exists.  (Reading a device is not described.) *)
  Theorem C72_download p c r c' : c_string p -> download exec sha512 p c = (r, c') ->
    c' = set_remote (c_remote c') c /\ unaffected (sysof c) (sysof c') /\
    match r with
    | Ok b => exists pl n, names (o_fs (sysof c)) (o_cwd (sysof c)) p true pl n /\ (n_kind n = KFile b \/ exists t, n_kind n = KOther t)
    | Err e => is_ValueError e = true /\ (honest (sysof c) -> forall pl n, ~ names (o_fs (sysof c)) (o_cwd (sysof c)) p true pl n) \/ trouble e
    end.
  Proof.
    intros Hp E. unfold download, via in E. destruct (conn_download exec sha512 p (c_remote c)) as [y v] eqn:Ec. injection E as <- <-. unfold sysof.
    destruct (c_remote c) as [s l] eqn:Hc. apply conn_download_says in Ec as [Hv Hy]; [|exact Hp]. split; [reflexivity|]. split; [exact Hv|].
    destruct y as [y|e]; [exact Hy|]. destruct Hy as [Hy|[_ Hy]]; auto.
  Qed.
  Theorem C72_download_or p d c r c' : c_string p -> honest (sysof c) -> download_or exec sha512 p d c = (r, c') ->
    c' = set_remote (c_remote c') c /\ unaffected (sysof c) (sysof c') /\
    match r with
    | Ok o => (exists pl n b, o = Some b /\ names (o_fs (sysof c)) (o_cwd (sysof c)) p true pl n /\ (n_kind n = KFile b \/ exists t, n_kind n = KOther t)) \/
              o = d /\ forall pl n, ~ names (o_fs (sysof c)) (o_cwd (sysof c)) p true pl n
    | Err e => trouble e
    end.
  Proof.
    intros Hp Ho E. unfold download_or in E. apply or_default_of in E as (x & E & Hx). unfold download, via in E.
    destruct (conn_download exec sha512 p (c_remote c)) as [y v] eqn:Ec. injection E as <- <-. unfold sysof in *.
    destruct (c_remote c) as [s l] eqn:Hc. cbn [r_os] in *. apply conn_download_says in Ec as [Hv Hy]; [|exact Hp]. split; [reflexivity|]. split; [exact Hv|].
    destruct y as [b|e]; [subst r; left; destruct Hy as (pl & n & H1 & H2); eauto 8|]. destruct Hy as [[Hz Hy]|[Hz Hy]]; rewrite Hz in Hx; subst r; auto.
  Qed.

  (** While the connection holds they are answered. *)
  Theorem C72_answered c : r_link (c_remote c) = Up -> os_ok (sysof c) ->
    (forall u hash d, c_string u -> (hash = true -> o_uid (sysof c) = 0%N) -> exists o, query_user exec sha512 u hash d c = (Ok o, c)) /\
    (forall g d, c_string g -> exists o, query_group exec sha512 g d c = (Ok o, c)) /\
    (forall k d, short k -> exists o, getenv exec sha512 k d c = (Ok o, c)) /\
    (forall u a g, c_string u -> denotes_user (sysof c) u a -> (g, pw_gid a) ∈ gids (sysof c) -> NoDup (List.map pw_name (o_passwd (sysof c))) ->
       (forall b, b ∈ o_passwd (sysof c) -> pw_uid b = pw_uid a -> b = a) -> home_dir exec sha512 (Some u) c = (Ok (pw_dir a), c)).
  Proof.
    intros Hl Hs. destruct (c_remote c) as [s l] eqn:Hc. assert (Hsys : sysof c = s) by (unfold sysof; rewrite Hc; reflexivity). rewrite Hsys in *. cbn [r_link] in Hl. subst l.
    assert (Hset : set_remote (Remote s Up) c = c) by (rewrite <- Hc; destruct c; reflexivity).
    assert (Huser : forall u hash, c_string u -> (hash = true -> o_uid s = 0%N) ->
      (exists m, conn_query_user exec sha512 u hash (Remote s Up) = (Err (ValueError m), Remote s Up) /\ no_such_user s u hash) \/
      exists x, conn_query_user exec sha512 u hash (Remote s Up) = (Ok x, Remote s Up) /\ describes_user s u hash x).
    { intros u hash Hu Hr. destruct (handle_query_user_says u hash s (proj2 Hu)) as (r & Hh & H).
      assert (Hsafe := handle_query_user_ok u hash Hu s Hs). rewrite Hh in Hsafe.
      assert (Henc : encodable (PQueryUser u hash)) by (apply packet_ok_write; cbn; apply short_ok; apply Hu). unfold conn_query_user. cbv [mbind C_bind].
      destruct H as [(m & -> & Hno)|[(n & i & g & gi & gs & h & ge & ho & sh & -> & Hd)|(k & a & b & -> & -> & H)]]; [| |destruct (H (Hr eq_refl))].
      - left. destruct Hsafe as [[_ Hok] _]. destruct (request_invalid exec sha512 (PQueryUser u hash) s "user" m s Henc Hh Hok eq_refl) as [msg ->]. eauto.
      - right. destruct Hsafe as [[_ Hok] _]. rewrite (request_reply exec sha512 (PQueryUser u hash) s _ s Henc Hh Hok). eauto. }
    split; [|split; [|split]].
    - intros u hash d Hu Hr. unfold query_user, or_default, wtry. unfold mbind, W_bind. unfold via. rewrite Hc.
      destruct (Huser u hash Hu Hr) as [(m & -> & _)|(x & -> & _)]; cbn; rewrite Hset; eauto.
    - intros g d Hg. unfold query_group, or_default, wtry. unfold mbind, W_bind. unfold via, conn_query_group. cbv [mbind C_bind]. rewrite Hc.
      destruct (handle_query_group_says g s (proj2 Hg)) as (r & Hh & H).
      assert (Hsafe := handle_query_group_ok g Hg s Hs). rewrite Hh in Hsafe. destruct Hsafe as [[_ Hok] _].
      assert (Henc : encodable (PQueryGroup g)) by (apply packet_ok_write; cbn; apply short_ok; apply Hg).
      destruct H as [(m & -> & Hno)|(n & i & ms & -> & Hd)].
      + destruct (request_invalid exec sha512 (PQueryGroup g) s "group" m s Henc Hh Hok eq_refl) as [msg ->]. cbn. rewrite Hset. eauto.
      + rewrite (request_reply exec sha512 (PQueryGroup g) s _ s Henc Hh Hok). cbn. rewrite Hset. eauto.
    - intros k d Hk. unfold getenv. unfold mbind, W_bind. unfold via, conn_getenv. cbv [mbind C_bind]. rewrite Hc.
      assert (Henc : encodable (PGetenv k)) by (apply packet_ok_write; cbn; apply short_ok; exact Hk).
      assert (Hsafe := handle_getenv_ok k s Hs).
      assert (Hh : handle exec sha512 (PGetenv k) s = (Ok (Reply [] (PEnvironVar (dget k (o_env s)))), s)) by reflexivity.
      rewrite (request_reply exec sha512 (PGetenv k) s _ s Henc Hh). 2:{ apply Hsafe. }
      cbn. rewrite Hset. eauto.
    - intros u a g Hu Ha Hg Hnd Huid. unfold home_dir. unfold mbind, W_bind, mret, W_ret. unfold via. rewrite Hc.
      assert (Hone : forall b, denotes_user s u b -> b = a).
      { intros b Hb. destruct Ha as [Ha1 [Ha2|[Ha2 Ha3]]], Hb as [Hb1 [Hb2|[Hb2 Hb3]]].
        - eapply NoDup_map_inj; [exact Hnd|assumption..|congruence].
        - destruct (Hb2 a Ha1 Ha2).
        - destruct (Ha2 b Hb1 Hb2).
        - apply Huid; [exact Hb1|]. rewrite Ha3 in Hb3. injection Hb3 as Hb3. lia. }
      destruct (Huser u false Hu) as [(m & _ & [Hno|(b & Hb & [Hno|[[=] _]])])|(x & -> & (b & Hb & H))]; [discriminate|destruct (Hno a Ha)|rewrite (Hone b Hb) in Hno; destruct (Hno g Hg)|].
      rewrite (Hone b Hb) in H. replace (ue_home x) with (pw_dir a) by (symmetry; apply H). rewrite Hset. reflexivity.
  Qed.
End query.
Print Assumptions C72_query_user.
Print Assumptions C72_query_group.
Print Assumptions C72_getenv.
Print Assumptions C72_home_dir.
Print Assumptions C72_own_home_partial.
Print Assumptions C72_download.
Print Assumptions C72_download_or.
Print Assumptions C72_answered.

(** ** Deviations *)
Definition desk (s : os) : ctl := Ctl (Remote s Up) (Settings None None None None None None None None) [] None [] (lit "/d") [] 0.
(** [forall c u a, denotes_user (sysof c) u a -> query_user u true None c <> (Ok None, _)] is false: no entry is also the answer for an
    account without a password entry. *)
Theorem C72_known_refuted : exists c u a, r_link (c_remote c) = Up /\ os_ok (sysof c) /\ c_string u /\ denotes_user (sysof c) u a /\
  forall exec sha512, query_user exec sha512 u true None c = (Ok None, c).
Proof.
  exists (desk demo), (lit "alice"), (Account (lit "alice") 1000 100 [] (lit "/home") (lit "/bin/sh")).
  split; [reflexivity|]. split; [exact demo_ok|]. split; [split; [text|dec]|]. split; [split; [right; left|left; reflexivity]|]. intros. vm_compute. reflexivity.
Qed.
Print Assumptions C72_known_refuted.
(** [forall c u a, denotes_user (sysof c) u a -> home_dir (Some u) c = (Ok (pw_dir a), c)] is false: the primary group is needed. *)
Theorem C72_home_refuted : exists c u a, r_link (c_remote c) = Up /\ os_ok (sysof c) /\ c_string u /\ denotes_user (sysof c) u a /\
  forall exec sha512, exists m, home_dir exec sha512 (Some u) c = (Err (ValueError m), c).
Proof.
  exists (desk demo), (lit "1000"), (Account (lit "1000") 7 7 [] (lit "/") (lit "/bin/sh")).
  split; [reflexivity|]. split; [exact demo_ok|]. split; [split; [text|dec]|]. split; [split; [do 2 right; left|left; reflexivity]|]. intros. eexists. vm_compute. reflexivity.
Qed.
Print Assumptions C72_home_refuted.
(** Without the condition on names, C72_own_home_partial is false: an account with the number of the own user for a name is taken for it. *)
Definition numbered : os := OS
  [ Account (lit "alice") 1000 100 [] (lit "/home") (lit "/bin/sh"); Account (lit "1000") 7 100 [] (lit "/") (lit "/bin/sh") ]
  (o_group demo) [] [] demo_fs 1000 100 [] [] 200 [].
Theorem C72_own_home_refuted : exists c h, r_link (c_remote c) = Up /\ Forall (fun a => c_string (pw_name a)) (o_passwd (sysof c)) /\ NoDup (List.map pw_name (o_passwd (sysof c))) /\
  (forall a, a ∈ o_passwd (sysof c) -> pw_uid a = o_uid (sysof c) -> pw_dir a <> h) /\
  forall exec sha512, home_dir exec sha512 None c = (Ok h, c).
Proof.
  exists (desk numbered), (lit "/"). split; [reflexivity|]. split; [each; (split; [text|dec])|]. split; [dec|]. split.
  - intros a Ha. cbn [desk sysof c_remote r_os numbered o_passwd] in Ha. apply elem_of_cons in Ha as [->|Ha]; [discriminate|]. apply elem_of_list_singleton in Ha as ->. vm_compute. discriminate.
  - intros. vm_compute. reflexivity.
Qed.
Print Assumptions C72_own_home_refuted.
(** Without [c_string p] (here: a file name with a byte that is no UTF-8, which python writes as a surrogate), C72_download_or is false:
    the default is returned although the file is there.  The connection is out of step from then on. *)
Definition latin : pystr := lit "/caf" ++ [56553%N].
Definition french : os := OS (o_passwd demo) (o_group demo) (o_shadow demo) (o_env demo) (<[[lit "caf" ++ [56553%N]] := Node (KFile (blit "au lait")) 420 0 0 100 100]> demo_fs) 0 0 [] [] 200 [].
Theorem C72_unencodable_refuted : exists c p pl n b, r_link (c_remote c) = Up /\ nul ∉ p /\ o_faults (sysof c) = [] /\
  names (o_fs (sysof c)) (o_cwd (sysof c)) p true pl n /\ n_kind n = KFile b /\
  forall exec sha512, exists c', download_or exec sha512 p None c = (Ok None, c') /\ r_link (c_remote c') = Garbled.
Proof.
  exists (desk french), latin, [lit "caf" ++ [56553%N]], (Node (KFile (blit "au lait")) 420 0 0 100 100), (blit "au lait").
  split; [reflexivity|]. split; [dec|]. split; [reflexivity|]. split; [apply resolve_node_names; vm_compute; reflexivity|]. split; [reflexivity|].
  intros. exists (set_remote (Remote french Garbled) (desk french)). split; [vm_compute; reflexivity|reflexivity].
Qed.
Print Assumptions C72_unencodable_refuted.

Example C72_case : r_link (c_remote (desk demo)) = Up /\ os_ok (sysof (desk demo)) /\
  query_user echo fake_hash (lit "alice") false None (desk demo) = (Ok (Some (UserEntry (lit "alice") 1000 (lit "users") 100 [lit "wheel"] None [] (lit "/home") (lit "/bin/sh"))), desk demo) /\
  query_user echo fake_hash (lit "0") true None (desk demo) = (Ok (Some (UserEntry (lit "root") 0 (lit "root") 0 [] (Some (lit "*")) [] (lit "/root") (lit "/bin/sh"))), desk demo) /\
  query_user echo fake_hash (lit "bob") false None (desk demo) = (Ok None, desk demo) /\
  query_group echo fake_hash (lit "wheel") None (desk demo) = (Ok (Some (GroupEntry (lit "wheel") 10 [lit "alice"])), desk demo) /\
  query_group echo fake_hash (lit "nobody") None (desk demo) = (Ok None, desk demo) /\
  home_dir echo fake_hash None (desk demo) = (Ok (lit "/root"), desk demo) /\
  home_dir echo fake_hash (Some (lit "alice")) (desk demo) = (Ok (lit "/home"), desk demo) /\
  getenv echo fake_hash (lit "LANG") None (desk demo) = (Ok (Some (lit "C")), desk demo) /\
  getenv echo fake_hash (lit "PATH") (Some (lit "/bin")) (desk demo) = (Ok (Some (lit "/bin")), desk demo) /\
  download_or echo fake_hash (lit "/etc/app.conf") None (desk demo) = (Ok (Some (blit "old")), desk demo) /\
  download_or echo fake_hash (lit "/etc/none") (Some []) (desk demo) = (Ok (Some []), desk demo) /\
  honest demo /\ c_string (lit "alice") /\ c_string (lit "/etc/app.conf") /\
  (forall a, a ∈ o_passwd demo -> pw_name a <> str_of_N (o_uid demo)).
Proof.
  split; [reflexivity|]. split; [exact demo_ok|]. repeat (split; [vm_compute; reflexivity|]). split; [intros n k fl [=]|]. split; [split; [text|dec]|]. split; [split; [text|dec]|].
  apply Forall_forall. dec.
Qed.
