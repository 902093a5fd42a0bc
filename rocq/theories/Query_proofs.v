(** * query_user and query_group *)
From Coq Require Import Lia ZifyBool ZifyN ZifyNat.
From stdpp Require Import gmap.
From Verif Require Import Base Utf8 Dict_proofs Codec Spec_Codec Paths Sys Spec_Sys Sys_proofs Dispatcher Client Spec_Session Codec_proofs Codec_proofs2 Session_proofs Spec_Remote Remote_safe Remote_proofs Remote_run Control Spec_Control Control_proofs
  Walk_proofs Op Op_proofs Files Files_plain Spec_Files Shell_proofs Steps Spec_Account.
Local Open Scope nat_scope.

Lemma find_ext {A} (f g : A -> bool) l : (forall x, f x = g x) -> List.find f l = List.find g l.
Proof. intros H. induction l as [|x l IH]; [reflexivity|]. cbn. rewrite H, IH. reflexivity. Qed.
Lemma str_eqb_decide (a b : pystr) : str_eqb a b = bool_decide (a = b).
Proof. destruct (str_eqb_spec a b) as [->|H]; symmetry; [apply bool_decide_eq_true_2; reflexivity|apply bool_decide_eq_false_2; exact H]. Qed.
Lemma getpwnam_entry s u : nul ∉ u -> getpwnam s u = from_option KeyError (entry s u).
Proof.
  intros H. unfold getpwnam. destruct (has_char_spec nul u) as [E|_]; [contradiction|]. reflexivity.
Qed.
Definition group_entry_of (s : os) (g : pystr) : option grent := List.find (fun e => bool_decide (gr_name e = g)) (o_group s).
Lemma getgrnam_entry s g : nul ∉ g -> getgrnam s g = from_option KeyError (group_entry_of s g).
Proof.
  intros H. unfold getgrnam. destruct (has_char_spec nul g) as [E|_]; [contradiction|]. reflexivity.
Qed.
Lemma gid_of_entry s g : gid_of s g = gr_gid <$> group_entry_of s g.
Proof.
  unfold gid_of, gids, group_entry_of. induction (o_group s) as [|e l IH]; [reflexivity|]. cbn. destruct (bool_decide (gr_name e = g)); [reflexivity|exact IH].
Qed.
Lemma entry_some s u a : entry s u = Some a -> a ∈ o_passwd s /\ pw_name a = u.
Proof. intros H. apply List.find_some in H as [H1 H2]. apply bool_decide_eq_true in H2. split; [apply elem_of_list_In; exact H1|exact H2]. Qed.
Lemma getgrgid_found s n : (exists g, (g, n) ∈ gids s) <-> exists e, getgrgid s (Z.of_N n) = Ok e /\ (gr_name e, n) ∈ gids s.
Proof.
  split; [|intros (e & _ & H); eauto]. intros (g & H). unfold gids in H. apply elem_of_list_fmap in H as (e & [= -> ->] & He). unfold getgrgid.
  destruct (List.find (fun g => (Z.of_N (gr_gid g) =? Z.of_N (gr_gid e))%Z) (o_group s)) as [e'|] eqn:E.
  - exists e'. split; [reflexivity|]. apply List.find_some in E as [E1 E2]. apply elem_of_list_In in E1. apply elem_of_list_fmap. exists e'. split; [|exact E1]. f_equal. lia.
  - exfalso. apply elem_of_list_In in He. apply (List.find_none _ _ E e) in He. lia.
Qed.
(** the groups that are reported: those with this member *)
Definition groups_of (s : os) (u : pystr) : list pystr := List.map gr_name (List.filter (fun g => str_in u (gr_mem g)) (o_group s)).
Lemma groups_of_spec s u g : g ∈ groups_of s u <-> member s g u.
Proof.
  unfold groups_of, member. rewrite elem_of_list_In, in_map_iff. split.
  - intros (e & <- & H). apply filter_In in H as [H1 H2]. apply str_in_true in H2. exists e. split; [apply elem_of_list_In; exact H1|auto].
  - intros (e & H1 & <- & H2). exists e. split; [reflexivity|]. apply filter_In. split; [apply elem_of_list_In; exact H1|apply str_in_true; exact H2].
Qed.
Lemma groups_of_nodup s u : NoDup (gids s).*1 -> NoDup (groups_of s u).
Proof.
  unfold gids, groups_of. rewrite <- list_fmap_compose. change (fst ∘ (fun e : grent => (gr_name e, gr_gid e))) with gr_name.
  induction (o_group s) as [|e l IH]; [intros _; constructor|]. rewrite fmap_cons. intros H. inversion H as [|? ? Hn Hl]; subst. cbn. destruct (str_in u (gr_mem e)); [|apply IH; exact Hl].
  cbn. constructor; [|apply IH; exact Hl]. intros Hx. apply Hn. apply elem_of_list_In, in_map_iff in Hx as (e' & E & Hx). apply filter_In in Hx as [Hx _].
  apply elem_of_list_fmap. exists e'. split; [symmetry; exact E|apply elem_of_list_In; exact Hx].
Qed.

Section query.
  Variable exec : proc -> M xres.
  Variable sha512 : bytes -> bytes.

  (** an answer that does not change anything *)
  Lemma request_pure q s l x v' : (forall r s', handle exec sha512 q s = (r, s') -> s' = s) ->
    (forall raw r, fst (handle exec sha512 q s) = Ok (Reply raw r) -> raw = []) ->
    request exec sha512 q (Remote s l) = (x, v') ->
    r_os v' = s /\
    ((exists e, x = Err e /\ (e = eof \/ e = Blocked \/ (exists n a b, e = RemoteOSError n a b) \/ ~ encodable q)) \/
     exists r, fst (handle exec sha512 q s) = Ok (Reply [] r) /\ x = deliver (Some q) r).
  Proof.
    intros Hs Hraw E. apply request_as_up in E as [[-> (e & -> & He)]|(x0 & v0 & E0 & -> & Hx & He)].
    { split; [reflexivity|]. left. exists e. tauto. }
    destruct He as [b Hb]. unfold request, request_held in E0. cbn [r_link r_os] in E0. rewrite Hb in E0.
    destruct (handle exec sha512 q s) as [r s'] eqn:Eh. specialize (Hs r s' eq_refl). subst s'. cbn [fst] in Hraw |- *.
    assert (Hend : r_os v0 = s /\ ((exists e, x0 = Err e /\ (e = eof \/ e = Blocked \/ (exists n a b, e = RemoteOSError n a b) \/ ~ encodable q)) \/ exists p, r = Ok (Reply [] p) /\ x0 = deliver (Some q) p)).
    { destruct r as [[raw p| |]|e].
      - rewrite (Hraw raw p eq_refl) in E0 |- *. destruct (write_packet p) as [b' [e|]]; injection E0 as <- <-; (split; [reflexivity|]); [left; eauto|right; eauto].
      - injection E0 as <- <-. split; [reflexivity|]. left; eauto.
      - injection E0 as <- <-. split; [reflexivity|]. left; eauto.
      - destruct e; try (injection E0 as <- <-; split; [reflexivity|]; left; eauto; fail).
        destruct (write_packet _) as [b' [e|]]; injection E0 as <- <-; (split; [reflexivity|]); left; [eauto|]. cbn. eexists. split; [reflexivity|]. eauto 8. }
    destruct Hend as [H1 H2]. split; [exact H1|]. destruct Hx as [-> | ->]; [exact H2|]. left. eauto.
  Qed.

  Definition entry_of (s : os) (u : pystr) (a : account) (g : pystr) (h : pystr) : user_entry :=
    UserEntry (pw_name a) (Z.of_N (pw_uid a)) g (Z.of_N (pw_gid a)) (groups_of s (pw_name a)) (Some h) (pw_gecos a) (pw_dir a) (pw_shell a).
  Lemma query_user_any u c r c' : query_user exec sha512 u true None c = (r, c') -> c_string u -> py_int 10 u = None ->
    c' = set_remote (c_remote c') c /\ sysof c' = sysof c /\
    match r with
    | Ok (Some x) => exists a e h, complete (sysof c) u a /\ getgrgid (sysof c) (Z.of_N (pw_gid a)) = Ok e /\ secret (sysof c) u = Some h /\ x = entry_of (sysof c) u a (gr_name e) h
    | Ok None => forall a, entry (sysof c) u = Some a -> ~ complete (sysof c) u a
    | Err _ => True
    end.
  Proof.
    intros E Hu Hnum. unfold query_user, or_default, wtry in E. unfold mbind, W_bind in E. unfold via, conn_query_user in E. cbv [mbind C_bind] in E.
    destruct (request exec sha512 (PQueryUser u true) (c_remote c)) as [x v] eqn:Er. destruct (c_remote c) as [s l] eqn:Hc.
    assert (Hl : lookup_user s u = Ok (entry s u)).
    { unfold lookup_user. rewrite getpwnam_entry by apply Hu. destruct (entry s u); cbn; [reflexivity|]. rewrite Hnum. reflexivity. }
    set (h := handle_query_user u true s).
    assert (Hh : h = (match entry s u with
        | None => Ok (Reply [] (PInvalidField (lit "user") (lit "The user does not exist")))
        | Some a => match getspnam s (pw_name a) with
            | Ok h => match getgrgid s (Z.of_N (pw_gid a)) with
                | Ok g => Ok (Reply [] (PUserEntry (pw_name a) (Z.of_N (pw_uid a)) (gr_name g) (Z.of_N (pw_gid a)) (groups_of s (pw_name a)) (Some h) (pw_gecos a) (pw_dir a) (pw_shell a)))
                | Err _ => Ok (Reply [] (PInvalidField (lit "user") (lit "The user's primary group doesn't exist"))) end
            | Err KeyError => Ok (Reply [] (PInvalidField (lit "user") (lit "The user has no shadow entry, or it is inaccessible.")))
            | Err e => Err e end
        end, s)).
    { unfold h, handle_query_user. cbv [mbind M_bind bindM getM lift]. rewrite Hl. destruct (entry s u) as [a|]; [|reflexivity]. cbn zeta.
      destruct (getspnam s (pw_name a)) as [hh|e]; [destruct (getgrgid s _); reflexivity|]. destruct e; reflexivity. }
    apply request_pure in Er as [Hv Hx].
    2:{ cbn [handle]. fold h. rewrite Hh. intros r0 s' [= _ <-]. reflexivity. }
    2:{ cbn [handle]. fold h. rewrite Hh. cbn [fst]. intros raw r0 H. destruct (entry s u) as [a|]; [|injection H as <- _; reflexivity].
        destruct (getspnam s (pw_name a)) as [hh|e]; [destruct (getgrgid s _); injection H as <- _; reflexivity|]. destruct e; try discriminate H. injection H as <- _; reflexivity. }
    assert (Henc : encodable (PQueryUser u true)) by (apply packet_ok_write; cbn; apply short_ok; apply Hu).
    assert (Hsys : sysof c = s) by (unfold sysof; rewrite Hc; reflexivity). rewrite Hsys.
    destruct Hx as [(e & -> & He)|(p & Hp & ->)].
    { assert (Hne : is_ValueError e = false) by (destruct He as [-> |[-> |[(n & a & b & ->)|He]]]; [reflexivity..|contradiction]). rewrite Hne in E. injection E as <- <-.
      split; [reflexivity|]. split; [exact Hv|exact I]. }
    cbn [handle] in Hp. fold h in Hp. rewrite Hh in Hp. cbn [fst] in Hp.
    assert (Hbad : forall m, p = PInvalidField (lit "user") m -> (forall a, entry s u = Some a -> ~ complete s u a) ->
      c' = set_remote (c_remote c') c /\ sysof c' = s /\ match r with Ok (Some x) => exists a e h, complete s u a /\ getgrgid s (Z.of_N (pw_gid a)) = Ok e /\ secret s u = Some h /\ x = entry_of s u a (gr_name e) h | Ok None => forall a, entry s u = Some a -> ~ complete s u a | Err _ => True end).
    { intros m -> Hno. cbn [deliver] in E. unfold has_attr in E. change (str_in (lit "user") (field_names (PQueryUser u true))) with true in E. rewrite orb_true_r in E. cbn in E. injection E as <- <-.
      split; [reflexivity|]. split; [exact Hv|exact Hno]. }
    destruct (entry s u) as [a|] eqn:Ee; [|injection Hp as <-; eapply Hbad; [reflexivity|intros a [=]]].
    destruct (entry_some _ _ _ Ee) as [Ha1 Ha2].
    destruct (getspnam s (pw_name a)) as [hh|e] eqn:Es.
    - assert (Hsec : secret s u = Some hh).
      { unfold getspnam in Es. destruct (_ =? _)%N; [|discriminate]. unfold secret. rewrite <- Ha2. destruct (dget (pw_name a) (o_shadow s)); cbn in Es; congruence. }
      destruct (getgrgid s (Z.of_N (pw_gid a))) as [g|e] eqn:Eg.
      + injection Hp as <-. cbn in E. injection E as <- <-. split; [reflexivity|]. split; [exact Hv|]. exists a, g, hh. split; [|auto].
        split; [exact Ee|]. split; [eauto|]. exists (gr_name g). unfold getgrgid in Eg. destruct (List.find _ _) as [g'|] eqn:Ef; [|discriminate]. injection Eg as ->.
        apply List.find_some in Ef as [E1 E2]. apply elem_of_list_In in E1. apply elem_of_list_fmap. exists g. split; [|exact E1]. f_equal. lia.
      + injection Hp as <-. eapply Hbad; [reflexivity|]. intros a' [= <-] (_ & _ & Hg). apply getgrgid_found in Hg as (e' & H & _). congruence.
    - destruct e; try discriminate Hp. injection Hp as <-. eapply Hbad; [reflexivity|]. intros a' [= <-] (_ & (hh & Hs) & _).
      unfold getspnam in Es. destruct (_ =? _)%N; [|discriminate]. unfold secret in Hs. rewrite Ha2, Hs in Es. discriminate.
  Qed.

  Lemma query_user_fine u c : healthy c -> os_ok (sysof c) -> c_string u -> exists r, query_user exec sha512 u true None c = (Ok r, c).
  Proof.
    intros (Hl & _ & H0) Hs Hu. unfold query_user, or_default, wtry. unfold mbind, W_bind. unfold via, conn_query_user. cbv [mbind C_bind].
    assert (Hsys : c_remote c = Remote (sysof c) Up) by (unfold sysof; destruct (c_remote c); cbn in Hl |- *; rewrite Hl; reflexivity).
    assert (Hset : set_remote (Remote (sysof c) Up) c = c) by (rewrite <- Hsys; destruct c; reflexivity).
    assert (Hsafe := handle_query_user_ok u true Hu (sysof c) Hs).
    assert (Henc : encodable (PQueryUser u true)) by (apply packet_ok_write; cbn; apply short_ok; apply Hu).
    assert (Hh : exists p, handle exec sha512 (PQueryUser u true) (sysof c) = (Ok (Reply [] p), sysof c) /\ ((exists m, p = PInvalidField (lit "user") m) \/ exists a b d e f g h i j, p = PUserEntry a b d e f g h i j)).
    { cbn [handle]. unfold handle_query_user. cbv [mbind M_bind bindM getM lift].
      destruct (Remote_safe.lookup_user_ok (sysof c) u Hs (proj2 Hu)) as (o & E & _). rewrite E. destruct o as [a|]; [|eexists; split; [reflexivity|left; eauto]]. cbn zeta.
      unfold getspnam. rewrite H0. cbn [N.eqb]. destruct (dget _ _) as [hh|]; cbn [Base.from_option]; [|eexists; split; [reflexivity|left; eauto]].
      destruct (getgrgid _ _); (eexists; split; [reflexivity|]); [right; eauto 12|left; eauto]. }
    destruct Hh as (p & Hh & Hp). cbn [handle] in Hh. rewrite Hh in Hsafe. destruct Hsafe as [[_ Hok] _]. rewrite Hsys.
    rewrite (request_reply exec sha512 (PQueryUser u true) (sysof c) p (sysof c) Henc Hh Hok). destruct Hp as [(m & ->)|(a & b & d & e & f & g & h & i & j & ->)].
    - cbn [deliver]. unfold has_attr. change (str_in (lit "user") (field_names (PQueryUser u true))) with true. rewrite orb_true_r. cbn. rewrite Hset. exists None. reflexivity.
    - cbn. rewrite Hset. eexists. reflexivity.
  Qed.

  Lemma query_group_any g c r c' : query_group exec sha512 g None c = (r, c') -> c_string g -> py_int 10 g = None ->
    c' = set_remote (c_remote c') c /\ sysof c' = sysof c /\
    match r with
    | Ok (Some x) => exists e, group_entry_of (sysof c) g = Some e /\ x = GroupEntry (gr_name e) (Z.of_N (gr_gid e)) (gr_mem e)
    | Ok None => group_entry_of (sysof c) g = None
    | Err _ => True
    end.
  Proof.
    intros E Hu Hnum. unfold query_group, or_default, wtry in E. unfold mbind, W_bind in E. unfold via, conn_query_group in E. cbv [mbind C_bind] in E.
    destruct (request exec sha512 (PQueryGroup g) (c_remote c)) as [x v] eqn:Er. destruct (c_remote c) as [s l] eqn:Hc.
    assert (Hl : lookup_group s g = Ok (group_entry_of s g)).
    { unfold lookup_group. rewrite getgrnam_entry by apply Hu. destruct (group_entry_of s g); cbn; [reflexivity|]. rewrite Hnum. reflexivity. }
    set (h := handle_query_group g s).
    assert (Hh : h = (match group_entry_of s g with
        | None => Ok (Reply [] (PInvalidField (lit "group") (lit "The group does not exist")))
        | Some a => Ok (Reply [] (PGroupEntry (gr_name a) (Z.of_N (gr_gid a)) (gr_mem a))) end, s)).
    { unfold h, handle_query_group. cbv [mbind M_bind bindM getM lift]. rewrite Hl. destruct (group_entry_of s g); reflexivity. }
    apply request_pure in Er as [Hv Hx].
    2:{ cbn [handle]. fold h. rewrite Hh. intros r0 s' [= _ <-]. reflexivity. }
    2:{ cbn [handle]. fold h. rewrite Hh. cbn [fst]. intros raw r0 H. destruct (group_entry_of s g); injection H as <- _; reflexivity. }
    assert (Henc : encodable (PQueryGroup g)) by (apply packet_ok_write; cbn; apply short_ok; apply Hu).
    assert (Hsys : sysof c = s) by (unfold sysof; rewrite Hc; reflexivity). rewrite Hsys.
    destruct Hx as [(e & -> & He)|(p & Hp & ->)].
    { assert (Hne : is_ValueError e = false) by (destruct He as [-> |[-> |[(n & a & b & ->)|He]]]; [reflexivity..|contradiction]). rewrite Hne in E. injection E as <- <-.
      split; [reflexivity|]. split; [exact Hv|exact I]. }
    cbn [handle] in Hp. fold h in Hp. rewrite Hh in Hp. cbn [fst] in Hp.
    destruct (group_entry_of s g) as [a|] eqn:Ee; injection Hp as <-.
    - cbn in E. injection E as <- <-. split; [reflexivity|]. split; [exact Hv|]. eauto.
    - cbn [deliver] in E. unfold has_attr in E. change (str_in (lit "group") (field_names (PQueryGroup g))) with true in E. rewrite orb_true_r in E. cbn in E. injection E as <- <-.
      split; [reflexivity|]. split; [exact Hv|reflexivity].
  Qed.
  Lemma query_group_fine g c : healthy c -> os_ok (sysof c) -> c_string g -> exists r, query_group exec sha512 g None c = (Ok r, c).
  Proof.
    intros (Hl & _ & H0) Hs Hu. unfold query_group, or_default, wtry. unfold mbind, W_bind. unfold via, conn_query_group. cbv [mbind C_bind].
    assert (Hsys : c_remote c = Remote (sysof c) Up) by (unfold sysof; destruct (c_remote c); cbn in Hl |- *; rewrite Hl; reflexivity).
    assert (Hset : set_remote (Remote (sysof c) Up) c = c) by (rewrite <- Hsys; destruct c; reflexivity).
    assert (Hsafe := handle_query_group_ok g Hu (sysof c) Hs).
    assert (Henc : encodable (PQueryGroup g)) by (apply packet_ok_write; cbn; apply short_ok; apply Hu).
    assert (Hh : exists p, handle exec sha512 (PQueryGroup g) (sysof c) = (Ok (Reply [] p), sysof c) /\ ((exists m, p = PInvalidField (lit "group") m) \/ exists a b d, p = PGroupEntry a b d)).
    { cbn [handle]. unfold handle_query_group. cbv [mbind M_bind bindM getM lift].
      destruct (Remote_safe.lookup_group_ok (sysof c) g Hs (proj2 Hu)) as (o & E & _). rewrite E. destruct o as [a|]; (eexists; split; [reflexivity|]); [right; eauto|left; eauto]. }
    destruct Hh as (p & Hh & Hp). cbn [handle] in Hh. rewrite Hh in Hsafe. destruct Hsafe as [[_ Hok] _]. rewrite Hsys.
    rewrite (request_reply exec sha512 (PQueryGroup g) (sysof c) p (sysof c) Henc Hh Hok). destruct Hp as [(m & ->)|(a & b & d & ->)].
    - cbn [deliver]. unfold has_attr. change (str_in (lit "group") (field_names (PQueryGroup g))) with true. rewrite orb_true_r. cbn. rewrite Hset. exists None. reflexivity.
    - cbn. rewrite Hset. eexists. reflexivity.
  Qed.
End query.
