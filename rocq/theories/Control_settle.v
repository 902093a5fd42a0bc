(** Lemmas about the values of default settings. *)
From Coq Require Import Lia ZifyBool ZifyN ZifyNat.
From stdpp Require Import gmap.
From Verif Require Import Base Utf8 Codec Spec_Codec Paths Sys Spec_Sys Sys_proofs Dispatcher Client Spec_Session Session_proofs Spec_Remote Remote_proofs Remote_run
  Readonly Direct Control Spec_Control Control_proofs Quiet Digits.

Lemma unaffected_sym s s' : unaffected s s' -> unaffected s' s.
Proof. unfold unaffected. intros ->. destruct s; reflexivity. Qed.
Section settle.
  Variable exec : proc -> M xres.
  Variable sha512 : bytes -> bytes.

  (** ** Requests that succeed *)
  Lemma request_up q v r v' : request exec sha512 q v = (Ok r, v') -> is_request q -> captured q ->
    encodable q /\ handle exec sha512 q (r_os v) = (Ok (Reply [] r), r_os v').
  Proof.
    intros E H1 H2. destruct v as [s l]. apply request_as_up in E as [[_ (e & [=] & _)]|(x0 & v0 & E & Hs & [<-|[=]] & He)].
    destruct (request_ok exec sha512 q s r v0 (conj H1 (conj H2 He)) E) as [H3 H4]. rewrite Hs. auto.
  Qed.
  Lemma resolve_user_ok u v n v' : conn_resolve_user exec sha512 (Some u) v = (Ok n, v') ->
    r_os v' = r_os v /\ exists a, denotes_user (r_os v) u a /\ n = pw_name a.
  Proof.
    unfold conn_resolve_user. cbv [mbind C_bind]. destruct (request _ _ _ v) as [[r|e] v1] eqn:E; [|discriminate].
    apply request_up in E as (_ & H2); [|exact I|exact I]. intros E.
    cbn [handle] in H2. unfold handle_resolve_user in H2. cbv [mbind M_bind bindM getM lift] in H2.
    destruct (lookup_user (r_os v) u) as [oa|e] eqn:El; [|discriminate]. apply lookup_user_ok in El.
    destruct oa as [a|]; injection H2 as <- H2; [|discriminate]. injection E as <- <-.
    split; [symmetry; exact H2|]. eauto.
  Qed.
  Lemma resolve_group_ok u v n v' : conn_resolve_group exec sha512 (Some u) v = (Ok n, v') ->
    r_os v' = r_os v /\ exists a, denotes_group (r_os v) u a /\ n = gr_name a.
  Proof.
    unfold conn_resolve_group. cbv [mbind C_bind]. destruct (request _ _ _ v) as [[r|e] v1] eqn:E; [|discriminate].
    apply request_up in E as (_ & H2); [|exact I|exact I]. intros E.
    cbn [handle] in H2. unfold handle_resolve_group in H2. cbv [mbind M_bind bindM getM lift] in H2.
    destruct (lookup_group (r_os v) u) as [oa|e] eqn:El; [|discriminate]. apply lookup_group_ok in El.
    destruct oa as [a|]; injection H2 as <- H2; [|discriminate]. injection E as <- <-.
    split; [symmetry; exact H2|]. eauto.
  Qed.
  Lemma resolved_user o c o' c' : resolved (resolve_user exec sha512) o c = (Ok o', c') ->
    (c' = set_remote (c_remote c') c /\ r_os (c_remote c') = r_os (c_remote c)) /\ user_settles (r_os (c_remote c)) o o'.
  Proof.
    destruct o as [u|]; cbn.
    - intros E. apply bind_spec in E as [(y & c1 & E1 & E)|(e & E & [=])]. injection E as <- <-.
      unfold resolve_user, via in E1. destruct (conn_resolve_user _ _ _ _) as [x v] eqn:Ec. injection E1 as -> <-.
      apply resolve_user_ok in Ec as (Hs & H). split; [split; [reflexivity|exact Hs]|exact H].
    - intros [= <- <-]. split; [split; [destruct c; reflexivity|reflexivity]|exact I].
  Qed.
  Lemma resolved_group o c o' c' : resolved (resolve_group exec sha512) o c = (Ok o', c') ->
    (c' = set_remote (c_remote c') c /\ r_os (c_remote c') = r_os (c_remote c)) /\ group_settles (r_os (c_remote c)) o o'.
  Proof.
    destruct o as [u|]; cbn.
    - intros E. apply bind_spec in E as [(y & c1 & E1 & E)|(e & E & [=])]. injection E as <- <-.
      unfold resolve_group, via in E1. destruct (conn_resolve_group _ _ _ _) as [x v] eqn:Ec. injection E1 as -> <-.
      apply resolve_group_ok in Ec as (Hs & H). split; [split; [reflexivity|exact Hs]|exact H].
    - intros [= <- <-]. split; [split; [destruct c; reflexivity|reflexivity]|exact I].
  Qed.
  Lemma check_mask_ok m c c' : check_mask m c = (Ok tt, c') -> c' = c /\ exists x z, m = Some x /\ py_int 8 x = Some z.
  Proof.
    unfold check_mask. destruct m as [x|]; [|discriminate]. destruct (py_int 8 x) eqn:E; [|discriminate]. intros [= <-]. eauto.
  Qed.

  (** what [resolve_defaults] does if it succeeds *)
  Lemma resolve_defaults_ok q c d c' : resolve_defaults exec sha512 q c = (Ok d, c') ->
    exists cur, current_defaults c = (Ok cur, c) /\
    let w := overlay cur q in let s := r_os (c_remote c) in
    user_settles s (s_as_user w) (s_as_user d) /\ group_settles s (s_as_group w) (s_as_group d) /\
    user_settles s (s_owner w) (s_owner d) /\ group_settles s (s_group w) (s_group d) /\
    s_file_mode d = s_file_mode w /\ s_dir_mode d = s_dir_mode w /\ s_umask d = s_umask w /\ s_cwd d = s_cwd w /\
    (exists x z, s_file_mode w = Some x /\ py_int 8 x = Some z) /\ (exists x z, s_dir_mode w = Some x /\ py_int 8 x = Some z) /\
    (exists x z, s_umask w = Some x /\ py_int 8 x = Some z) /\
    unaffected s (r_os (c_remote c')) /\ c' = set_remote (c_remote c') c.
  Proof.
    intros E. unfold resolve_defaults in E. apply bind_spec in E as [(c0 & c1 & E0 & E)|(e & [=] & _)]. injection E0 as <- <-.
    destruct (c_script c) as [i|] eqn:Ei; [|discriminate].
    apply bind_spec in E as [(cur & c1 & E1 & E)|(e & _ & [=])].
    assert (c1 = c) as ->.
    { unfold current_defaults in E1. rewrite Ei in E1. unfold current_of in E1. destruct (c_scripts c !! i); congruence. }
    exists cur. split; [assumption|]. cbv zeta in *. set (w := overlay cur q) in *.
    apply bind_spec in E as [(u & c2 & E2 & E)|(e & _ & [=])]. apply resolved_user in E2 as [[Q1 S1] Hu].
    apply bind_spec in E as [(g & c3 & E2 & E)|(e & _ & [=])]. apply resolved_group in E2 as [[Q2 S2] Hg].
    apply bind_spec in E as [(ow & c4 & E2 & E)|(e & _ & [=])]. apply resolved_user in E2 as [[Q3 S3] How].
    apply bind_spec in E as [(gr & c5 & E2 & E)|(e & _ & [=])]. apply resolved_group in E2 as [[Q4 S4] Hgr].
    assert (Q5 : c5 = set_remote (c_remote c5) c) by (rewrite Q4, Q3, Q2, Q1; reflexivity).
    assert (S5 : r_os (c_remote c5) = r_os (c_remote c)) by congruence.
    rewrite S1 in Hg. rewrite S2, S1 in How. rewrite S3, S2, S1 in Hgr. clear Q1 Q2 Q3 Q4 S1 S2 S3 S4 c2 c3 c4.
    apply bind_spec in E as [([] & c2 & E2 & E)|(e & _ & [=])]. apply check_mask_ok in E2 as [-> Hfm].
    apply bind_spec in E as [([] & c2 & E2 & E)|(e & _ & [=])]. apply check_mask_ok in E2 as [-> Hdm].
    apply bind_spec in E as [([] & c2 & E2 & E)|(e & _ & [=])]. apply check_mask_ok in E2 as [-> Hum].
    apply bind_spec in E as [([] & c2 & E2 & E)|(e & _ & [=])]. injection E as <- <-. cbn.
    assert (Hst : unaffected (r_os (c_remote c)) (r_os (c_remote c2)) /\ c2 = set_remote (c_remote c2) c).
    { destruct (s_cwd w) as [[|x d]|]; try (injection E2 as <-; split; [rewrite S5; unfold unaffected; destruct (r_os (c_remote c)); reflexivity|exact Q5]).
      apply bind_spec in E2 as [(st & c3 & E3 & E2)|(e & _ & [=])]. unfold stat, via in E3.
      destruct (conn_stat _ _ _ _ _ _) as [y v] eqn:Es. injection E3 as -> <-.
      destruct st as [st|]; [|discriminate]. destruct (str_eqb _ _); [|discriminate]. injection E2 as <-. cbn. split; [|rewrite Q5; reflexivity].
      unfold conn_stat in Es. destruct (request _ _ _ _) as [[r|e] v1] eqn:Er; [|destruct (is_ValueError e); discriminate].
      assert (v = v1) as -> by (destruct r; congruence).
      apply request_up in Er as (_ & Hh); [|exact I|exact I]. rewrite S5 in Hh. cbn [handle] in Hh.
      pose proof (handle_stat_unaffected sha512 (x :: d) false false (r_os (c_remote c))) as Hq. rewrite Hh in Hq. exact Hq. }
    destruct Hst as [Hst1 Hst2]. split_and!; auto.
  Qed.

  (** ** One block *)
  Lemma denotes_user_unaffected s s' u a : unaffected s s' -> denotes_user s' u a <-> denotes_user s u a.
  Proof. intros H. unfold denotes_user. rewrite H. destruct s; reflexivity. Qed.
  Lemma denotes_group_unaffected s s' u a : unaffected s s' -> denotes_group s' u a <-> denotes_group s u a.
  Proof. intros H. unfold denotes_group. rewrite H. destruct s; reflexivity. Qed.
  Lemma user_settles_unaffected s s' w g : unaffected s s' -> user_settles s' w g -> user_settles s w g.
  Proof. intros H. destruct w, g; cbn; auto. intros (a & Ha & ->). exists a. rewrite <- (denotes_user_unaffected _ _ _ _ H). auto. Qed.
  Lemma group_settles_unaffected s s' w g : unaffected s s' -> group_settles s' w g -> group_settles s w g.
  Proof. intros H. destruct w, g; cbn; auto. intros (a & Ha & ->). exists a. rewrite <- (denotes_group_unaffected _ _ _ _ H). auto. Qed.
  Lemma settles_unaffected s s' base reqs d : unaffected s s' -> settles s' base reqs d -> settles s base reqs d.
  Proof.
    intros H (H1 & H2 & H3 & H4 & H5). split_and!; [..|apply H5|apply H5|apply H5|apply H5];
      first [eapply user_settles_unaffected|eapply group_settles_unaffected]; eassumption.
  Qed.

  Lemma innermost_app {A} (l1 l2 : list (option A)) : innermost (l1 ++ l2) = over (innermost l1) (innermost l2).
  Proof.
    induction l1 as [|x l1 IH]; cbn; [destruct (innermost l2); reflexivity|]. rewrite IH.
    destruct (innermost l2); cbn; [reflexivity|]. destruct (innermost l1); reflexivity.
  Qed.
  Lemma innermost_one {A} (x : option A) : innermost [x] = x.
  Proof. reflexivity. Qed.
  Lemma wanted_snoc {A} (f : settings -> option A) base reqs q : wanted f base (reqs ++ [q]) = over (wanted f base reqs) (f q).
  Proof. unfold wanted. rewrite map_app, app_comm_cons, innermost_app. reflexivity. Qed.

  (** the values before they are resolved again *)
  Definition user_pre (s : os) (want got : option pystr) : Prop :=
    match want, got with
    | None, None => True
    | Some u, Some n => forall b, denotes_user s n b -> exists a, denotes_user s u a /\ pw_name b = pw_name a
    | _, _ => False
    end.
  Definition group_pre (s : os) (want got : option pystr) : Prop :=
    match want, got with
    | None, None => True
    | Some u, Some n => forall b, denotes_group s n b -> exists a, denotes_group s u a /\ gr_name b = gr_name a
    | _, _ => False
    end.
  Definition mode_pre (base want got : option pystr) : Prop :=
    match want with
    | None => got = base
    | Some m => exists n t, py_int 8 m = Some (Z.of_N n) /\ got = Some t /\ octal_text n t
    end.
  Lemma user_pre_refl s w : user_pre s w w.
  Proof. destruct w; cbn; eauto. Qed.
  Lemma group_pre_refl s w : group_pre s w w.
  Proof. destruct w; cbn; eauto. Qed.
  Lemma user_settles_pre s w g : user_settles s w g -> user_pre s w g.
  Proof. destruct w, g; cbn; auto. intros (a & Ha & ->) b Hb. exists a. split; [assumption|]. eapply name_denotes_user; eassumption. Qed.
  Lemma group_settles_pre s w g : group_settles s w g -> group_pre s w g.
  Proof. destruct w, g; cbn; auto. intros (a & Ha & ->) b Hb. exists a. split; [assumption|]. eapply name_denotes_group; eassumption. Qed.
  Lemma user_pre_settles s w g d : user_pre s w g -> user_settles s g d -> user_settles s w d.
  Proof. destruct w, g, d; cbn; try tauto. intros H (b & Hb & ->). destruct (H b Hb) as (a & Ha & Hn). eauto. Qed.
  Lemma group_pre_settles s w g d : group_pre s w g -> group_settles s g d -> group_settles s w d.
  Proof. destruct w, g, d; cbn; try tauto. intros H (b & Hb & ->). destruct (H b Hb) as (a & Ha & Hn). eauto. Qed.

  Lemma over_none {A} (a : option A) : over a None = a. Proof. reflexivity. Qed.
  Lemma over_over {A} (base cur q : option A) : over cur (over (over base cur) q) = over (over base cur) q.
  Proof. destruct base, cur, q; reflexivity. Qed.
  Lemma user_enclosing s (field : settings -> option pystr) base reqs d q :
    (user_settles s (wanted field base reqs) (field d)) \/ (reqs = [] /\ field d = None) ->
    user_pre s (over (wanted field base reqs) q) (over (over (field base) (field d)) q).
  Proof.
    intros [H|[-> H]].
    - destruct q as [q|]; [apply user_pre_refl|]. rewrite !over_none. apply user_settles_pre in H.
      destruct (field d) as [x|] eqn:Ed; cbn [over]; [exact H|].
      destruct (wanted field base reqs) as [y|] eqn:Ew; [destruct H|]. destruct (field base) as [b|] eqn:Eb; [|exact I].
      exfalso. revert Ew. unfold wanted. cbn. rewrite Eb. destruct (innermost _); discriminate.
    - rewrite H. rewrite over_none. apply user_pre_refl.
  Qed.
  Lemma group_enclosing s (field : settings -> option pystr) base reqs d q :
    (group_settles s (wanted field base reqs) (field d)) \/ (reqs = [] /\ field d = None) ->
    group_pre s (over (wanted field base reqs) q) (over (over (field base) (field d)) q).
  Proof.
    intros [H|[-> H]].
    - destruct q as [q|]; [apply group_pre_refl|]. rewrite !over_none. apply group_settles_pre in H.
      destruct (field d) as [x|] eqn:Ed; cbn [over]; [exact H|].
      destruct (wanted field base reqs) as [y|] eqn:Ew; [destruct H|]. destruct (field base) as [b|] eqn:Eb; [|exact I].
      exfalso. revert Ew. unfold wanted. cbn. rewrite Eb. destruct (innermost _); discriminate.
    - rewrite H. rewrite over_none. apply group_pre_refl.
  Qed.

  (** canonical modes *)
  Lemma oct_tail_text z t : py_int 8 (oct_tail z) = Some t -> exists n, z = Z.of_N n /\ octal_text n (oct_tail z).
  Proof.
    intros H. destruct z as [|p|p].
    - exists 0%N. split; [reflexivity|]. change (oct_tail 0) with (show_N 8 0).
      split_and!; [vm_compute; reflexivity|vm_compute; repeat constructor; discriminate|vm_compute; exact I|discriminate].
    - exists (N.pos p). split; [reflexivity|]. change (oct_tail (Z.pos p)) with (show_N 8 (N.pos p)).
      destruct (show_spec 8 (N.pos p) ltac:(lia)) as (H1 & H2 & H3 & H4).
      split; [apply py_int_show; auto|]. split; [|split; assumption].
      eapply Forall_impl; [exact H1|]. intros d. unfold is_digit. lia.
    - exfalso. change (oct_tail (Z.neg p)) with (111%N :: show_N 8 (N.pos p)) in H. rewrite py_int_letter in H. discriminate.
  Qed.
  Lemma mode_enclosing base want got q q' x z :
    (mode_settles base want got) \/ (want = None /\ got = None) ->
    canonicalize_mode q = Ok q' -> over (over base got) q' = Some x -> py_int 8 x = Some z ->
    mode_settles base (over want q) (over (over base got) q').
  Proof.
    intros H Hq Hx Hz. destruct q as [q|]; cbn [canonicalize_mode] in Hq.
    - destruct (py_int 8 q) as [v|] eqn:Ev; [|discriminate]. injection Hq as <-. cbn [over] in *. injection Hx as <-.
      apply oct_tail_text in Hz as (n & -> & Ht). cbn. exists n, (oct_tail (Z.of_N n)). auto.
    - injection Hq as <-. rewrite !over_none in *. destruct H as [H|[-> ->]]; [|cbn; split; [reflexivity|]; cbn in Hx; congruence].
      destruct want as [m|]; cbn in H |- *.
      + destruct H as (n & t & H1 & -> & H2). eauto.
      + destruct H as [-> H]. destruct base; [|congruence]. cbn. auto.
  Qed.

  Lemma wanted_none {A} (f : settings -> option A) base reqs : wanted f base reqs = None -> f base = None.
  Proof. unfold wanted. cbn. destruct (innermost _); [discriminate|auto]. Qed.
  (** nothing of the connection's settings is missing *)
  Lemma settles_overlay s base reqs d : settles s base reqs d -> overlay base d = d.
  Proof.
    intros (H1 & H2 & H3 & H4 & H5 & H6 & H7 & H8). unfold overlay. destruct d as [a1 a2 a3 a4 a5 a6 a7 a8]; cbn in *.
    assert (Hu : forall f x, user_settles s (wanted f base reqs) x -> over (f base) x = x).
    { intros f [x|] H; [reflexivity|]. cbn. destruct (wanted f base reqs) eqn:E; [destruct H|]. eapply wanted_none. exact E. }
    assert (Hg : forall f x, group_settles s (wanted f base reqs) x -> over (f base) x = x).
    { intros f [x|] H; [reflexivity|]. cbn. destruct (wanted f base reqs) eqn:E; [destruct H|]. eapply wanted_none. exact E. }
    assert (Hm : forall b w x, mode_settles b w x -> over b x = x).
    { intros b w x H. destruct w as [m|]; cbn in H; [destruct H as (? & ? & _ & -> & _); reflexivity|]. destruct H as [-> _]. destruct b; reflexivity. }
    f_equal; eauto. destruct a8; [reflexivity|]. cbn. symmetry in H8. eapply wanted_none. exact H8.
  Qed.

  (** ** A block that is entered *)
  Lemma enter_settles i q c new c0 d c1 reqs d0 :
    defaults i q c = (Ok new, c0) -> enter_defaults exec sha512 i new c0 = (Ok d, c1) ->
    c_script c = Some i -> active c = Some d0 -> enclosing (r_os (c_remote c)) (c_base c) reqs d0 ->
    exists res, active c1 = Some res /\ settles (r_os (c_remote c)) (c_base c) (reqs ++ [q]) res /\ d = res /\
      unaffected (r_os (c_remote c)) (r_os (c_remote c1)) /\ c_script c1 = Some i /\ c_base c1 = c_base c /\
      c_cwd c1 = c_cwd c /\ c_gone c1 = c_gone c /\ c_stack c1 = c_stack c.
  Proof.
    intros E0 E1 Hi Ha Henc. unfold defaults in E0.
    apply bind_spec in E0 as [(fm & ? & Hfm & E0)|(e & _ & [=])]. injection Hfm as Hfm <-.
    apply bind_spec in E0 as [(dm & ? & Hdm & E0)|(e & _ & [=])]. injection Hdm as Hdm <-.
    apply bind_spec in E0 as [(um & ? & Hum & E0)|(e & _ & [=])]. injection Hum as Hum <-.
    apply bind_spec in E0 as [(? & ? & Hg & E0)|(e & _ & [=])]. injection Hg as <- <-.
    apply bind_spec in E0 as [(cur & ? & Hc & E0)|(e & _ & [=])]. injection E0 as <- <-.
    assert (cur = d0 /\ x = c) as [-> ->].
    { unfold active in Ha. rewrite Hi in Ha. unfold current_of in Hc. cbn in Ha. destruct (c_scripts c !! i) as [w|]; [|discriminate].
      cbn in Ha. destruct (sw_defaults w); [discriminate|]. injection Ha as ->. injection Hc as -> ->. auto. }
    apply enter_spec in E1 as (res & c2 & E1 & -> & ->).
    apply resolve_defaults_ok in E1 as (cur & Hcur & H). cbn zeta in H.
    assert (cur = d0) as ->.
    { unfold current_defaults, current_of in Hcur. unfold active in Ha. rewrite Hi in Hcur, Ha. cbn in Ha.
      destruct (c_scripts c !! i) as [w|]; [|discriminate]. cbn in Ha. destruct (sw_defaults w); [discriminate|].
      injection Ha as ->. injection Hcur as ->. reflexivity. }
    destruct H as (H1 & H2 & H3 & H4 & H5 & H6 & H7 & H8 & (x1 & z1 & Hx1 & Hz1) & (x2 & z2 & Hx2 & Hz2) & (x3 & z3 & Hx3 & Hz3) & Hun & Hc2).
    cbn [overlay s_as_user s_as_group s_owner s_group s_file_mode s_dir_mode s_umask s_cwd] in *.
    rewrite over_over in *.
    assert (Hset : settles (r_os (c_remote c)) (c_base c) (reqs ++ [q]) res).
    { unfold settles. rewrite !wanted_snoc, !map_app. cbn [List.map]. rewrite !innermost_app, !innermost_one.
      split_and!.
      - eapply user_pre_settles; [|exact H1]. apply user_enclosing. destruct Henc as [He|[-> ->]]; [left; apply He|right; auto].
      - eapply group_pre_settles; [|exact H2]. apply group_enclosing. destruct Henc as [He|[-> ->]]; [left; apply He|right; auto].
      - eapply user_pre_settles; [|exact H3]. apply user_enclosing. destruct Henc as [He|[-> ->]]; [left; apply He|right; auto].
      - eapply group_pre_settles; [|exact H4]. apply group_enclosing. destruct Henc as [He|[-> ->]]; [left; apply He|right; auto].
      - rewrite H5. eapply mode_enclosing; [|exact Hfm|exact Hx1|exact Hz1]. destruct Henc as [He|[-> ->]]; [left; apply He|right; auto].
      - rewrite H6. eapply mode_enclosing; [|exact Hdm|exact Hx2|exact Hz2]. destruct Henc as [He|[-> ->]]; [left; apply He|right; auto].
      - rewrite H7. eapply mode_enclosing; [|exact Hum|exact Hx3|exact Hz3]. destruct Henc as [He|[-> ->]]; [left; apply He|right; auto].
      - rewrite H8. destruct Henc as [He|[-> ->]]; [|reflexivity]. destruct He as (_ & _ & _ & _ & _ & _ & _ & ->).
        destruct (s_cwd q); [reflexivity|]. cbn [over]. unfold wanted. cbn [innermost].
        destruct (innermost (List.map s_cwd reqs)), (s_cwd (c_base c)); reflexivity. }
    exists res. rewrite Hc2. cbn. split_and!; auto.
    - unfold active. cbn. rewrite Hi. cbn. rewrite list_lookup_alter. unfold active in Ha. rewrite Hi in Ha. cbn in Ha.
      destruct (c_scripts c !! i) as [w|]; [reflexivity|discriminate].
    - apply settles_overlay in Hset. exact Hset.
  Qed.

  (** ** Nested blocks *)
  Variable isdir : pystr -> bool.
  Lemma with_quiet_fail {A} i q (body : settings -> W A) c r c' : with_defaults exec sha512 i q body c = (r, c') ->
    (exists e, r = Err e /\ unaffected (r_os (c_remote c)) (r_os (c_remote c'))) \/
    exists new c0 d c1 r1 c2, defaults i q c = (Ok new, c0) /\ enter_defaults exec sha512 i new c0 = (Ok d, c1) /\
      body d c1 = (r1, c2) /\ exit_defaults i c2 = (Ok tt, c') /\ r = r1.
  Proof.
    intros E. unfold with_defaults in E. apply bind_spec in E as [(new & c0 & E0 & E)|(e & E & ->)].
    2: { left. exists e. split; [reflexivity|]. eapply quiet_defaults. eassumption. }
    apply bind_spec in E as [(d & c1 & E1 & E)|(e & E & ->)].
    - right. apply finally_spec in E as (r1 & c2 & E2 & [(u & E3 & ->)|(e & E3 & ->)]); [|discriminate].
      destruct u. exists new, c0, d, c1, r1, c2. auto.
    - left. exists e. split; [reflexivity|]. eapply unaffected_trans; [eapply quiet_defaults; eassumption|eapply quiet_enter; eassumption].
  Qed.
  Lemma nest_settles local {A} reqs (body : prog A) : forall c r c' done d0,
    step exec sha512 isdir local (nest reqs body) c = (r, c') ->
    active c = Some d0 -> enclosing (r_os (c_remote c)) (c_base c) done d0 ->
    (exists e, r = Err e /\ unaffected (r_os (c_remote c)) (r_os (c_remote c'))) \/
    exists c1 d c2, step exec sha512 isdir local body c1 = (r, c2) /\ active c1 = Some d /\
      (enclosing (r_os (c_remote c)) (c_base c) (done ++ reqs) d) /\ unaffected (r_os (c_remote c)) (r_os (c_remote c1)) /\
      c_script c1 = c_script c /\ c_base c1 = c_base c /\ c_cwd c1 = c_cwd c /\ c_remote c2 = c_remote c'.
  Proof.
    induction reqs as [|q reqs IH]; intros c r c' done d0 E Ha He.
    - right. exists c, d0, c'. rewrite app_nil_r. split_and!; auto. apply unaffected_refl.
    - cbn [nest step] in E. unfold script_defaults in E. destruct (c_script c) as [i|] eqn:Hi; [|unfold active in Ha; rewrite Hi in Ha; discriminate].
      apply with_quiet_fail in E as [H|(new & c0 & d & c1 & r1 & c2 & E0 & E1 & E2 & E3 & ->)]; [left; exact H|].
      destruct (enter_settles _ _ _ _ _ _ _ done d0 E0 E1 Hi Ha He) as (res & H1 & H2 & _ & H3 & H4 & H5 & H6 & _).
      apply (IH c1 r1 c2 (done ++ [q]) res) in E2.
      + injection E3 as <-. destruct E2 as [(e & -> & Hu)|(c3 & d3 & c4 & F1 & F2 & F3 & F4 & F5 & F6 & F7 & F8)].
        * left. exists e. split; [reflexivity|]. cbn. eapply unaffected_trans; eassumption.
        * right. exists c3, d3, c4. split_and!; auto; try congruence; [|eapply unaffected_trans; eassumption].
          rewrite <- app_assoc in F3. cbn in F3. rewrite H5 in F3. destruct F3 as [F3|F3]; [left|right; exact F3].
          eapply settles_unaffected; [exact H3|exact F3].
      + exact H1.
      + left. rewrite H5. eapply settles_unaffected; [apply unaffected_sym; exact H3|]. exact H2.
  Qed.

  (** ** Valid blocks are entered *)
  Lemma resolved_user_works s o c : c_remote c = Remote s Up -> os_ok s -> opt_ok (user_valid s) o ->
    exists o', resolved (resolve_user exec sha512) o c = (Ok o', c).
  Proof.
    intros Hr Hs Ho. destruct o as [u|]; cbn; [|eauto]. destruct Ho as [H1 H2].
    destruct (resolve_user_direct exec sha512 s u H1 (proj1 (os_ok_names s Hs)) H2) as (a & _ & E).
    exists (Some (pw_name a)). unfold resolve_user, via, mbind, W_bind. rewrite Hr, E. destruct c; cbn in *; subst; reflexivity.
  Qed.
  Lemma resolved_group_works s o c : c_remote c = Remote s Up -> os_ok s -> opt_ok (group_valid s) o ->
    exists o', resolved (resolve_group exec sha512) o c = (Ok o', c).
  Proof.
    intros Hr Hs Ho. destruct o as [u|]; cbn; [|eauto]. destruct Ho as [H1 H2].
    destruct (resolve_group_direct exec sha512 s u H1 (proj2 (os_ok_names s Hs)) H2) as (a & _ & E).
    exists (Some (gr_name a)). unfold resolve_group, via, mbind, W_bind. rewrite Hr, E. destruct c; cbn in *; subst; reflexivity.
  Qed.
  Lemma check_mask_works m c : (exists x, m = Some x /\ mode_valid x) -> check_mask m c = (Ok tt, c).
  Proof. intros (x & -> & n & E). unfold check_mask. rewrite E. reflexivity. Qed.
  Lemma bind_works {A B} (m : W A) (f : A -> W B) c a c1 : m c = (Ok a, c1) -> (m ≫= f) c = f a c1.
  Proof. intros E. unfold mbind, W_bind. rewrite E. reflexivity. Qed.
  Lemma innermost3 {A} (a b q : option A) : innermost [a; b; q] = over (over a b) q.
  Proof. destruct a, b, q; reflexivity. Qed.
  Lemma canonical_works base d q x : innermost [base; d; q] = Some x -> mode_valid x ->
    exists q', canonicalize_mode q = Ok q' /\ exists y, over d (over (over base d) q') = Some y /\ mode_valid y.
  Proof.
    intros E (n & Hn). rewrite innermost3 in E. destruct q as [q|]; cbn [over] in E.
    - injection E as ->. cbn [canonicalize_mode]. rewrite Hn. eexists. split; [reflexivity|]. exists (oct_tail (Z.of_N n)). split; [destruct base, d; reflexivity|].
      exists n. assert (oct_tail (Z.of_N n) = show_N 8 n) as -> by (destruct n; reflexivity). apply py_int_show. auto.
    - exists None. split; [reflexivity|]. rewrite over_over, over_none. exists x. split; [exact E|]. exists n. exact Hn.
  Qed.
  Lemma enter_works i q c d0 s : c_remote c = Remote s Up -> os_ok s -> hash_ok sha512 -> o_faults s = [] ->
    c_script c = Some i -> active c = Some d0 -> request_valid s (c_base c) d0 q ->
    exists new d c1, defaults i q c = (Ok new, c) /\ enter_defaults exec sha512 i new c = (Ok d, c1) /\ c_remote c1 = c_remote c.
  Proof.
    intros Hr Hs Hh Hf Hi Ha (V1 & V2 & V3 & V4 & (m1 & M1 & V5) & (m2 & M2 & V6) & (m3 & M3 & V7) & V8).
    destruct (canonical_works _ _ _ _ M1 V5) as (fm & Hfm & y1 & Y1 & W1).
    destruct (canonical_works _ _ _ _ M2 V6) as (dm & Hdm & y2 & Y2 & W2).
    destruct (canonical_works _ _ _ _ M3 V7) as (um & Hum & y3 & Y3 & W3).
    assert (Hc : current_of i c = (Ok d0, c)).
    { unfold active in Ha. rewrite Hi in Ha. cbn in Ha. unfold current_of. destruct (c_scripts c !! i) as [w|]; [|discriminate].
      cbn in Ha. destruct (sw_defaults w); [discriminate|]. injection Ha as ->. reflexivity. }
    set (new := overlay (overlay (c_base c) d0) (Settings (s_as_user q) (s_as_group q) (s_owner q) (s_group q) fm dm um (s_cwd q))).
    assert (E0 : defaults i q c = (Ok new, c)).
    { unfold defaults. rewrite Hfm, Hdm, Hum. unfold liftW, mbind, W_bind, getW. rewrite Hc. reflexivity. }
    rewrite innermost3 in V1, V2, V3, V4, V8.
    assert (E1 : exists res, resolve_defaults exec sha512 new c = (Ok res, c)).
    { unfold resolve_defaults. rewrite (bind_works getW _ c c c eq_refl). rewrite Hi.
      rewrite (bind_works current_defaults _ c d0 c) by (unfold current_defaults; rewrite Hi; exact Hc). cbv zeta.
      destruct (resolved_user_works s (s_as_user (overlay d0 new)) c Hr Hs) as (u & Hu); [cbn; rewrite over_over; exact V1|].
      destruct (resolved_group_works s (s_as_group (overlay d0 new)) c Hr Hs) as (g & Hg); [cbn; rewrite over_over; exact V2|].
      destruct (resolved_user_works s (s_owner (overlay d0 new)) c Hr Hs) as (ow & How); [cbn; rewrite over_over; exact V3|].
      destruct (resolved_group_works s (s_group (overlay d0 new)) c Hr Hs) as (gr & Hgr); [cbn; rewrite over_over; exact V4|].
      rewrite (bind_works _ _ c _ c Hu), (bind_works _ _ c _ c Hg), (bind_works _ _ c _ c How), (bind_works _ _ c _ c Hgr).
      rewrite (bind_works _ _ c tt c) by (apply check_mask_works; cbn; eauto).
      rewrite (bind_works _ _ c tt c) by (apply check_mask_works; cbn; eauto).
      rewrite (bind_works _ _ c tt c) by (apply check_mask_works; cbn; eauto).
      eexists. erewrite bind_works; [reflexivity|]. instantiate (1 := tt).
      assert (Hcwd : s_cwd (overlay d0 new) = over (over (s_cwd (c_base c)) (s_cwd d0)) (s_cwd q)) by (cbn; rewrite over_over; reflexivity).
      rewrite Hcwd. destruct (over (over (s_cwd (c_base c)) (s_cwd d0)) (s_cwd q)) as [[|x l]|]; try reflexivity.
      destruct V8 as [V8|(V8 & pl & n & V9 & V10)]; [discriminate|].
      assert (Est : stat exec sha512 (x :: l) false false c = (Ok (Some (statres_of s n None)), c)).
      { unfold stat, via. rewrite Hr, (stat_direct exec sha512 s (x :: l) false false Hs Hh V8 Hf).
        unfold stat_result. rewrite V9. destruct c; cbn in *; subst; reflexivity. }
      rewrite (bind_works _ _ c _ c Est). cbn [st_type statres_of]. unfold node_type. rewrite V10.
      unfold str_eqb. rewrite bool_decide_eq_true_2 by reflexivity. reflexivity. }
    destruct E1 as [res E1]. eexists new, _, _. split; [exact E0|]. unfold enter_defaults. rewrite (bind_works _ _ c res c E1). split; reflexivity.
  Qed.
End settle.
