(** Lemmas about commands, names and stat. *)
From Coq Require Import Lia ZifyBool ZifyN ZifyNat.
From stdpp Require Import gmap.
From Verif Require Import Base Utf8 Utf8_proofs Codec Spec_Codec Codec_proofs Codec_proofs2 Paths Sys Spec_Sys Sys_proofs Dispatcher Client
  Spec_Session Session_proofs Spec_Remote Remote_safe Remote_proofs Remote_upload.

Lemma unaffected_fs s s' : unaffected s s' -> o_fs s' = o_fs s.
Proof. intros H. unfold unaffected in H. rewrite H. reflexivity. Qed.
Lemma unaffected_cwd s s' : unaffected s s' -> o_cwd s' = o_cwd s.
Proof. intros H. unfold unaffected in H. rewrite H. reflexivity. Qed.
Lemma unaffected_uid s s' : unaffected s s' -> o_uid s' = o_uid s.
Proof. intros H. unfold unaffected in H. rewrite H. reflexivity. Qed.
Lemma unaffected_gid s s' : unaffected s s' -> o_gid s' = o_gid s.
Proof. intros H. unfold unaffected in H. rewrite H. reflexivity. Qed.
Lemma unaffected_groups s s' : unaffected s s' -> o_groups s' = o_groups s.
Proof. intros H. unfold unaffected in H. rewrite H. reflexivity. Qed.

Lemma chdir_spec cwd p s r s' : sys_chdir cwd p s = (r, s') -> unaffected s s' /\
  match r with Ok pl => exists n, names (o_fs s) cwd p true pl n /\ n_kind n = KDir | Err _ => True end.
Proof.
  intros H. apply syscall_inv in H as (s0 & Hs0 & [(n & -> & ->)|H]); [auto|]. injection H as <- <-.
  split; [assumption|]. rewrite (unaffected_fs _ _ Hs0).
  destruct (resolve_node (o_fs s) cwd p true) as [[pl n]|e] eqn:E; [|exact I].
  destruct (n_kind n) eqn:K; try exact I. exists n. split; [|assumption]. apply resolve_node_names. assumption.
Qed.
Lemma set_id_spec b s r s' : set_id b s = (r, s') -> unaffected s s'.
Proof. intros H. apply syscall_inv in H as (s0 & Hs0 & [(n & -> & ->)|H]); [auto|]. injection H as <- <-. assumption. Qed.

(** the identity a child gets *)
Definition child_of (s : os) (argv : list pystr) (stdin : option bytes) (umask : Z) (uid gid : option N) (cwd : option pystr) (p : proc) : Prop :=
  p_argv p = argv /\ p_stdin p = stdin /\ p_uid p = default (o_uid s) uid /\ p_gid p = default (o_gid s) gid /\
  p_groups p = o_groups s /\ p_umask p = Z.to_N (umask mod 512) /\
  match cwd with
  | None => p_cwd p = o_cwd s
  | Some d => exists pl n, names (o_fs s) (o_cwd s) d true pl n /\ n_kind n = KDir /\
                exists n2, names (o_fs s) pl d true (p_cwd p) n2 /\ n_kind n2 = KDir
  end.

Section run.
  Variable exec : proc -> M xres.
  Variable sha512 : bytes -> bytes.

  Lemma preexec_spec argv stdin umask uid gid cwd cwd1 s r s' : preexec argv stdin umask uid gid cwd cwd1 s = (r, s') ->
    unaffected s s' /\
    match r with
    | Ok p => p_argv p = argv /\ p_stdin p = stdin /\ p_uid p = default (o_uid s) uid /\ p_gid p = default (o_gid s) gid /\
              p_groups p = o_groups s /\ p_umask p = Z.to_N (umask mod 512) /\
              match cwd with None => p_cwd p = cwd1 | Some d => exists n, names (o_fs s) cwd1 d true (p_cwd p) n /\ n_kind n = KDir end
    | Err _ => True
    end.
  Proof.
    unfold preexec. intros H. apply bind_inv in H as [(sx & s0 & [= <- <-] & H)|(? & [=] & _)].
    apply bind_inv in H as [([] & s1 & H1 & H)|(e & H1 & ->)].
    2:{ destruct (_ || _)%bool; [injection H1 as _ <-; split; [apply unaffected_refl|exact I]|discriminate]. }
    assert (Hs1 : unaffected s s1). { destruct (_ || _)%bool; [discriminate|]. injection H1 as <-. apply unaffected_refl. }
    apply bind_inv in H as [([] & s2 & H2 & H)|(e & H2 & ->)].
    2:{ split; [|exact I]. destruct gid; [|discriminate]. eapply unaffected_trans; [eassumption|]. eapply set_id_spec. eassumption. }
    assert (Hs2 : unaffected s s2). { destruct gid; [|injection H2 as <-; assumption]. eapply unaffected_trans; [eassumption|]. eapply set_id_spec. eassumption. }
    apply bind_inv in H as [([] & s3 & H3 & H)|(e & H3 & ->)].
    2:{ split; [|exact I]. destruct uid; [|discriminate]. eapply unaffected_trans; [eassumption|]. eapply set_id_spec. eassumption. }
    assert (Hs3 : unaffected s s3). { destruct uid; [|injection H3 as <-; assumption]. eapply unaffected_trans; [eassumption|]. eapply set_id_spec. eassumption. }
    apply bind_inv in H as [(pl & s4 & H4 & H)|(e & H4 & ->)].
    2:{ split; [|exact I]. destruct cwd; [|discriminate]. apply chdir_spec in H4 as [H4 _]. eapply unaffected_trans; eassumption. }
    assert (Hs4 : unaffected s s4 /\ match cwd with None => pl = cwd1 | Some d => exists n, names (o_fs s) cwd1 d true pl n /\ n_kind n = KDir end).
    { destruct cwd; [|injection H4 as <- <-; auto]. apply chdir_spec in H4 as [H4 H5]. split; [eapply unaffected_trans; eassumption|].
      rewrite <- (unaffected_fs _ _ Hs3). exact H5. }
    destruct Hs4 as [Hs4 Hpl]. injection H as <- <-. split; [assumption|]. cbn. split_and!; auto.
  Qed.

  Lemma spawn_spec argv stdin umask uid gid cwd s r s' : spawn exec argv stdin umask uid gid cwd s = (r, s') ->
    (unaffected s s' /\ exists e, r = Err e) \/
    exists p s1 x, unaffected s s1 /\ child_of s argv stdin umask uid gid cwd p /\ exec p s1 = (x, s') /\
      r = match x with Ok (XFail e) => Err e | x => x end.
  Proof.
    unfold spawn. intros H. apply bind_inv in H as [(sx & s0 & [= <- <-] & H)|(? & [=] & _)].
    destruct argv as [|a argv0]; [injection H as <- <-; left; split; [apply unaffected_refl|eauto]|].
    set (argv := a :: argv0) in *.
    destruct (existsb _ _); [injection H as <- <-; left; split; [apply unaffected_refl|eauto]|].
    apply bind_inv in H as [(cwd1 & s1 & H1 & H)|(e & H1 & ->)].
    2:{ left. split; [|eauto]. destruct cwd; [|discriminate]. apply chdir_spec in H1 as [H1 _]. assumption. }
    assert (Hs1 : unaffected s s1 /\ match cwd with None => cwd1 = o_cwd s | Some d => exists n, names (o_fs s) (o_cwd s) d true cwd1 n /\ n_kind n = KDir end).
    { destruct cwd; [apply chdir_spec in H1; exact H1|]. injection H1 as <- <-. split; [apply unaffected_refl|reflexivity]. }
    destruct Hs1 as [Hs1 Hcwd1].
    apply bind_inv in H as [(p & s2 & H2 & H)|(e & H2 & ->)].
    2:{ left. split; [|eauto]. unfold in_child in H2. destruct (preexec _ _ _ _ _ _ _ s1) as [[p|e'] s3] eqn:E; [discriminate|].
        injection H2 as _ <-. apply preexec_spec in E as [E _]. eapply unaffected_trans; eassumption. }
    unfold in_child in H2. destruct (preexec _ _ _ _ _ _ _ s1) as [[p'|e'] s3] eqn:E; [|discriminate].
    injection H2 as -> ->. apply preexec_spec in E as (Hs2 & E1 & E2 & E3 & E4 & E5 & E6 & E7).
    right. exists p, s2. 
    destruct (exec p s2) as [x s4] eqn:Ex. exists x. split; [eapply unaffected_trans; eassumption|]. split.
    { unfold child_of. rewrite <- (unaffected_uid _ _ Hs1), <- (unaffected_gid _ _ Hs1), <- (unaffected_groups _ _ Hs1). split_and!; auto.
      destruct cwd as [d|]; [|congruence]. destruct Hcwd1 as (n & Hn & Hk), E7 as (n2 & Hn2 & Hk2).
      exists cwd1, n. split_and!; auto. exists n2. split; [|assumption]. rewrite <- (unaffected_fs _ _ Hs1). assumption. }
    apply bind_inv in H as [(x0 & s5 & H5 & H)|(e & H5 & ->)]; rewrite Ex in H5; injection H5 as -> ->; [|auto].
    destruct x0; injection H as <- <-; auto.
  Qed.

  Lemma run_spec c i cap u g m w s r s' : handle_run exec c i cap u g m w s = (r, s') ->
    (unaffected s s' /\ ((exists e, r = Err e) \/ (exists msg, r = Ok (Reply [] (PProcessError msg))) \/ exists f msg, r = Ok (Reply [] (PInvalidField f msg)))) \/
    exists p s1 x, unaffected s s1 /\ exec p s1 = (x, s') /\
      p_argv p = c /\ p_stdin p = i /\ run_ids s u g (p_uid p) (p_gid p) /\ p_groups p = o_groups s /\ run_umask m (p_umask p) /\
      match w with
      | None => p_cwd p = o_cwd s
      | Some d => exists pl n, names (o_fs s) (o_cwd s) d true pl n /\ n_kind n = KDir /\
                    exists n2, names (o_fs s) pl d true (p_cwd p) n2 /\ n_kind n2 = KDir
      end /\
      match x with
      | Ok (XExit rc out err) => r = Ok (if cap then Reply [] (PProcessCompleted (Some out) (Some err) rc) else Reply out (PProcessCompleted None None rc))
      | Ok XBlock => r = Ok NeverEnds
      | Ok (XFail e) | Err e => match e with SubprocessError m => r = Ok (Reply [] (PProcessError m)) | _ => r = Err e end
      end.
  Proof.
    intros H. unfold handle_run in H.
    assert (Hv : forall A (fl : string) o0 (h : os -> pystr -> result A) k, validated_opt fl o0 h k s = (r, s') ->
      (s' = s /\ ((exists e, r = Err e) \/ exists f msg, r = Ok (Reply [] (PInvalidField f msg)))) \/
      exists oa, (match o0, oa with None, None => True | Some v, Some a => h s v = Ok a | _, _ => False end) /\ k oa s = (r, s')).
    { intros A fl o0 h k Hk. destruct o0 as [v|]; cbn [validated_opt] in Hk; [|right; exists None; auto]. unfold validated in Hk.
      destruct (h s v) as [a|e] eqn:E; [right; exists (Some a); auto|]. left.
      destruct e; cbn [is_ValueError] in Hk; injection Hk as <- <-; eauto 8. }
    apply Hv in H as [[-> H]|(oz & Hz & H)]; [left; split; [apply unaffected_refl|tauto]|].
    apply Hv in H as [[-> H]|(ug & Hug & H)]; [left; split; [apply unaffected_refl|tauto]|].
    apply Hv in H as [[-> H]|(gg & Hgg & H)]; [left; split; [apply unaffected_refl|tauto]|].
    apply bind_inv in H as [(bad & s0 & H0 & H)|(e & H0 & ->)].
    2:{ exfalso. destruct w as [d|]; [|discriminate]. apply bind_inv in H0 as [(b & s1 & H1 & [=])|(e' & H1 & _)].
        destruct (isdir_spec s d) as (b' & s2 & E & _). rewrite E in H1. discriminate. }
    assert (Hs0 : unaffected s s0).
    { destruct w as [d|]; [|injection H0 as _ <-; apply unaffected_refl].
      destruct (isdir_spec s d) as (b' & s2 & E & Hs2 & _). rewrite (bind_ok _ _ _ _ _ E) in H0. injection H0 as _ <-. assumption. }
    destruct bad; [injection H as <- <-; left; split; [assumption|eauto 8]|].
    destruct (spawn _ _ _ _ _ _ _ s0) as [y s2] eqn:E.
    apply spawn_spec in E as [[Hs2 [e ->]]|(p & s1 & x & Hs1 & (C1 & C2 & C3 & C4 & C5 & C6 & C7) & Hx & Hy)].
    { left. destruct e; injection H as <- <-; (split; [eapply unaffected_trans; eassumption|eauto 8]). }
    right. exists p, s1, x. split; [eapply unaffected_trans; eassumption|].
    assert (s' = s2) as ->.
    { destruct y as [[rc out err|e|]|e]; [destruct cap| |  |destruct e]; injection H as _ <-; reflexivity. }
    split; [assumption|]. split_and!; auto.
    - rewrite C3, C4, (unaffected_uid _ _ Hs0), (unaffected_gid _ _ Hs0). unfold run_ids.
      destruct u as [u|], ug as [[u' g']|]; try contradiction; destruct g as [g|], gg as [g2|]; try contradiction; cbn in *;
        try (apply resolve_user_id_in in Hug as (a & Ha & -> & ->)); try (apply resolve_group_id_in in Hgg as (b & Hb & ->)); eauto 8.
    - rewrite C5. apply unaffected_groups. assumption.
    - rewrite C6. unfold run_umask. destruct m, oz; try contradiction; cbn in *; [|reflexivity].
      unfold resolve_oct in Hz. destruct (py_int 8 _); [injection Hz as <-|discriminate]. eauto.
    - rewrite (unaffected_fs _ _ Hs0), (unaffected_cwd _ _ Hs0) in C7. exact C7.
    - subst y. destruct x as [[rc out err|e|]|e].
      + destruct cap; injection H as <-; reflexivity.
      + destruct e; injection H as <-; reflexivity.
      + injection H as <-; reflexivity.
      + destruct e; injection H as <-; reflexivity.
  Qed.

  (** what the caller sees of a process that was started *)
  Definition run_result (check : bool) (cmd : list pystr) (x : result xres) (r : result completed) : Prop :=
    match x with
    | Ok (XExit rc out err) =>
        in_i32 rc -> small out -> small err ->
        if check && negb (rc =? 0)%Z then r = Err (CalledProcessError rc (Some out) (Some err) cmd)
        else r = Ok (Completed (Some out) (Some err) rc)
    | Ok XBlock => r = Err Blocked
    | Ok (XFail e) | Err e => exists e', r = Err e'
    end.

  Lemma C13_lemma s c i chk u g m w r v' : encodable (PProcessRun c i true u g m w) ->
    conn_run exec sha512 c i true chk u g m w (Remote s Up) = (r, v') ->
    (unaffected s (r_os v') /\ exists e, r = Err e) \/
    exists p s1 x, unaffected s s1 /\ exec p s1 = (x, r_os v') /\
      p_argv p = c /\ p_stdin p = i /\ run_ids s u g (p_uid p) (p_gid p) /\ p_groups p = o_groups s /\ run_umask m (p_umask p) /\
      match w with
      | None => p_cwd p = o_cwd s
      | Some d => exists pl n, names (o_fs s) (o_cwd s) d true pl n /\ n_kind n = KDir /\
                    exists n2, names (o_fs s) pl d true (p_cwd p) n2 /\ n_kind n2 = KDir
      end /\ run_result chk c x r.
  Proof.
    intros Henc E. unfold conn_run in E. cbv [mbind C_bind] in E.
    set (q := PProcessRun c i true u g m w) in *.
    destruct (request exec sha512 q (Remote s Up)) as [y v1] eqn:Er.
    pose proof (request_state exec sha512 _ _ _ _ Henc Er) as Hs.
    assert (v' = v1) as ->.
    { destruct y as [[]|]; try (injection E as _ <-; reflexivity). match type of E with context [if ?b then _ else _] => destruct b end; injection E as _ <-; reflexivity. }
    destruct (handle exec sha512 q s) as [rr s2] eqn:Hh. cbn [snd] in Hs. subst s2.
    assert (Hgood : good_request q) by (split_and!; [exact I|reflexivity|assumption]).
    assert (Hrep : forall e, y = Err e -> exists e', r = Err e') by (intros e ->; injection E as <-; eauto).
    assert (Hbad : (forall o e rc, rr <> Ok (Reply [] (PProcessCompleted o e rc))) -> exists e, r = Err e).
    { intros Hno. destruct y as [p|e]; [|eauto]. 
      destruct (request_ok exec sha512 _ _ _ _ Hgood Er) as [Hh2 _]. rewrite Hh in Hh2. injection Hh2 as ->.
      destruct p; try (injection E as <-; eauto; fail). edestruct Hno; reflexivity. }
    destruct (run_spec c i true u g m w s rr (r_os v1) Hh) as [[Hu Hr]|(p & s1 & x & Hs1 & Hx & A1 & A2 & A3 & A4 & A5 & A6 & A7)].
    - left. split; [assumption|]. apply Hbad. intros o e rc ->. destruct Hr as [[? [=]]|[[? [=]]|(? & ? & [=])]].
    - right. exists p, s1, x. split_and!; auto. destruct x as [[rc out err|e|]|e]; cbn [run_result].
      + intros H1 H2 H3. subst rr.
        assert (Hok : packet_ok (PProcessCompleted (Some out) (Some err) rc)) by (split_and!; assumption).
        rewrite (request_reply exec sha512 q s _ _ Henc Hh Hok) in Er. injection Er as <- _. cbn [deliver] in E.
        destruct (chk && negb (rc =? 0)%Z); injection E as <-; reflexivity.
      + apply Hbad. intros ? ? ? ->. destruct e; discriminate.
      + subst rr. unfold request, request_held in Er. cbn [r_link r_os] in Er. destruct Henc as [b Hb]. rewrite Hb, Hh in Er. injection Er as <- _.
        injection E as <-. reflexivity.
      + apply Hbad. intros ? ? ? ->. destruct e; discriminate.
  Qed.

  Lemma abs_twice fs cwd pl d n pl2 n2 : isabs d = true -> names fs cwd d true pl n -> names fs pl d true pl2 n2 -> pl2 = pl /\ n2 = n.
  Proof.
    intros Ha (_ & _ & H1 & H2) (_ & _ & H3 & H4). rewrite Ha in H1, H3.
    pose proof (leads_det _ _ _ _ _ _ H1 H3). subst. split; congruence.
  Qed.

  (** ** Names *)
  Lemma lookup_user_ok s u oa : lookup_user s u = Ok oa ->
    match oa with Some a => denotes_user s u a | None => forall a, ~ denotes_user s u a end.
  Proof.
    unfold lookup_user. destruct (getpwnam s u) as [a|e1] eqn:E1.
    - intros [= <-]. apply getpwnam_ok in E1 as [H1 H2]. split; auto.
    - apply getpwnam_err in E1 as [(_ & m' & ->)|(_ & -> & Hno)]; [discriminate|].
      destruct (py_int 10 u) as [z|] eqn:Ez.
      + destruct (getpwuid s z) as [a|e2] eqn:E2; intros [= <-].
        * apply getpwuid_ok in E2 as [H1 ->]. split; auto.
        * apply getpwuid_err in E2 as [-> Hno2]. intros a [Ha [Hn|[_ Hn]]]; [exact (Hno a Ha Hn)|].
          rewrite Ez in Hn. injection Hn as ->. exact (Hno2 a Ha eq_refl).
      + intros [= <-]. intros a [Ha [Hn|[_ Hn]]]; [exact (Hno a Ha Hn)|congruence].
  Qed.
  Lemma lookup_user_nul s u : nul ∉ u -> exists oa, lookup_user s u = Ok oa.
  Proof.
    intros Hn. unfold lookup_user. destruct (getpwnam s u) as [a|e1] eqn:E1; [eauto|].
    apply getpwnam_err in E1 as [(? & _)|(_ & -> & Hno)]; [contradiction|].
    destruct (py_int 10 u) as [z|]; [|eauto]. destruct (getpwuid s z); eauto.
  Qed.
  Lemma lookup_group_ok s u oa : lookup_group s u = Ok oa ->
    match oa with Some a => denotes_group s u a | None => forall a, ~ denotes_group s u a end.
  Proof.
    unfold lookup_group. destruct (getgrnam s u) as [a|e1] eqn:E1.
    - intros [= <-]. apply getgrnam_ok in E1 as [H1 H2]. split; auto.
    - apply getgrnam_err in E1 as [(_ & m' & ->)|(_ & -> & Hno)]; [discriminate|].
      destruct (py_int 10 u) as [z|] eqn:Ez.
      + destruct (getgrgid s z) as [a|e2] eqn:E2; intros [= <-].
        * apply getgrgid_ok in E2 as [H1 ->]. split; auto.
        * apply getgrgid_err in E2 as [-> Hno2]. intros a [Ha [Hn|[_ Hn]]]; [exact (Hno a Ha Hn)|].
          rewrite Ez in Hn. injection Hn as ->. exact (Hno2 a Ha eq_refl).
      + intros [= <-]. intros a [Ha [Hn|[_ Hn]]]; [exact (Hno a Ha Hn)|congruence].
  Qed.
  Lemma lookup_group_nul s u : nul ∉ u -> exists oa, lookup_group s u = Ok oa.
  Proof.
    intros Hn. unfold lookup_group. destruct (getgrnam s u) as [a|e1] eqn:E1; [eauto|].
    apply getgrnam_err in E1 as [(? & _)|(_ & -> & Hno)]; [contradiction|].
    destruct (py_int 10 u) as [z|]; [|eauto]. destruct (getgrgid s z); eauto.
  Qed.

  (** a resolution either names an entry or fails because there is none *)
  Lemma resolve_user_lemma s u : c_string u -> Forall (fun a => str_ok (pw_name a)) (o_passwd s) ->
    (exists a, denotes_user s u a /\ conn_resolve_user exec sha512 (Some u) (Remote s Up) = (Ok (pw_name a), Remote s Up)) \/
    ((forall a, ~ denotes_user s u a) /\ exists msg, conn_resolve_user exec sha512 (Some u) (Remote s Up) = (Err (ValueError msg), Remote s Up)).
  Proof.
    intros [Hu Hn] Hp. destruct (lookup_user_nul s u Hn) as [oa E]. pose proof (lookup_user_ok s u oa E) as Hd.
    assert (Henc : encodable (PResolveUser (Some u))) by (apply packet_ok_write; cbn; apply short_ok; assumption).
    destruct oa as [a|].
    - left. exists a. split; [assumption|]. unfold conn_resolve_user. cbv [mbind C_bind].
      assert (Hh : handle exec sha512 (PResolveUser (Some u)) s = (Ok (Reply [] (PResolveResult (pw_name a))), s)).
      { cbn [handle]. unfold handle_resolve_user. cbv [mbind M_bind bindM getM lift]. rewrite E. reflexivity. }
      assert (Hok : packet_ok (PResolveResult (pw_name a))).
      { destruct Hd as [Ha _]. rewrite Forall_forall in Hp. exact (Hp a Ha). }
      rewrite (request_reply exec sha512 _ _ _ _ Henc Hh Hok). reflexivity.
    - right. split; [assumption|]. unfold conn_resolve_user. cbv [mbind C_bind].
      assert (Hh : handle exec sha512 (PResolveUser (Some u)) s = (Ok (Reply [] (PInvalidField (lit "user") (lit "The user does not exist"))), s)).
      { cbn [handle]. unfold handle_resolve_user. cbv [mbind M_bind bindM getM lift]. rewrite E. reflexivity. }
      destruct (request_invalid exec sha512 (PResolveUser (Some u)) s "user" _ s Henc Hh) as [msg' Em].
      + apply packet_ok_invalid; [cbn; lia|apply lit_ok'; reflexivity].
      + reflexivity.
      + exists msg'. rewrite Em. reflexivity.
  Qed.
  Lemma resolve_group_lemma s u : c_string u -> Forall (fun a => str_ok (gr_name a)) (o_group s) ->
    (exists a, denotes_group s u a /\ conn_resolve_group exec sha512 (Some u) (Remote s Up) = (Ok (gr_name a), Remote s Up)) \/
    ((forall a, ~ denotes_group s u a) /\ exists msg, conn_resolve_group exec sha512 (Some u) (Remote s Up) = (Err (ValueError msg), Remote s Up)).
  Proof.
    intros [Hu Hn] Hp. destruct (lookup_group_nul s u Hn) as [oa E]. pose proof (lookup_group_ok s u oa E) as Hd.
    assert (Henc : encodable (PResolveGroup (Some u))) by (apply packet_ok_write; cbn; apply short_ok; assumption).
    destruct oa as [a|].
    - left. exists a. split; [assumption|]. unfold conn_resolve_group. cbv [mbind C_bind].
      assert (Hh : handle exec sha512 (PResolveGroup (Some u)) s = (Ok (Reply [] (PResolveResult (gr_name a))), s)).
      { cbn [handle]. unfold handle_resolve_group. cbv [mbind M_bind bindM getM lift]. rewrite E. reflexivity. }
      assert (Hok : packet_ok (PResolveResult (gr_name a))).
      { destruct Hd as [Ha _]. rewrite Forall_forall in Hp. exact (Hp a Ha). }
      rewrite (request_reply exec sha512 _ _ _ _ Henc Hh Hok). reflexivity.
    - right. split; [assumption|]. unfold conn_resolve_group. cbv [mbind C_bind].
      assert (Hh : handle exec sha512 (PResolveGroup (Some u)) s = (Ok (Reply [] (PInvalidField (lit "group") (lit "The group does not exist"))), s)).
      { cbn [handle]. unfold handle_resolve_group. cbv [mbind M_bind bindM getM lift]. rewrite E. reflexivity. }
      destruct (request_invalid exec sha512 (PResolveGroup (Some u)) s "group" _ s Henc Hh) as [msg' Em].
      + apply packet_ok_invalid; [cbn; lia|apply lit_ok'; reflexivity].
      + reflexivity.
      + exists msg'. rewrite Em. reflexivity.
  Qed.
  (** the name of an entry denotes it again *)
  Lemma name_denotes_user s u a b : denotes_user s u a -> denotes_user s (pw_name a) b -> pw_name b = pw_name a.
  Proof. intros [Ha _] [Hb [H|[H _]]]; [exact H|]. destruct (H a Ha eq_refl). Qed.
  Lemma name_denotes_group s u a b : denotes_group s u a -> denotes_group s (gr_name a) b -> gr_name b = gr_name a.
  Proof. intros [Ha _] [Hb [H|[H _]]]; [exact H|]. destruct (H a Ha eq_refl). Qed.
  Lemma NoDup_map_inj {A B} (f : A -> B) l a b : NoDup (List.map f l) -> a ∈ l -> b ∈ l -> f a = f b -> a = b.
  Proof.
    induction l as [|x l IH]; [intros _ H; inversion H|]. cbn. intros [H1 H2]%NoDup_cons Ha Hb E.
    apply elem_of_cons in Ha, Hb.
    assert (Hin : forall y, y ∈ l -> f y ∈ List.map f l).
    { intros y Hy. apply elem_of_list_In, in_map, elem_of_list_In. assumption. }
    destruct Ha as [-> |Ha], Hb as [-> |Hb]; auto.
    - destruct H1. rewrite E. auto.
    - destruct H1. rewrite <- E. auto.
  Qed.

  (** ** stat *)
  Lemma stat_names s s1 p follow n s2 : sys_stat p follow s = (Ok n, s2) -> s1 = s2 -> unaffected s s2 /\ exists pl, names (o_fs s) (o_cwd s) p follow pl n.
  Proof.
    intros H _. apply syscall_inv in H as (s0 & Hs0 & [(k & [=] & _)|H]). injection H as H1 <-.
    split; [assumption|]. rewrite (unaffected_fs _ _ Hs0), (unaffected_cwd _ _ Hs0) in H1.
    destruct (resolve_node (o_fs s) (o_cwd s) p follow) as [[pl n']|e] eqn:E; cbn in H1; [|discriminate]. injection H1 as <-.
    exists pl. apply resolve_node_names. assumption.
  Qed.

  Lemma leads_follow fs cur l pl n : leads fs false cur l pl -> fs !! pl = Some n -> (forall t, n_kind n <> KLink t) -> leads fs true cur l pl.
  Proof.
    intros H Hn Hk. induction H as [cur|cur r pl _ IH|cur r pl _ IH|cur c r pl Hc K _ IH|cur c b Hc K|cur c t Hc K|cur c t Hc K F|cur c r t pl Hc K Ht Hr _ IH].
    - constructor.
    - constructor; auto.
    - constructor; auto.
    - eapply leads_dir; eauto.
    - eapply leads_file; eauto.
    - eapply leads_other; eauto.
    - exfalso. apply kind_lookup in K as (n' & H1 & H2). rewrite Hn in H1. injection H1 as <-. exact (Hk t H2).
    - eapply leads_link; eauto.
  Qed.
  Lemma names_follow fs cwd p follow pl n : names fs cwd p follow pl n -> (forall t, n_kind n <> KLink t) -> names fs cwd p true pl n.
  Proof.
    intros (H1 & H2 & H3 & H4) Hk. destruct follow; [split_and!; assumption|]. split_and!; auto. eapply leads_follow; eassumption.
  Qed.

  (** what stat tells about a file *)
  Definition tells (s : os) (n : node) (st : statres) : Prop :=
    st_type st = type_name (n_kind n) /\ st_mode st = oct_tail (Z.of_N (n_mode n)) /\
    user_name s (n_uid n) (st_owner st) /\ group_name s (n_gid n) (st_group st) /\
    (forall b, n_kind n = KFile b -> st_size st = Z.of_nat (length b)) /\
    st_mtime st = n_mtime n /\ st_ctime st = n_ctime n.

  Lemma names_user s s' uid : o_passwd s' = o_passwd s -> user_name s uid (match getpwuid s' (Z.of_N uid) with Ok pw => pw_name pw | Err _ => str_of_N uid end).
  Proof.
    intros Hp. unfold user_name. destruct (getpwuid s' (Z.of_N uid)) as [a|e] eqn:E.
    - apply getpwuid_ok in E as [Ha Hu]. left. exists a. rewrite <- Hp. split_and!; auto; lia.
    - apply getpwuid_err in E as [_ E]. right. split; [|reflexivity]. intros a Ha Hu. rewrite <- Hp in Ha. apply (E a Ha). lia.
  Qed.
  Lemma names_group s s' gid : o_group s' = o_group s -> group_name s gid (match getgrgid s' (Z.of_N gid) with Ok gr => gr_name gr | Err _ => str_of_N gid end).
  Proof.
    intros Hp. unfold group_name. destruct (getgrgid s' (Z.of_N gid)) as [a|e] eqn:E.
    - apply getgrgid_ok in E as [Ha Hu]. left. exists a. rewrite <- Hp. split_and!; auto; lia.
    - apply getgrgid_err in E as [_ E]. right. split; [|reflexivity]. intros a Ha Hu. rewrite <- Hp in Ha. apply (E a Ha). lia.
  Qed.
  Lemma read_names s p b s2 : sys_read p s = (Ok b, s2) -> unaffected s s2 /\
    exists pl n, names (o_fs s) (o_cwd s) p true pl n /\ (n_kind n = KFile b \/ exists t, n_kind n = KOther t).
  Proof.
    intros H. apply syscall_inv in H as (s0 & Hs0 & [(k & [=] & _)|H]). injection H as H1 <-.
    split; [assumption|]. rewrite (unaffected_fs _ _ Hs0), (unaffected_cwd _ _ Hs0) in H1.
    destruct (resolve_node (o_fs s) (o_cwd s) p true) as [[pl n']|e] eqn:E; [|discriminate].
    exists pl, n'. split; [apply resolve_node_names; assumption|]. destruct (n_kind n') eqn:K; try discriminate; [injection H1 as ->; auto|eauto].
  Qed.

  Lemma stat_lemma s p follow sha st v' : encodable (PStat p follow sha) -> (forall pl n, o_fs s !! pl = Some n -> kind_ok (n_kind n)) ->
    conn_stat exec sha512 p follow sha (Remote s Up) = (Ok (Some st), v') ->
    unaffected s (r_os v') /\ r_link v' = Up /\
    exists pl n, names (o_fs s) (o_cwd s) p follow pl n /\ tells s n st /\
      st_sha st = match sha, n_kind n with true, KFile b => Some (sha512 b) | _, _ => None end.
  Proof.
    intros Henc Hkinds E. unfold conn_stat in E.
    destruct (request exec sha512 (PStat p follow sha) (Remote s Up)) as [y v1] eqn:Er.
    destruct y as [r|e]; [|destruct (is_ValueError e); discriminate].
    assert (Hgood : good_request (PStat p follow sha)) by (split_and!; [exact I|exact I|assumption]).
    destruct (request_ok exec sha512 _ _ _ _ Hgood Er) as [Hh Hl].
    destruct r; try discriminate E. injection E as <- <-. cbn [handle] in Hh. unfold handle_stat in Hh.
    destruct (sys_stat p follow s) as [[n|e] s1] eqn:Es.
    2:{ destruct e; try discriminate Hh. destruct (errno =? ENOENT)%Z; discriminate Hh. }
    destruct (stat_names s s1 p follow n s1 Es eq_refl) as [Hs1 [pl Hn]].
    assert (Hpw : o_passwd s1 = o_passwd s) by (unfold unaffected in Hs1; rewrite Hs1; reflexivity).
    assert (Hgr : o_group s1 = o_group s) by (unfold unaffected in Hs1; rewrite Hs1; reflexivity).
    pose proof (names_user s s1 (n_uid n) Hpw) as Hun. pose proof (names_group s s1 (n_gid n) Hgr) as Hgn.
    cbn zeta in Hh.
    assert (Hsize : forall b, n_kind n = KFile b -> node_size n = Z.of_nat (length b)) by (intros b Hb; unfold node_size; rewrite Hb; reflexivity).
    assert (Htype : node_type n = type_name (n_kind n)) by (unfold node_type, type_name; destruct (n_kind n); reflexivity).
    destruct (sha && str_eqb (node_type n) (lit "file")) eqn:Esha.
    - apply bind_inv in Hh as [(b & s2 & Hr & Hh)|(? & _ & [=])].
      injection Hh as <- <- <- <- <- <- <- <- <-.
      apply read_names in Hr as [Hs2 (pl2 & n2 & Hn2 & Hk2)]. rewrite (unaffected_fs _ _ Hs1), (unaffected_cwd _ _ Hs1) in Hn2.
      split; [eapply unaffected_trans; eassumption|]. split; [assumption|]. exists pl, n. split; [assumption|]. split.
      { unfold tells; cbn. split_and!; auto. }
      cbn [st_sha]. apply andb_true_iff in Esha as [-> Et].
      destruct (str_eqb_spec (node_type n) (lit "file")) as [Et'|]; [|discriminate].
      assert (Hf : exists b', n_kind n = KFile b').
      { unfold node_type in Et'. destruct (n_kind n) as [b'| |t|t] eqn:K; [eauto|discriminate Et'..|].
        destruct Hn as (_ & _ & _ & Hlk). specialize (Hkinds _ _ Hlk). rewrite K, Et' in Hkinds. cbn in Hkinds.
        apply (bool_decide_pack _) in Hkinds. vm_compute in Hkinds. destruct Hkinds. }
      destruct Hf as [b' Hb']. assert (Hn' := names_follow _ _ _ _ _ _ Hn (fun t => ltac:(rewrite Hb'; discriminate))).
      destruct (names_det _ _ _ _ _ _ _ _ Hn' Hn2) as [-> ->]. destruct Hk2 as [-> |[t Hk2]]; [reflexivity|congruence].
    - injection Hh as <- <- <- <- <- <- <- <- <-. split; [assumption|]. split; [assumption|]. exists pl, n. split; [assumption|]. split.
      { unfold tells; cbn. split_and!; auto. }
      cbn [st_sha]. destruct sha; [|reflexivity]. cbn in Esha. destruct (n_kind n) eqn:K; try reflexivity.
      unfold node_type in Esha. rewrite K in Esha. discriminate.
  Qed.

  (** without failing system calls *)
  Lemma stat_complete s p follow sha x v' : os_ok s -> hash_ok sha512 -> c_string p -> o_faults s = [] ->
    conn_stat exec sha512 p follow sha (Remote s Up) = (x, v') ->
    v' = Remote s Up /\
    ((exists pl n st, names (o_fs s) (o_cwd s) p follow pl n /\ x = Ok (Some st)) \/
     (x = Ok None /\ forall pl n, ~ names (o_fs s) (o_cwd s) p follow pl n) \/
     (x = Err (RemoteOSError ENOTDIR [] []) /\ forall pl n, ~ names (o_fs s) (o_cwd s) p follow pl n) \/
     x = Err (RemoteOSError ELOOP [] [])).
  Proof.
    intros Hs Hhash [Hp Hnul] Hf E.
    assert (Hs0 : o_faults s = []) by assumption.
    assert (Henc : encodable (PStat p follow sha)) by (apply packet_ok_write; cbn; apply short_ok; assumption).
    assert (Hsafe := handle_stat_ok sha512 Hhash p follow sha (conj Hp Hnul) s Hs).
    unfold conn_stat in E.
    destruct (handle exec sha512 (PStat p follow sha) s) as [rr s1] eqn:Hh. pose proof Hh as Hh0. cbn [handle] in Hh.
    rewrite Hh in Hsafe. unfold handle_stat in Hh. unfold sys_stat in Hh. rewrite syscall_ok in Hh by assumption.
    destruct (resolve_node (o_fs s) (o_cwd s) p follow) as [[pl n]|e] eqn:Er; cbn [fmap result_fmap snd] in Hh.
    2:{ assert (He := Er). apply resolve_node_err in He as [[? _]|[_ He]]; [contradiction|].
        assert (Hno : e <> oserr ELOOP -> forall pl n, ~ names (o_fs s) (o_cwd s) p follow pl n).
        { intros Hne pl n Hn. apply names_resolve in Hn as [Hn|Hn]; congruence. }
        destruct He as [-> |[-> | ->]]; cbv [oserr] in Hh; cbn in Hh; injection Hh as <- <-.
        - destruct (request_invalid exec sha512 (PStat p follow sha) s "path" [] s Henc Hh0) as [m Em].
          + apply packet_ok_invalid; [cbn; lia|apply nil_ok].
          + reflexivity.
          + rewrite Em in E. injection E as <- <-. split; [reflexivity|]. right; left. split; [reflexivity|]. apply Hno. discriminate.
        - rewrite (request_oserr exec sha512 (PStat p follow sha) s _ _ _ s Henc Hh0) in E by (split_and!; [small_z|apply nil_ok|apply nil_ok]).
          injection E as <- <-. split; [reflexivity|]. right; right; left. split; [reflexivity|]. apply Hno. discriminate.
        - rewrite (request_oserr exec sha512 (PStat p follow sha) s _ _ _ s Henc Hh0) in E by (split_and!; [small_z|apply nil_ok|apply nil_ok]).
          injection E as <- <-. split; [reflexivity|]. right; right; right. reflexivity. }
    assert (Hn := resolve_node_names _ _ _ _ _ _ Er). cbn zeta in Hh.
    assert (Hdone : forall st, rr = Ok (Reply [] st) -> s1 = s -> (exists t m o g z mt ct h, st = PStatResult t m o g z mt ct h) ->
      v' = Remote s Up /\ exists st, x = Ok (Some st)).
    { intros st -> -> (t & m & o & g & z & mt & ct & h & ->). destruct Hsafe as [[_ Hok] _].
      rewrite (request_reply exec sha512 _ _ _ _ Henc Hh0 Hok) in E. injection E as <- <-. eauto. }
    destruct (sha && str_eqb (node_type n) (lit "file")) eqn:Esha.
    - unfold sys_read in Hh. cbv [mbind M_bind bindM] in Hh. rewrite syscall_ok in Hh by assumption.
      assert (Hf' : exists b', n_kind n = KFile b').
      { apply andb_true_iff in Esha as [_ Et]. destruct (str_eqb_spec (node_type n) (lit "file")) as [Et'|]; [|discriminate].
        unfold node_type in Et'. destruct (n_kind n) as [b'| |t|t] eqn:K; [eauto|discriminate Et'..|].
        destruct Hn as (_ & _ & _ & Hlk). pose proof (os_ok_files s Hs _ _ Hlk) as [Hk _]. rewrite K, Et' in Hk. cbn in Hk.
        apply (bool_decide_pack _) in Hk. vm_compute in Hk. destruct Hk. }
      destruct Hf' as [b' Hb']. assert (Hn' := names_follow _ _ _ _ _ _ Hn (fun t => ltac:(rewrite Hb'; discriminate))).
      destruct (names_resolve _ _ _ _ _ _ Hn') as [Er2|Er2]; rewrite Er2 in Hh.
      + rewrite Hb' in Hh. injection Hh as <- <-. destruct (Hdone _ eq_refl eq_refl) as [-> [st ->]]; [eauto 10|].
        split; [reflexivity|]. left. eauto.
      + injection Hh as <- <-.
        rewrite (request_oserr exec sha512 (PStat p follow sha) s _ _ _ s Henc Hh0) in E by (split_and!; [small_z|apply nil_ok|apply nil_ok]).
        injection E as <- <-. split; [reflexivity|]. right; right; right. reflexivity.
    - injection Hh as <- <-. destruct (Hdone _ eq_refl eq_refl) as [-> [st ->]]; [eauto 10|]. split; [reflexivity|]. left. eauto.
  Qed.

  (** ** Valid commands *)
  Lemma resolve_user_valid s x : nul ∉ x -> (exists a, denotes_user s x a) -> exists p, resolve_user_id s x = Ok p.
  Proof.
    intros Hx (a & Ha). unfold resolve_user_id. destruct (lookup_user_nul s x Hx) as [oa E]. pose proof (lookup_user_ok s x oa E) as Hd.
    destruct oa as [b|]; [|destruct (Hd a Ha)]. unfold lookup_user in E. cbn.
    destruct (getpwnam s x) as [a'|e]; [cbn; eauto|]. destruct e; try discriminate. destruct (py_int 10 x); [|discriminate].
    destruct (getpwuid s z); [cbn; eauto|discriminate].
  Qed.
  Lemma resolve_group_valid s x : nul ∉ x -> (exists a, denotes_group s x a) -> exists p, resolve_group_id s x = Ok p.
  Proof.
    intros Hx (a & Ha). unfold resolve_group_id. destruct (lookup_group_nul s x Hx) as [oa E]. pose proof (lookup_group_ok s x oa E) as Hd.
    destruct oa as [b|]; [|destruct (Hd a Ha)]. unfold lookup_group in E. cbn.
    destruct (getgrnam s x) as [a'|e]; [cbn; eauto|]. destruct e; try discriminate. destruct (py_int 10 x); [|discriminate].
    destruct (getgrgid s z); [cbn; eauto|discriminate].
  Qed.
  Lemma C13_starts_lemma s c i chk u g m w r v' :
    packet_ok (PProcessRun c i true u g m w) -> opt_ok (fun d => isabs d = true) w -> o_faults s = [] -> o_uid s = 0%N ->
    c <> [] -> Forall (fun a => nul ∉ a) c ->
    opt_ok (fun m => exists z, py_int 8 m = Some z /\ c_int z) m ->
    opt_ok (fun u => nul ∉ u /\ exists a, denotes_user s u a) u -> opt_ok (fun g => nul ∉ g /\ exists a, denotes_group s g a) g ->
    opt_ok (fun d => exists pl n, resolve_node (o_fs s) (o_cwd s) d true = Ok (pl, n) /\ n_kind n = KDir) w ->
    conn_run exec sha512 c i true chk u g m w (Remote s Up) = (r, v') ->
    exists p x, exec p s = (x, r_os v') /\
      p_argv p = c /\ p_stdin p = i /\ run_ids s u g (p_uid p) (p_gid p) /\ p_groups p = o_groups s /\ run_umask m (p_umask p) /\
      run_dir s w (p_cwd p) /\ run_result chk c x r /\
      (forall rc out err, x = Ok (XExit rc out err) -> in_i32 rc -> small out -> small err -> v' = Remote (r_os v') Up).
  Proof.
    intros Hok Habs Hf Huid Hc Hnul Hm Hu Hg Hw E. assert (Henc := packet_ok_write _ Hok).
    assert (Hh : exists p, (p_argv p = c /\ p_stdin p = i /\ run_ids s u g (p_uid p) (p_gid p) /\ p_groups p = o_groups s /\ run_umask m (p_umask p) /\
        run_dir s w (p_cwd p)) /\ exists rr, handle exec sha512 (PProcessRun c i true u g m w) s = (rr, snd (exec p s)) /\
      match fst (exec p s) with
      | Ok (XExit rc out err) => rr = Ok (Reply [] (PProcessCompleted (Some out) (Some err) rc))
      | Ok XBlock => rr = Ok NeverEnds
      | Ok (XFail e) | Err e => match e with SubprocessError m => rr = Ok (Reply [] (PProcessError m)) | _ => rr = Err e end
      end).
    { cbn [handle]. unfold handle_run.
      assert (Hval : forall A (fl : string) o (h : os -> pystr -> result A) k, opt_ok (fun v => exists a, h s v = Ok a) o ->
        exists oa, validated_opt fl o h k s = k oa s /\ match o, oa with None, None => True | Some v, Some a => h s v = Ok a | _, _ => False end).
      { intros A fl o h k Ho. destruct o as [v|]; [|exists None; auto]. destruct Ho as [a Ha]. exists (Some a). cbn. unfold validated. rewrite Ha. auto. }
      edestruct (Hval _ "umask"%string m (fun _ => resolve_oct)) as (oz & -> & Hz).
      { destruct m; [|exact I]. destruct Hm as (z & Hz & _). cbn. unfold resolve_oct. rewrite Hz. cbn. eauto. }
      edestruct (Hval _ "user"%string u resolve_user_id) as (ug & -> & Hug).
      { destruct u; [|exact I]. destruct Hu. apply resolve_user_valid; assumption. }
      edestruct (Hval _ "group"%string g resolve_group_id) as (gg & -> & Hgg).
      { destruct g; [|exact I]. destruct Hg. apply resolve_group_valid; assumption. }
      assert (Hz' : ((default 63 oz <? - 2 ^ 31) || (2 ^ 31 <=? default 63 oz))%Z = false).
      { destruct m as [m|], oz as [z|]; try contradiction; [|reflexivity]. destruct Hm as (z' & Hz1 & Hz2).
        unfold resolve_oct in Hz. rewrite Hz1 in Hz. injection Hz as ->. unfold c_int in Hz2. change (default 63%Z (Some z)) with z. lia. }
      assert (Hchdir : forall d cwd, w = Some d -> exists pl, sys_chdir cwd d s = (Ok pl, s)).
      { intros d cwd ->. destruct Hw as (pl & n & Hr & Hk). exists pl. unfold sys_chdir. rewrite syscall_ok by assumption.
        cbn in Habs. unfold resolve_node, resolve in *. rewrite Habs in Hr |- *. rewrite Hr, Hk. reflexivity. }
      assert (Hisdir : exists s', (match w with None => pure false | Some p => b ← sys_isdir p; pure (negb b) end : M bool) s = (Ok false, s') /\ s' = s).
      { destruct w as [d|]; [|eauto]. destruct Hw as (pl & n & Hr & Hk). exists s. split; [|reflexivity].
        cbv [mbind M_bind bindM]. unfold sys_isdir, sys_stat. rewrite syscall_ok by assumption. rewrite Hr. cbn. rewrite Hk. reflexivity. }
      destruct Hisdir as (s' & Hi & ->). rewrite (bind_ok _ _ _ _ _ Hi).
      set (uid := fst <$> ug). set (gid := match gg with Some g => Some g | None => snd <$> ug end).
      assert (Hset : forall b s0, o_faults s0 = [] -> b = true -> set_id b s0 = (Ok tt, s0)).
      { intros b s0 H0 ->. unfold set_id. rewrite syscall_ok by assumption. reflexivity. }
      assert (Hpre : forall cwd1, exists p, preexec c i (default 63%Z oz) uid gid w cwd1 s = (Ok p, s)).
      { intros cwd1. unfold preexec.
        assert (G3 : exists pl, match w with None => pure cwd1 | Some p => sys_chdir cwd1 p end s = (Ok pl, s)) by (destruct w; [eapply Hchdir; reflexivity|eexists; reflexivity]).
        destruct G3 as [pl G3]. eexists.
        rewrite (bind_ok getM _ s s s eq_refl). rewrite Hz'. rewrite (bind_ok (pure tt) _ s tt s eq_refl). rewrite Huid. cbn [N.eqb orb].
        assert (G1 : match gid with None => pure tt | Some _ => set_id true end s = (Ok tt, s)) by (destruct gid; [apply Hset; auto|reflexivity]).
        rewrite (bind_ok _ _ _ _ _ G1).
        assert (G2 : match uid with None => pure tt | Some _ => set_id true end s = (Ok tt, s)) by (destruct uid; [apply Hset; auto|reflexivity]).
        rewrite (bind_ok _ _ _ _ _ G2).
        rewrite (bind_ok _ _ _ _ _ G3). reflexivity. }
      unfold spawn. rewrite (bind_ok getM _ s s s eq_refl). destruct c as [|a0 c0]; [congruence|]. set (c := a0 :: c0) in *.
      assert (Hex : existsb (has_char nul) c = false).
      { apply not_true_is_false. intros H. apply existsb_exists in H as (a & Ha & Hb). destruct (has_char_spec nul a); [|discriminate].
        rewrite Forall_forall in Hnul. apply (Hnul a); [apply elem_of_list_In; assumption|assumption]. }
      rewrite Hex.
      assert (G4 : exists pl, match w with None => pure (o_cwd s) | Some p => sys_chdir (o_cwd s) p end s = (Ok pl, s)) by (destruct w; [eapply Hchdir; reflexivity|eexists; reflexivity]).
      destruct G4 as [cwd1 G4]. rewrite (bind_ok _ _ _ _ _ G4). destruct (Hpre cwd1) as [p Hp].
      assert (G5 : in_child (preexec c i (default 63%Z oz) uid gid w cwd1) s = (Ok p, s)) by (unfold in_child; rewrite Hp; reflexivity).
      rewrite (bind_ok _ _ _ _ _ G5). exists p. split.
      { apply preexec_spec in Hp as (_ & E1 & E2 & E3 & E4 & E5 & E6 & E7). split_and!; auto.
        - rewrite E3, E4. subst uid gid. unfold run_ids.
          destruct u as [u|], ug as [[u' g']|]; try contradiction; destruct g as [g|], gg as [g2|]; try contradiction; cbn in *;
            try (apply resolve_user_id_in in Hug as (a & Ha & -> & ->)); try (apply resolve_group_id_in in Hgg as (b & Hb & ->)); eauto 8.
        - rewrite E6. unfold run_umask. destruct m, oz; try contradiction; cbn in *; [|reflexivity].
          unfold resolve_oct in Hz. destruct (py_int 8 _); [injection Hz as <-|discriminate]. eauto.
        - unfold run_dir. destruct w as [d|]; [|injection G4 as <-; exact E7]. apply chdir_spec in G4 as [_ (n1 & Hn1 & Hk1)].
          destruct E7 as (n & Hn & Hk). destruct (abs_twice _ _ _ _ _ _ _ Habs Hn1 Hn) as [E8 E9]. exists n1. rewrite E8. auto. }
      cbv [mbind M_bind bindM].
      destruct (exec p s) as [[[rc out err|e|]|e] s1]; cbn [fst snd]; try (eexists; split; reflexivity); destruct e; eexists; split; reflexivity. }
    destruct Hh as (p & Hfacts & rr & Hhh & Hrr). exists p. assert (Hh : snd (handle exec sha512 (PProcessRun c i true u g m w) s) = snd (exec p s)) by (rewrite Hhh; reflexivity).
    unfold conn_run in E. cbv [mbind C_bind] in E.
    destruct (request exec sha512 (PProcessRun c i true u g m w) (Remote s Up)) as [y v1] eqn:Er.
    pose proof (request_state exec sha512 _ _ _ _ Henc Er) as Hs.
    assert (v' = v1) as ->.
    { destruct y as [[]|]; try (injection E as _ <-; reflexivity). match type of E with context [if ?b then _ else _] => destruct b end; injection E as _ <-; reflexivity. }
    destruct (exec p s) as [x s1] eqn:Ex. exists x. cbn [fst snd] in *. split; [congruence|]. destruct Hfacts as (F1 & F2 & F3 & F4 & F5 & F6).
    assert (Hgood : good_request (PProcessRun c i true u g m w)) by (split_and!; [exact I|reflexivity|assumption]).
    assert (Hbad : (forall o e rc, rr <> Ok (Reply [] (PProcessCompleted o e rc))) -> exists e, r = Err e).
    { intros Hno. destruct y as [q|e]; [|injection E as <-; eauto].
      destruct (request_ok exec sha512 _ _ _ _ Hgood Er) as [Hh2 _]. rewrite Hhh in Hh2. injection Hh2 as ->.
      destruct q; try (injection E as <-; eauto; fail). edestruct Hno; reflexivity. }
    assert (Hexit : forall rc out err, x = Ok (XExit rc out err) -> in_i32 rc -> small out -> small err ->
      y = Ok (PProcessCompleted (Some out) (Some err) rc) /\ v1 = Remote s1 Up).
    { intros rc out err -> H1 H2 H3. subst rr.
      assert (Hok' : packet_ok (PProcessCompleted (Some out) (Some err) rc)) by (split_and!; assumption).
      rewrite (request_reply exec sha512 _ s _ _ Henc Hhh Hok') in Er. injection Er as <- <-. auto. }
    split_and!; auto.
    - destruct x as [[rc out err|e|]|e]; cbn [run_result].
      + intros H1 H2 H3. destruct (Hexit _ _ _ eq_refl H1 H2 H3) as [-> _].
        destruct (chk && negb (rc =? 0)%Z); injection E as <-; reflexivity.
      + apply Hbad. intros ? ? ? ->. destruct e; discriminate.
      + subst rr. unfold request, request_held in Er. cbn [r_link r_os] in Er. destruct Henc as [b Hb]. rewrite Hb, Hhh in Er. injection Er as <- _.
        injection E as <-. reflexivity.
      + apply Hbad. intros ? ? ? ->. destruct e; discriminate.
    - intros rc out err Hx H1 H2 H3. destruct (Hexit _ _ _ Hx H1 H2 H3) as [_ ->]. reflexivity.
  Qed.

  (** ** Failing system calls *)
  Lemma fault_stat s n k fl p follow sha : encodable (PStat p follow sha) -> o_faults s = FErr n k :: fl -> in_i64 n -> n <> ENOENT ->
    conn_stat exec sha512 p follow sha (Remote s Up) = (Err (RemoteOSError n [] []), Remote (set_faults fl s) Up).
  Proof.
    intros Henc Hf Hn Hne.
    assert (Hh : handle exec sha512 (PStat p follow sha) s = (Err (OSErr n [] []), set_faults fl s)).
    { cbn [handle]. unfold handle_stat, sys_stat, syscall, next_fault. rewrite Hf. cbn. destruct (Z.eqb_spec n ENOENT); [contradiction|reflexivity]. }
    unfold conn_stat. rewrite (request_oserr exec sha512 _ _ _ _ _ _ Henc Hh) by (split_and!; [assumption|apply nil_ok|apply nil_ok]).
    reflexivity.
  Qed.
  Lemma fault_download s n k fl p : encodable (PDownload p) -> o_faults s = FErr n k :: fl -> in_i64 n -> n <> ENOENT ->
    conn_download exec sha512 p (Remote s Up) = (Err (RemoteOSError n [] []), Remote (set_faults fl s) Up).
  Proof.
    intros Henc Hf Hn Hne.
    assert (Hh : handle exec sha512 (PDownload p) s = (Err (OSErr n [] []), set_faults fl s)).
    { cbn [handle]. unfold handle_download, sys_read, syscall, next_fault. rewrite Hf. cbn. destruct (Z.eqb_spec n ENOENT); [contradiction|reflexivity]. }
    unfold conn_download. cbv [mbind C_bind]. rewrite (request_oserr exec sha512 _ _ _ _ _ _ Henc Hh) by (split_and!; [assumption|apply nil_ok|apply nil_ok]).
    reflexivity.
  Qed.
  Lemma fault_upload s n k fl p c : encodable (PUpload p c None None None) -> o_faults s = FErr n k :: fl -> in_i64 n ->
    conn_upload exec sha512 p c None None None (Remote s Up) = (Err (RemoteOSError n [] []), Remote (set_faults fl s) Up).
  Proof.
    intros Henc Hf Hn.
    assert (Hh : handle exec sha512 (PUpload p c None None None) s = (Err (OSErr n [] []), set_faults fl s)).
    { cbn [handle]. unfold handle_upload. cbn [validated_opt]. cbv [mbind M_bind bindM].
      unfold sys_open_write at 1, syscall at 1, next_fault at 1. rewrite Hf. reflexivity. }
    unfold conn_upload. cbv [mbind C_bind]. rewrite (request_oserr exec sha512 _ _ _ _ _ _ Henc Hh) by (split_and!; [assumption|apply nil_ok|apply nil_ok]).
    reflexivity.
  Qed.
End run.
