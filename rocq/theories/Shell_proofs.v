(** Requests and commands as operations use them. *)
From Coq Require Import Lia ZifyBool ZifyN ZifyNat.
From stdpp Require Import gmap.
From Verif Require Import Base Utf8 Dict_proofs Codec Spec_Codec Codec_proofs Paths Sys Spec_Sys Sys_proofs Dispatcher Client Spec_Session Session_proofs Spec_Remote
  Remote_safe Remote_proofs Remote_run Direct Control Spec_Control Control_proofs Quiet Op Files Coreutils Walk_proofs Spec_Files.
Local Open Scope nat_scope.

Lemma unaffected_honest s s' : unaffected s s' -> honest s -> (forall f, f ∈ o_faults s' -> f ∈ o_faults s) -> honest s'.
Proof. intros _ H1 H2 k Hk. apply (H1 k). apply H2. exact Hk. Qed.

Section shell.
  Variable exec : proc -> M xres.
  Variable sha512 : bytes -> bytes.

  Lemma active_current c d : active c = Some d -> current_defaults c = (Ok d, c).
  Proof.
    intros Ha. unfold active in Ha. unfold current_defaults, current_of. destruct (c_script c) as [i|]; [|discriminate]. cbn in Ha.
    destruct (c_scripts c !! i) as [x|]; [|discriminate]. cbn in Ha. destruct (sw_defaults x); [discriminate|]. injection Ha as ->. reflexivity.
  Qed.
  Lemma current_none c : active c = None -> exists e, current_defaults c = (Err e, c).
  Proof.
    intros Ha. unfold active in Ha. unfold current_defaults, current_of. destruct (c_script c) as [i|]; [|eauto]. cbn in Ha.
    destruct (c_scripts c !! i) as [x|]; [|eauto]. cbn in Ha. destruct (sw_defaults x); [eauto|discriminate].
  Qed.
  Lemma set_remote_self c : set_remote (c_remote c) c = c.
  Proof. destruct c; reflexivity. Qed.

  (** *** run *)
  Lemma run_any chk cmd c r c' : run exec sha512 cmd None true chk None None None None c = (r, c') ->
    c' = set_remote (c_remote c') c /\
    ((unaffected (sysof c) (sysof c') /\ exists e, r = Err e) \/
     exists p s1 x, unaffected (sysof c) s1 /\ exec p s1 = (x, sysof c') /\ p_argv p = cmd /\ (run_result chk cmd x r \/ exists e, r = Err e)).
  Proof.
    intros E. unfold run in E. destruct (active c) as [d|] eqn:Ha.
    2:{ apply current_none in Ha as Hc. destruct Hc as [e Hc]. unfold mbind, W_bind in E. rewrite Hc in E. injection E as <- <-.
        split; [rewrite set_remote_self; reflexivity|]. left. split; [apply unaffected_refl|eauto]. }
    assert (Hc := active_current c d Ha). unfold mbind, W_bind in E. rewrite Hc in E. unfold via in E. cbn [or_else] in E.
    destruct (conn_run exec sha512 cmd None true chk (s_as_user d) (s_as_group d) (s_umask d) (s_cwd d) (c_remote c)) as [x v] eqn:Er.
    injection E as <- <-. unfold sysof. cbn. split; [reflexivity|].
    destruct (c_remote c) as [s l] eqn:Hrem. cbn.
    assert (Hup : (r_os v = s /\ exists e, x = Err e) \/
      exists x0 v0, conn_run exec sha512 cmd None true chk (s_as_user d) (s_as_group d) (s_umask d) (s_cwd d) (Remote s Up) = (x0, v0) /\
        r_os v = r_os v0 /\ (x = x0 \/ exists e, x = Err e) /\ encodable (PProcessRun cmd None true (s_as_user d) (s_as_group d) (s_umask d) (s_cwd d))).
    { unfold conn_run in Er |- *. cbv [mbind C_bind] in Er |- *. destruct (request _ _ _ (Remote s l)) as [y w] eqn:Eq.
      assert (Hvw : v = w) by (destruct y as [[]|]; try (injection Er as _ <-; reflexivity); destruct (_ && _)%bool; injection Er as _ <-; reflexivity). subst w.
      apply request_as_up in Eq as [[H1 (e & -> & _)]|(y0 & v0 & E0 & H1 & Hy & He)]; [left; injection Er as <-; split; [exact H1|eauto]|right].
      rewrite E0. destruct Hy as [<-| ->].
      - eexists _, v0. split; [|split; [exact H1|split; [left; reflexivity|exact He]]].
        destruct y as [[]|]; try (injection Er as <-; reflexivity); destruct (_ && _)%bool; injection Er as <-; reflexivity.
      - injection Er as <-. destruct y0 as [[]|]; try destruct (_ && _)%bool; eexists _, v0; (split; [reflexivity|split; [exact H1|split; [right; eauto|exact He]]]). }
    destruct Hup as [[H1 H2]|(x0 & v0 & E0 & Hv & Hx & He)]; [left; rewrite H1; split; [apply unaffected_refl|exact H2]|].
    rewrite Hv.
    destruct (C13_lemma exec sha512 s cmd None chk (s_as_user d) (s_as_group d) (s_umask d) (s_cwd d) x0 v0 He E0) as [[H1 H2]|(p & s1 & y & F1 & F2 & F3 & _ & _ & _ & _ & _ & F4)].
    - left. split; [exact H1|]. destruct Hx as [-> |Hx]; [exact H2|exact Hx].
    - right. exists p, s1, y. split; [exact F1|]. split; [exact F2|]. split; [exact F3|]. destruct Hx as [-> |Hx]; [left; exact F4|right; exact Hx].
  Qed.
  Lemma run_fine chk cmd c r c' : run exec sha512 cmd None true chk None None None None c = (r, c') -> fine c -> cmd <> [] -> small cmd -> Forall c_string cmd ->
    exists p x, exec p (sysof c) = (x, sysof c') /\ p_argv p = cmd /\ run_result chk cmd x r /\
      (forall rc out err, x = Ok (XExit rc out err) -> in_i32 rc -> small out -> small err -> r_link (c_remote c') = Up).
  Proof.
    intros E ((Hl & Hfl & Huid) & d & Ha & R1 & R2 & R3 & R4) Hne Hsm Hcs. unfold run in E.
    assert (Hc := active_current c d Ha). unfold mbind, W_bind in E. rewrite Hc in E. unfold via in E. cbn [or_else] in E.
    destruct (conn_run exec sha512 cmd None true chk (s_as_user d) (s_as_group d) (s_umask d) (s_cwd d) (c_remote c)) as [x v] eqn:Er.
    injection E as <- <-. unfold sysof in *. cbn. destruct (c_remote c) as [s l]. cbn in *. subst l.
    destruct (C13_starts_lemma exec sha512 s cmd None chk (s_as_user d) (s_as_group d) (s_umask d) (s_cwd d) x v) as (p & y & F1 & F2 & _ & _ & _ & _ & _ & F3 & F4); auto.
    - cbn. split_and!; auto.
      + eapply Forall_impl; [exact Hcs|]. intros a [Hs _]. apply short_ok. assumption.
      + destruct (s_as_user d); [|exact I]. destruct R1 as [[? _] _]. apply short_ok. assumption.
      + destruct (s_as_group d); [|exact I]. destruct R2 as [[? _] _]. apply short_ok. assumption.
      + destruct (s_umask d); [|exact I]. destruct R3 as [? _]. apply short_ok. assumption.
      + destruct (s_cwd d); [|exact I]. destruct R4 as [[? _] _]. apply short_ok. assumption.
    - destruct (s_cwd d); [|exact I]. apply R4.
    - eapply Forall_impl; [exact Hcs|]. intros a [_ Hn]. exact Hn.
    - destruct (s_umask d); [|exact I]. apply R3.
    - destruct (s_as_user d); [|exact I]. destruct R1 as [[_ G1] G2]. split; [exact G1|exact G2].
    - destruct (s_as_group d); [|exact I]. destruct R2 as [[_ G1] G2]. split; [exact G1|exact G2].
    - destruct (s_cwd d); [|exact I]. apply R4.
    - exists p, y. split_and!; auto. intros rc out err Hy H1 H2 H3. rewrite (F4 rc out err Hy H1 H2 H3). reflexivity.
  Qed.

  Lemma crun_any cmd c r c' : crun exec sha512 cmd c = (r, c') ->
    c' = set_remote (c_remote c') c /\
    ((unaffected (sysof c) (sysof c') /\ exists e, r = Err e) \/
     exists p s1 x, unaffected (sysof c) s1 /\ exec p s1 = (x, sysof c') /\ p_argv p = cmd /\ (run_result true cmd x r \/ exists e, r = Err e)).
  Proof. apply run_any. Qed.
  Lemma crun_fine cmd c r c' : crun exec sha512 cmd c = (r, c') -> fine c -> cmd <> [] -> small cmd -> Forall c_string cmd ->
    exists p x, exec p (sysof c) = (x, sysof c') /\ p_argv p = cmd /\ run_result true cmd x r /\
      (forall rc out err, x = Ok (XExit rc out err) -> in_i32 rc -> small out -> small err -> r_link (c_remote c') = Up).
  Proof. apply run_fine. Qed.

  (** commands that either succeed or fail, without output *)
  Lemma sh_any cmd m c r c' : (forall p, p_argv p = cmd -> exec p = exits (m p)) -> sh exec sha512 cmd c = (r, c') ->
    c' = set_remote (c_remote c') c /\
    ((unaffected (sysof c) (sysof c') /\ exists e, r = Err e) \/
     exists p s1 y, p_argv p = cmd /\ unaffected (sysof c) s1 /\ m p s1 = (y, sysof c') /\
       (match y with Ok _ => r = Ok tt | Err _ => exists e, r = Err e end \/ exists e, r = Err e)).
  Proof.
    intros Hm E. unfold sh in E. apply bind_spec in E as [(z & c1 & E & Hr)|(e & E & ->)].
    - injection Hr as <- <-. apply crun_any in E as [H1 [[_ [e [=]]]|(p & s1 & x & H2 & H3 & H4 & [H5|[e [=]]])]]. split; [assumption|]. right.
      rewrite (Hm p H4) in H3. unfold exits in H3. destruct (m p s1) as [[a|e] s2] eqn:Em; injection H3 as <- <-.
      + exists p, s1, (Ok a). auto.
      + cbn in H5. discriminate H5; unfold in_i32, small; cbn; lia.
    - apply crun_any in E as [H1 [[H2 _]|(p & s1 & x & H2 & H3 & H4 & _)]]; (split; [assumption|]); [left; split; [assumption|eauto]|]. right.
      rewrite (Hm p H4) in H3. unfold exits in H3. destruct (m p s1) as [[a|e'] s2] eqn:Em; injection H3 as <- <-.
      + exists p, s1, (Ok a). split_and!; auto. eauto.
      + exists p, s1, (Err e'). split_and!; auto. eauto.
  Qed.
  Lemma sh_fine cmd m c r c' : (forall p, p_argv p = cmd -> exec p = exits (m p)) -> sh exec sha512 cmd c = (r, c') ->
    fine c -> cmd <> [] -> small cmd -> Forall c_string cmd ->
    exists p y, p_argv p = cmd /\ m p (sysof c) = (y, sysof c') /\ r_link (c_remote c') = Up /\
       match y with Ok _ => r = Ok tt | Err _ => exists e, r = Err e end.
  Proof.
    intros Hm E Hf H1 H2 H3. unfold sh in E.
    assert (Hx : exists z, crun exec sha512 cmd c = (z, c') /\ match z with Ok _ => r = Ok tt | Err e => r = Err e end).
    { apply bind_spec in E as [(z & c1 & E & Hr)|(e & E & ->)]; [injection Hr as <- <-; exists (Ok z); auto|exists (Err e); auto]. }
    destruct Hx as (z & Ez & Hz). destruct (crun_fine _ _ _ _ Ez Hf H1 H2 H3) as (p & x & F1 & F2 & F3 & F4).
    rewrite (Hm p F2) in F1. unfold exits in F1. exists p. destruct (m p (sysof c)) as [[a|e] s2] eqn:Em; injection F1 as <- <-.
    - cbn in F3. rewrite F3 in Hz by (unfold in_i32, small; cbn; lia). exists (Ok a). split_and!; auto.
      eapply F4; [reflexivity|unfold in_i32, small; cbn; lia..].
    - cbn in F3. rewrite F3 in Hz by (unfold in_i32, small; cbn; lia). exists (Err e). split_and!; auto; [|eauto].
      eapply F4; [reflexivity|unfold in_i32, small; cbn; lia..].
  Qed.

  (** *** stat *)
  Definition content_hash (n : node) (sha : bool) : option bytes := match sha, n_kind n with true, KFile b => Some (sha512 b) | _, _ => None end.
  Lemma stat_conn_up p follow sha s x v' : conn_stat exec sha512 p follow sha (Remote s Up) = (x, v') ->
    unaffected s (r_os v') /\
    match x with
    | Ok (Some st) => os_ok s ->
        exists pl n, resolve_node (o_fs s) (o_cwd s) p follow = Ok (pl, n) /\ st = statres_of s n (content_hash n sha)
    | Ok None => ~ encodable (PStat p follow sha) \/ (honest s -> resolve_node (o_fs s) (o_cwd s) p follow = Err (oserr ENOENT))
    | Err _ => True
    end.
  Proof.
    intros E. unfold conn_stat, request, request_held in E. cbn [r_link r_os] in E.
    destruct (write_packet (PStat p follow sha)) as [b [e|]] eqn:Ew.
    { destruct (is_ValueError e); injection E as <- <-; (split; [apply unaffected_refl|]); [left; intros [bs Hbs]; congruence|exact I]. }
    cbn [handle] in E. unfold handle_stat in E.
    destruct (sys_stat p follow s) as [[n|e] s1] eqn:Es.
    - assert (Es' := Es). apply syscall_inv in Es' as (s0 & Hs0 & [(k & [=] & _)|H]). injection H as H1 <-.
      rewrite (unaffected_fs _ _ Hs0), (unaffected_cwd _ _ Hs0) in H1.
      destruct (resolve_node (o_fs s) (o_cwd s) p follow) as [[pl n']|e] eqn:Er; cbn in H1; [|discriminate]. injection H1 as ->.
      assert (Hpw : forall z, getpwuid s0 z = getpwuid s z) by (intros z; rewrite Hs0; reflexivity).
      assert (Hgr : forall z, getgrgid s0 z = getgrgid s z) by (intros z; rewrite Hs0; reflexivity).
      cbn zeta in E. rewrite Hpw, Hgr in E.
      destruct (sha && str_eqb (node_type n) (lit "file")) eqn:Esha.
      + apply andb_true_iff in Esha as [-> Et]. destruct (str_eqb_spec (node_type n) (lit "file")) as [Et'|]; [|discriminate].
        destruct (sys_read p s0) as [[c|e] s2] eqn:Erd.
        * cbv [mbind M_bind bindM] in E. rewrite Erd in E. unfold answer in E; cbv [pure mret M_ret] in E; cbn beta iota in E.
          assert (Hs2 : unaffected s s2).
          { apply syscall_inv in Erd as (s3 & Hs3 & [(k & [=] & _)|H]). injection H as _ <-. eapply unaffected_trans; eassumption. }
          match type of E with context [write_packet ?r] => destruct (write_packet r) as [b' [e'|]] eqn:Ew2 end.
          { injection E as <- <-. split; [assumption|exact I]. }
          injection E as <- <-. split; [assumption|]. intros Hos.
          exists pl, n. split; [reflexivity|]. unfold statres_of. f_equal.
          assert (Hkn : exists b0, n_kind n = KFile b0).
          { unfold node_type in Et'. destruct (n_kind n) as [b0| |t|t] eqn:K; [eauto|discriminate Et'..|]. apply resolve_node_split in Er as [_ Hlk].
            destruct Hos as (_ & _ & _ & _ & _ & Hn & _). destruct (Hn _ _ Hlk) as [Hk _]. rewrite K, Et' in Hk. cbn in Hk.
            apply (bool_decide_pack _) in Hk. vm_compute in Hk. destruct Hk. }
          destruct Hkn as [b0 K]. unfold content_hash. rewrite K.
          apply syscall_inv in Erd as (s3 & Hs3 & [(k & [=] & _)|H]). injection H as H _.
          rewrite (unaffected_fs _ _ Hs3), (unaffected_cwd _ _ Hs3), (unaffected_fs _ _ Hs0), (unaffected_cwd _ _ Hs0) in H.
          rewrite (resolve_node_follow _ _ _ _ _ _ Er) in H by (intros t; congruence). rewrite K in H. injection H as ->. reflexivity.
        * cbv [mbind M_bind bindM] in E. rewrite Erd in E.
          assert (Hs2 : unaffected s s2).
          { apply syscall_inv in Erd as (s3 & Hs3 & [(k & _ & ->)|H]); [|injection H as _ <-]; eapply unaffected_trans; eassumption. }
          assert (Hev : is_ValueError e = false \/ (forall a b c, e <> OSErr a b c)).
          { destruct e; try (right; intros; discriminate). left; reflexivity. }
          destruct e; try (injection E as <- <-; split; [assumption|exact I]; fail).
          match type of E with context [write_packet ?r] => destruct (write_packet r) as [b' [e'|]] eqn:Ew2 end; injection E as <- <-; split; auto.
      + unfold answer in E; cbv [pure mret M_ret] in E; cbn beta iota in E. match type of E with context [write_packet ?r] => destruct (write_packet r) as [b' [e'|]] eqn:Ew2 end.
        { injection E as <- <-. split; [assumption|exact I]. }
        injection E as <- <-. split; [assumption|]. intros Hos. exists pl, n. split; [reflexivity|]. unfold statres_of. f_equal.
        unfold content_hash. destruct sha; [|reflexivity]. cbn in Esha. destruct (n_kind n) eqn:K; try reflexivity.
        unfold node_type in Esha. rewrite K in Esha. discriminate.
    - assert (Hs1 : unaffected s s1 /\ (forall a b, e = OSErr ENOENT a b -> honest s -> resolve_node (o_fs s) (o_cwd s) p follow = Err (oserr ENOENT))).
      { assert (Hres : forall a b, snd <$> resolve_node (o_fs s) (o_cwd s) p follow = Err (OSErr ENOENT a b) -> resolve_node (o_fs s) (o_cwd s) p follow = Err (oserr ENOENT)).
        { intros a b0 H. destruct (resolve_node (o_fs s) (o_cwd s) p follow) as [[pl n]|e0] eqn:Er; cbn in H; [discriminate|]. injection H as ->.
          apply resolve_node_err in Er as [[_ [m Er]]|[_ [Er|[Er|Er]]]]; try discriminate Er. congruence. }
        unfold sys_stat, syscall, next_fault in Es. destruct (o_faults s) as [|[|k kk] fl] eqn:Hf.
        - injection Es as H <-. split; [apply unaffected_refl|]. intros a b0 -> _. apply (Hres a b0). exact H.
        - injection Es as H <-. split; [apply unaffected_set|]. intros a b0 -> _. apply (Hres a b0). exact H.
        - injection Es as <- <-. split; [apply unaffected_set|]. intros a b0 [= -> _ _] Hh. destruct (Hh kk). rewrite Hf. left. }
      destruct Hs1 as [Hs1 Hno].
      destruct e; try (injection E as <- <-; split; [assumption|exact I]; fail).
      destruct (Z.eqb_spec errno ENOENT) as [-> |Hne].
      + unfold answer in E; cbv [pure mret M_ret] in E; cbn beta iota in E.
        match type of E with context [write_packet ?r] => destruct (write_packet r) as [b' [e'|]] eqn:Ew2 end; [injection E as <- <-; split; [assumption|exact I]|].
        cbn [deliver] in E. destruct (has_attr _ _); cbn [is_ValueError] in E; injection E as <- <-; (split; [assumption|]); [|exact I].
        right. eapply Hno. reflexivity.
      + match type of E with context [write_packet ?r] => destruct (write_packet r) as [b' [e'|]] eqn:Ew2 end; injection E as <- <-; split; auto.
  Qed.
  Lemma stat_conn p follow sha v x v' : conn_stat exec sha512 p follow sha v = (x, v') ->
    unaffected (r_os v) (r_os v') /\
    match x with
    | Ok (Some st) => os_ok (r_os v) ->
        exists pl n, resolve_node (o_fs (r_os v)) (o_cwd (r_os v)) p follow = Ok (pl, n) /\ st = statres_of (r_os v) n (content_hash n sha)
    | Ok None => ~ encodable (PStat p follow sha) \/ (honest (r_os v) -> resolve_node (o_fs (r_os v)) (o_cwd (r_os v)) p follow = Err (oserr ENOENT))
    | Err _ => True
    end.
  Proof.
    intros E. destruct v as [s l]. cbn [r_os]. unfold conn_stat in E. destruct (request _ _ _ _) as [y w] eqn:Er.
    assert (Hvw : v' = w) by (destruct y as [[]|e]; try (destruct (is_ValueError e)); injection E as _ <-; reflexivity). subst w.
    apply request_as_up in Er as [[-> (e & -> & He)]|(y0 & v0 & E0 & -> & Hy & _)].
    - split; [apply unaffected_refl|]. destruct (is_ValueError e) eqn:Ee; injection E as <-; [|exact I].
      destruct He as [-> |He]; [discriminate Ee|left; exact He].
    - destruct (conn_stat exec sha512 p follow sha (Remote s Up)) as [x0 w0] eqn:Ec. assert (Ec' := Ec).
      unfold conn_stat in Ec. rewrite E0 in Ec. apply stat_conn_up in Ec' as [U H].
      assert (Hw : w0 = v0) by (destruct y0 as [[]|e]; try (destruct (is_ValueError e)); injection Ec as _ <-; reflexivity). subst w0.
      split; [exact U|]. destruct Hy as [-> | ->].
      + assert (Hx : x = x0) by (destruct y0 as [[]|e]; try (destruct (is_ValueError e)); injection E as <-; injection Ec as <-; reflexivity). subst x0. exact H.
      + injection E as <-. exact I.
  Qed.
End shell.

Lemma only_files_now s s' : only_files s s' -> o_now s' = o_now s. Proof. intros H. rewrite H. reflexivity. Qed.
Lemma only_files_uid s s' : only_files s s' -> o_uid s' = o_uid s. Proof. intros H. rewrite H. reflexivity. Qed.
Lemma only_files_passwd s s' : only_files s s' -> o_passwd s' = o_passwd s. Proof. intros H. rewrite H. reflexivity. Qed.
Lemma only_files_group s s' : only_files s s' -> o_group s' = o_group s. Proof. intros H. rewrite H. reflexivity. Qed.
Lemma only_files_cwd s s' : only_files s s' -> o_cwd s' = o_cwd s. Proof. intros H. rewrite H. reflexivity. Qed.
Lemma unaffected_now s s' : unaffected s s' -> o_now s' = o_now s. Proof. intros H. rewrite H. reflexivity. Qed.
Lemma unaffected_passwd s s' : unaffected s s' -> o_passwd s' = o_passwd s. Proof. intros H. rewrite H. reflexivity. Qed.
Lemma unaffected_group s s' : unaffected s s' -> o_group s' = o_group s. Proof. intros H. rewrite H. reflexivity. Qed.
Lemma only_files_set fs s : only_files s (set_fs fs s). Proof. reflexivity. Qed.

(** after changes of the single file at [pl], which is where the path leads to *)
Definition sits (path : pystr) (s0 s : os) (pl : place) (n : node) : Prop :=
  only_files s0 s /\ o_fs s = <[pl := n]> (o_fs s0) /\ resolve_node (o_fs s) [] path false = Ok (pl, n).
Lemma sits_unaffected path s0 s s' pl n : unaffected s s' -> sits path s0 s pl n -> sits path s0 s' pl n.
Proof.
  intros Hu (H1 & H2 & H3). split_and!.
  - eapply only_files_trans; [exact H1|apply unaffected_only; exact Hu].
  - rewrite (unaffected_fs _ _ Hu). exact H2.
  - rewrite (unaffected_fs _ _ Hu). exact H3.
Qed.
Lemma sits_start path s pl n : resolve_node (o_fs s) [] path false = Ok (pl, n) -> sits path s s pl n.
Proof.
  intros H. split_and!; [apply only_files_refl| |assumption]. apply resolve_node_split in H as [_ H]. symmetry. apply insert_id. exact H.
Qed.
Lemma sits_change path s0 s pl n n' : sits path s0 s pl n -> shape n' = shape n -> sits path s0 (set_fs (<[pl := n']> (o_fs s)) s) pl n'.
Proof.
  intros (H1 & H2 & H3) Hs. split_and!.
  - eapply only_files_trans; [exact H1|apply only_files_set].
  - cbn. rewrite H2. apply insert_insert.
  - cbn. eapply resolve_node_set; [exact H3|exact Hs].
Qed.
Lemma sits_follow path s0 s pl n cwd f : sits path s0 s pl n -> isabs path = true -> (forall t, n_kind n <> KLink t) -> resolve_node (o_fs s) cwd path f = Ok (pl, n).
Proof.
  intros (_ & _ & H) Ha Hk. destruct f.
  - eapply resolve_node_follow; [|exact Hk]. rewrite (isabs_cwd_node _ _ [] _ _ Ha). exact H.
  - rewrite (isabs_cwd_node _ _ [] _ _ Ha). exact H.
Qed.
Lemma sits_nofollow path s0 s pl n cwd : sits path s0 s pl n -> isabs path = true -> resolve_node (o_fs s) cwd path false = Ok (pl, n).
Proof. intros (_ & _ & H) Ha. rewrite (isabs_cwd_node _ _ [] _ _ Ha). exact H. Qed.

(** ** What the programs do to a file *)
Definition chmoded (now : Z) (t : pystr) (m : N) (n : node) : node := Node (n_kind n) (gnu_apply t m n) (n_uid n) (n_gid n) (n_mtime n) now.
Definition chowned (now : Z) (uid gid : N) (n : node) : node :=
  Node (n_kind n) (match n_kind n with KDir | KLink _ => n_mode n | _ => drop_suid (n_mode n) end) uid gid (n_mtime n) now.
Definition touched (now : Z) (n : node) : node := Node (n_kind n) (n_mode n) (n_uid n) (n_gid n) now now.

Lemma syscall_quiet {A} (f : M A) s y s' : syscall f s = (y, s') -> (exists s0, unaffected s s0 /\ ((exists n, y = Err (oserr n) /\ s' = s0) \/ f s0 = (y, s'))).
Proof. intros H. apply syscall_inv in H as (s0 & H1 & [(n & -> & ->)|H2]); eauto 8. Qed.

Lemma do_chmod_at p t path s0 s s1 y s' pl n : sits path s0 s pl n -> isabs path = true -> (forall t, n_kind n <> KLink t) -> unaffected s s1 ->
  do_chmod p t path s1 = (y, s') ->
  match y with
  | Ok _ => exists m, gnu_mode t = Some m /\ sits path s0 s' pl (chmoded (o_now s) t m n)
  | Err _ => unaffected s s'
  end.
Proof.
  intros Hat Ha Hk Hu E. unfold do_chmod in E. destruct (gnu_mode t) as [m|]; [|injection E as <- <-; exact Hu].
  apply syscall_quiet in E as (s2 & Hu2 & [(k & -> & ->)|E]); [eapply unaffected_trans; eassumption|].
  assert (Hu3 := unaffected_trans _ _ _ Hu Hu2). assert (Hat' := sits_unaffected _ _ _ _ _ _ Hu3 Hat).
  rewrite (sits_follow _ _ _ _ _ _ _ Hat' Ha Hk) in E. injection E as <- <-. exists m. split; [reflexivity|].
  rewrite (unaffected_now _ _ Hu3). apply (sits_change path s0 s2 pl n); [assumption|reflexivity].
Qed.
Lemma do_chown_at p spec path s0 s s1 y s' pl n : sits path s0 s pl n -> isabs path = true -> (forall t, n_kind n <> KLink t) -> unaffected s s1 ->
  do_chown p true spec path s1 = (y, s') ->
  match y with
  | Ok _ => exists u g, gnu_owner s spec = Some (u, g) /\ sits path s0 s' pl (chowned (o_now s) u g n)
  | Err _ => unaffected s s'
  end.
Proof.
  intros Hat Ha Hk Hu E. unfold do_chown in E. destruct (startswith spec (lit "-")); [injection E as <- <-; exact Hu|].
  apply syscall_quiet in E as (s2 & Hu2 & [(k & -> & ->)|E]); [eapply unaffected_trans; eassumption|].
  assert (Hu3 := unaffected_trans _ _ _ Hu Hu2). assert (Hat' := sits_unaffected _ _ _ _ _ _ Hu3 Hat).
  assert (Hg : gnu_owner s2 spec = gnu_owner s spec).
  { unfold gnu_owner, gnu_uid, gnu_gid. rewrite (unaffected_passwd _ _ Hu3), (unaffected_group _ _ Hu3). reflexivity. }
  rewrite Hg in E. destruct (gnu_owner s spec) as [[u g]|]; [|injection E as <- <-; assumption].
  rewrite (sits_follow _ _ _ _ _ _ _ Hat' Ha Hk) in E. injection E as <- <-. exists u, g. split; [reflexivity|].
  rewrite (unaffected_now _ _ Hu3). apply (sits_change path s0 s2 pl n); [assumption|reflexivity].
Qed.
Lemma do_lchown_at p spec path s0 s s1 y s' pl n : sits path s0 s pl n -> isabs path = true -> unaffected s s1 ->
  do_chown p false spec path s1 = (y, s') ->
  match y with
  | Ok _ => exists u g, gnu_owner s spec = Some (u, g) /\ sits path s0 s' pl (chowned (o_now s) u g n)
  | Err _ => unaffected s s'
  end.
Proof.
  intros Hat Ha Hu E. unfold do_chown in E. destruct (startswith spec (lit "-")); [injection E as <- <-; exact Hu|].
  apply syscall_quiet in E as (s2 & Hu2 & [(k & -> & ->)|E]); [eapply unaffected_trans; eassumption|].
  assert (Hu3 := unaffected_trans _ _ _ Hu Hu2). assert (Hat' := sits_unaffected _ _ _ _ _ _ Hu3 Hat).
  assert (Hg : gnu_owner s2 spec = gnu_owner s spec).
  { unfold gnu_owner, gnu_uid, gnu_gid. rewrite (unaffected_passwd _ _ Hu3), (unaffected_group _ _ Hu3). reflexivity. }
  rewrite Hg in E. destruct (gnu_owner s spec) as [[u g]|]; [|injection E as <- <-; assumption].
  rewrite (sits_nofollow _ _ _ _ _ _ Hat' Ha) in E. injection E as <- <-. exists u, g. split; [reflexivity|].
  rewrite (unaffected_now _ _ Hu3). apply (sits_change path s0 s2 pl n); [assumption|reflexivity].
Qed.
Lemma do_touch_at p f path s0 s s1 y s' pl n : sits path s0 s pl n -> isabs path = true -> (f = true -> forall t, n_kind n <> KLink t) -> unaffected s s1 ->
  do_touch p f path s1 = (y, s') ->
  match y with
  | Ok _ => sits path s0 s' pl (touched (o_now s) n)
  | Err _ => unaffected s s'
  end.
Proof.
  intros Hat Ha Hk Hu E. unfold do_touch in E.
  apply syscall_quiet in E as (s2 & Hu2 & [(k & -> & ->)|E]); [eapply unaffected_trans; eassumption|].
  assert (Hu3 := unaffected_trans _ _ _ Hu Hu2). assert (Hat' := sits_unaffected _ _ _ _ _ _ Hu3 Hat).
  assert (Hr : resolve_node (o_fs s2) (p_cwd p) path f = Ok (pl, n)).
  { destruct f; [eapply sits_follow; eauto|eapply sits_nofollow; eauto]. }
  apply resolve_node_split in Hr as [Hr1 Hr2]. rewrite Hr1, Hr2 in E. injection E as <- <-.
  rewrite (unaffected_now _ _ Hu3). apply (sits_change path s0 s2 pl n); [assumption|reflexivity].
Qed.

(** creating *)
Definition new_dir (p : proc) (s : os) (pl : place) : node :=
  Node KDir (N.lor (N.ldiff 511 (p_umask p)) (if dir_sgid s pl then S_ISGID else 0)) (p_uid p) (new_gid p s pl) (o_now s) (o_now s).
Lemma do_mkdir_at p path s s1 y s' : isabs path = true -> (nul ∉ path) -> unaffected s s1 ->
  do_mkdir p path s1 = (y, s') ->
  match y with
  | Ok _ => exists pl, o_fs s !! pl = None /\ sits path s s' pl (new_dir p s pl)
  | Err _ => unaffected s s'
  end.
Proof.
  intros Ha Hz Hu E. unfold do_mkdir in E.
  apply syscall_quiet in E as (s2 & Hu2 & [(k & -> & ->)|E]); [eapply unaffected_trans; eassumption|].
  assert (Hu3 := unaffected_trans _ _ _ Hu Hu2).
  destruct (resolve (o_fs s2) (p_cwd p) (rstrip_slash path) false) as [pl|e] eqn:Er; [|injection E as <- <-; assumption].
  destruct (o_fs s2 !! pl) as [n|] eqn:En; [injection E as <- <-; assumption|]. injection E as <- <-.
  exists pl. assert (Hd : new_dir p s pl = new_dir p s2 pl).
  { unfold new_dir, new_gid, dir_sgid. rewrite (unaffected_fs _ _ Hu3), (unaffected_now _ _ Hu3). reflexivity. }
  split; [rewrite <- (unaffected_fs _ _ Hu3); assumption|]. rewrite Hd. split_and!.
  - eapply only_files_trans; [apply unaffected_only; exact Hu3|apply only_files_set].
  - cbn. rewrite (unaffected_fs _ _ Hu3). reflexivity.
  - cbn. rewrite (isabs_cwd_node _ _ (p_cwd p) _ _ Ha). eapply resolve_mkdir; [exact Er|exact En|reflexivity|exact Hz].
Qed.
Definition new_file (p : proc) (s : os) (pl : place) : node := Node (KFile []) (N.ldiff 438 (p_umask p)) (p_uid p) (new_gid p s pl) (o_now s) (o_now s).
Lemma do_touch_new p path s s1 y s' : isabs path = true -> resolve_node (o_fs s) [] path false = Err (oserr ENOENT) -> unaffected s s1 ->
  do_touch p true path s1 = (y, s') ->
  match y with
  | Ok _ => exists pl, o_fs s !! pl = None /\ sits path s s' pl (new_file p s pl)
  | Err _ => unaffected s s'
  end.
Proof.
  intros Ha Hno Hu E. unfold do_touch in E.
  apply syscall_quiet in E as (s2 & Hu2 & [(k & -> & ->)|E]); [eapply unaffected_trans; eassumption|].
  assert (Hu3 := unaffected_trans _ _ _ Hu Hu2). rewrite (unaffected_fs _ _ Hu3), (isabs_cwd _ _ [] _ _ Ha) in E.
  destruct (resolve (o_fs s) [] path true) as [pl|e] eqn:Er; [|injection E as <- <-; assumption].
  destruct (resolve_absent _ _ _ _ Hno Er) as [Er' En]. rewrite En in E. injection E as <- <-.
  exists pl. assert (Hd : new_file p s pl = new_file p s2 pl).
  { unfold new_file, new_gid, dir_sgid. rewrite (unaffected_fs _ _ Hu3), (unaffected_now _ _ Hu3). reflexivity. }
  split; [assumption|]. rewrite Hd. unfold set_fs at 1. split_and!.
  - eapply only_files_trans; [apply unaffected_only; exact Hu3|]. apply only_files_set.
  - cbn. reflexivity.
  - cbn. eapply resolve_create; [exact Er'|exact En|]. intros t. discriminate.
Qed.
(** removing *)
Lemma do_rm_at p path s s1 y s' : isabs path = true -> unaffected s s1 -> do_rm p path s1 = (y, s') ->
  match y with
  | Ok _ => exists pl n, resolve_node (o_fs s) [] path false = Ok (pl, n) /\ n_kind n <> KDir /\ only_files s s' /\ o_fs s' = delete pl (o_fs s)
  | Err _ => unaffected s s'
  end.
Proof.
  intros Ha Hu E. unfold do_rm in E.
  apply syscall_quiet in E as (s2 & Hu2 & [(k & -> & ->)|E]); [eapply unaffected_trans; eassumption|].
  assert (Hu3 := unaffected_trans _ _ _ Hu Hu2). rewrite (unaffected_fs _ _ Hu3), (isabs_cwd_node _ _ [] _ _ Ha) in E.
  destruct (resolve_node (o_fs s) [] path false) as [[pl n]|e] eqn:Er; [|injection E as <- <-; assumption].
  destruct (n_kind n) eqn:K; try (injection E as <- <-; assumption);
    injection E as <- <-; exists pl, n; (split; [reflexivity|]); (split; [congruence|]); split; try reflexivity;
    (eapply only_files_trans; [apply unaffected_only; exact Hu3|apply only_files_set]).
Qed.
Lemma delete_all_lookup (l : list place) (fs : fsys) (q : place) : delete_all l fs !! q = if decide (q ∈ l) then None else fs !! q.
Proof.
  induction l as [|x l IH]; cbn; [destruct (decide (q ∈ [])) as [H|]; [inversion H|reflexivity]|].
  destruct (decide (q = x)) as [-> |Hne].
  - rewrite lookup_delete. destruct (decide (x ∈ x :: l)) as [|H]; [reflexivity|]. destruct H. left.
  - rewrite lookup_delete_ne by congruence. fold (delete_all l fs). rewrite IH.
    destruct (decide (q ∈ l)) as [H1|H1], (decide (q ∈ x :: l)) as [H2|H2]; try reflexivity.
    + destruct H2. right. exact H1.
    + apply elem_of_cons in H2 as [?|?]; contradiction.
Qed.
Lemma contents_spec fs pl q : q ∈ contents fs pl <-> pl `suffix_of` q /\ is_Some (fs !! q).
Proof.
  unfold contents. rewrite sorting.merge_sort_Permutation. rewrite elem_of_list_In, filter_In, bool_decide_eq_true. unfold below.
  rewrite <- elem_of_list_In, elem_of_list_fmap. split.
  - intros [([q' n] & -> & H) Hs]. apply elem_of_map_to_list in H. cbn. split; [exact Hs|]. exists n. exact H.
  - intros [Hs [n Hn]]. split; [|exact Hs]. exists (q, n). split; [reflexivity|]. apply elem_of_map_to_list. exact Hn.
Qed.
Lemma do_rm_rf_at p path s s1 y s' : isabs path = true -> unaffected s s1 -> do_rm_rf p path s1 = (y, s') ->
  match resolve (o_fs s) [] path false with
  | Err _ => unaffected s s'
  | Ok pl => only_files s s' /\ (forall q, o_fs s' !! q = o_fs s !! q \/ (pl `suffix_of` q /\ o_fs s' !! q = None)) /\
             (y = Ok tt -> forall q, pl `suffix_of` q -> o_fs s' !! q = None)
  end.
Proof.
  intros Ha Hu E. unfold do_rm_rf in E. assert (Hnf : exists f s2, next_fault s1 = (f, s2) /\ unaffected s s2).
  { unfold next_fault. destruct (o_faults s1) as [|f l]; [exists FOk, s1; auto|]. exists f, (set_faults l s1). split; [reflexivity|].
    eapply unaffected_trans; [exact Hu|apply unaffected_set]. }
  destruct Hnf as (f & s2 & Hnf & Hu3). rewrite Hnf in E. rewrite (unaffected_fs _ _ Hu3), (isabs_cwd _ _ [] _ _ Ha) in E.
  destruct (resolve (o_fs s) [] path false) as [pl|e].
  2:{ destruct (bool_decide (e = oserr ENOENT)); injection E as _ <-; assumption. }
  destruct (str_in (basename path) [lit "."; lit ".."] || match pl with [] => true | _ => false end).
  { injection E as <- <-. split; [apply unaffected_only; assumption|]. split; [intros q; left; rewrite (unaffected_fs _ _ Hu3); reflexivity|discriminate]. }
  assert (Hof : forall fs, only_files s (set_fs fs s2)).
  { intros fs. eapply only_files_trans; [apply unaffected_only; exact Hu3|apply only_files_set]. }
  assert (Hdel : forall l, (forall q, q ∈ l -> q ∈ contents (o_fs s) pl) -> forall q,
    delete_all l (o_fs s) !! q = o_fs s !! q \/ (pl `suffix_of` q /\ delete_all l (o_fs s) !! q = None)).
  { intros l Hl q. rewrite delete_all_lookup. destruct (decide (q ∈ l)) as [H|]; [|left; reflexivity]. right.
    split; [|reflexivity]. apply Hl, contents_spec in H as [H _]. exact H. }
  destruct f as [|k w]; injection E as <- <-; (split; [apply Hof|]); cbn.
  - split; [apply Hdel; auto|]. intros _ q Hq. rewrite delete_all_lookup. destruct (decide (q ∈ contents (o_fs s) pl)) as [|H]; [reflexivity|].
    destruct (o_fs s !! q) eqn:E; [|reflexivity]. destruct H. apply contents_spec. split; [assumption|]. rewrite E. eauto.
  - split; [|discriminate]. apply Hdel. intros q Hq. 
    rewrite <- (firstn_skipn w (contents (o_fs s) pl)). apply elem_of_app. left. exact Hq.
Qed.
