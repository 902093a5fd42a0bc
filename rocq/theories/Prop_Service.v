(** C59, C60: services. *)
From Coq Require Import Lia ZifyBool ZifyN ZifyNat.
From stdpp Require Import gmap.
From Verif Require Import Base Utf8 Utf8_proofs Dict_proofs Codec Spec_Codec Paths Sys Spec_Sys Sys_proofs Dispatcher Client Spec_Session Spec_Remote Remote_run Control Spec_Control Control_proofs
  Walk_proofs Quiet Digits Prop_Control Op Op_proofs Files Files_plain Spec_Files Shell_proofs Steps Dir_proofs Remote_examples Files_examples Prop_Files System Spec_Commands Commands_proofs Package_proofs Bash Prop_Package Prop_Detect Spec_Service.
Local Open Scope nat_scope.

(** ** The operation without its bookkeeping *)
Section plain.
  Variable exec : proc -> M xres.
  Variable sha512 : bytes -> bytes.
  Variable dry : bool.
  Notation sh := (sh exec sha512).
  Notation crun := (crun exec sha512).
  Definition service_work (unit : pystr) (target : option pystr) (en : option bool) (user_mode : bool) (cs : pystr) (ce : bool) : W () :=
    if dry then mret tt
    else
      _ ← match target with Some t => wif (negb (str_eqb cs t)) (sh (systemctl user_mode (default [] (dget t state_actions)) unit)) | None => mret tt end;
      match en with Some e => wif (negb (Bool.eqb ce e)) (sh (systemctl user_mode (if e then lit "enable" else lit "disable") unit)) | None => mret tt end.
  Definition service_before (cs : pystr) (ce : bool) : state := [(k_state, VStr cs); (k_enabled, VBool ce)].
  Definition service_after (target : option pystr) (en : option bool) : state := [(k_state, vopt target); (k_enabled, vbool en)].
  Definition as_asked (target : option pystr) (en : option bool) (cs : pystr) (ce : bool) : bool :=
    bool_decide (target = Some cs) && bool_decide (en = Some ce).
  Lemma service_eq target en cs ce : py_eq (VDict (service_before cs ce)) (VDict (service_after target en)) = as_asked target en cs ce.
  Proof.
    unfold as_asked. change (py_eq (VStr cs) (vopt target) && (py_eq (VBool ce) (vbool en) && true) = bool_decide (target = Some cs) && bool_decide (en = Some ce)).
    rewrite andb_true_r. f_equal.
    - destruct target as [t|]; cbn; [|reflexivity]. destruct (str_eqb_spec cs t) as [-> |H]; symmetry; [apply bool_decide_eq_true_2; reflexivity|apply bool_decide_eq_false_2; congruence].
    - destruct en as [e|]; cbn; [|reflexivity]. destruct ce, e; reflexivity.
  Qed.
  Lemma service_all_equal target en cs ce : all_equal (service_before cs ce) (service_after target en) = Ok (as_asked target en cs ce).
  Proof.
    rewrite <- service_eq. change (py_eq (VDict (service_before cs ce)) (VDict (service_after target en))) with (py_eq (VStr cs) (vopt target) && (py_eq (VBool ce) (vbool en) && true)).
    change (all_equal (service_before cs ce) (service_after target en)) with (if py_eq (VStr cs) (vopt target) then (if py_eq (VBool ce) (vbool en) then Ok true else Ok false) else Ok false).
    destruct (py_eq _ _), (py_eq _ _); reflexivity.
  Qed.
  Definition valid_state (target : option pystr) : bool := match target with Some t => dhas t state_actions | None => true end.
  Definition service_body (unit : pystr) (target : option pystr) (en : option bool) (user_mode : bool) : W opres :=
    a ← crun (show_unit (lit "ActiveState") unit);
    b ← crun (show_unit (lit "UnitFileState") unit);
    let cs := if str_in (out_ignore a) [lit "active"; lit "activating"] then lit "started" else lit "stopped" in
    let ce := str_eqb (out_ignore b) (lit "enabled") in
    conclude (service_before cs ce) (service_after target en) (service_work unit target en user_mode cs ce).
  Lemma service_plain unit target en user_mode :
    yields (service exec sha512 dry unit target en user_mode) new_op
      (if valid_state target then service_body unit target en user_mode else wraise (ValueError (lit "Invalid target state"))).
  Proof.
    unfold service. assert (Hrest : yields
      (a ← olift (crun (show_unit (lit "ActiveState") unit));
       let cur_state := if str_in (out_ignore a) [lit "active"; lit "activating"] then lit "started" else lit "stopped" in
       b ← olift (crun (show_unit (lit "UnitFileState") unit));
       let cur_enabled := str_eqb (out_ignore b) (lit "enabled") in
       _ ← initial_state [(k_state, VStr cur_state); (k_enabled, VBool cur_enabled)];
       _ ← final_state [(k_state, vopt target); (k_enabled, vbool en)];
       u ← unchanged true;
       if u : bool then success
       else
         _ ← (if dry then mret tt
           else
             _ ← (c ← changed k_state;
                  match target with
                  | Some t => if c : bool then olift (sh (systemctl user_mode (default [] (dget t state_actions)) unit)) else mret tt
                  | None => mret tt
                  end);
             c ← changed k_enabled;
             match en with
             | Some e => if c : bool then olift (sh (systemctl user_mode (if e then lit "enable" else lit "disable") unit)) else mret tt
             | None => mret tt
             end);
         success) new_op (service_body unit target en user_mode)).
    { unfold new_op, service_body. eapply yields_bind; [apply keeps_lift|]. intros x. cbv zeta. eapply yields_bind; [apply keeps_lift|]. intros y.
      apply yields_initial. apply yields_final.
      set (cs := if str_in (out_ignore x) [lit "active"; lit "activating"] then lit "started" else lit "stopped"). set (ce := str_eqb (out_ignore y) (lit "enabled")).
      change [(k_state, VStr cs); (k_enabled, VBool ce)] with (service_before cs ce). change [(k_state, vopt target); (k_enabled, vbool en)] with (service_after target en).
      set (o := Op false (Some (service_before cs ce)) (Some (service_after target en)) []).
      assert (Hu : keeps (unchanged true) o (mret (as_asked target en cs ce))).
      { intros c. unfold unchanged. rewrite getO_bind. cbn [op_initial op_final o]. unfold olift. rewrite service_all_equal. reflexivity. }
      eapply yields_pure; [exact Hu|]. unfold conclude. rewrite service_eq. 
      assert (Hsuc : yields success o (mret (OpRes true (negb (as_asked target en cs ce)) (service_before cs ce) (service_after target en) None))).
      { eapply yields_ext; [apply keeps_yields, keeps_success|]. rewrite service_eq. reflexivity. }
      destruct (as_asked target en cs ce); [exact Hsuc|]. eapply yields_bind; [|intros []; exact Hsuc].
      unfold service_work. destruct dry; [apply keeps_ret|]. eapply keeps_bind.
      - assert (K : keeps (changed k_state) o (mret (negb (py_eq (VStr cs) (vopt target))))) by (apply keeps_changed; reflexivity).
        eapply keeps_pure; [exact K|]. destruct target as [t|]; [|apply keeps_ret]. change (py_eq (VStr cs) (vopt (Some t))) with (str_eqb cs t).
        destruct (str_eqb cs t); [apply keeps_ret|apply keeps_lift].
      - intros []. assert (K : keeps (changed k_enabled) o (mret (negb (py_eq (VBool ce) (vbool en))))) by (apply keeps_changed; reflexivity).
        eapply keeps_pure; [exact K|]. destruct en as [e|]; [|apply keeps_ret]. change (py_eq (VBool ce) (vbool (Some e))) with (Bool.eqb ce e).
        destruct (Bool.eqb ce e); [apply keeps_ret|apply keeps_lift]. }
    destruct target as [t|]; cbn [valid_state].
    - destruct (dhas t state_actions); [|intros c; reflexivity]. eapply yields_pure; [apply keeps_ret|exact Hrest].
    - eapply yields_pure; [apply keeps_ret|exact Hrest].
  Qed.
End plain.

Section service.
  Variable exec : proc -> M xres.
  Variable sha512 : bytes -> bytes.
  Variable value : properties.
  Hypothesis Hb : bounded exec.
  Hypothesis Hshow : shows exec value.
  Hypothesis Hstable : value_stable value.

  Lemma visible_out t z : visible t -> cr_stdout z = Some (List.map n2b t ++ [n2b 10]) -> out_ignore z = t.
  Proof.
    intros H E. unfold out_ignore. rewrite E. unfold utf8_decode_ignore. cbn [default from_option]. unfold id. change [n2b 10] with (List.map n2b [10%N]).
    rewrite <- map_app, decode_ascii.
    - destruct t as [|x t]; [reflexivity|]. apply strip_last; [|discriminate]. eapply Forall_impl; [exact H|]. cbn. intros k Hk. unfold is_space. lia.
    - apply Forall_app. split; [|constructor; [lia|constructor]]. eapply Forall_impl; [exact H|]. cbn. intros k Hk. lia.
  Qed.
  Lemma show_does prop unit : does exec (crun exec sha512 (show_unit prop unit)) (fun s l s' r =>
    unaffected s s' /\ l `prefix_of` [show_cmd false prop unit] /\ forall z, r = Ok z -> l = [show_cmd false prop unit] /\ out_ignore z = value s false prop unit).
  Proof.
    eapply does_mono; [apply run_does|]. intros s l s' r H. destruct r as [z|e].
    - apply ran_ok in H as (-> & p & s1 & rc & out & err & H1 & H2 & H3 & -> & H4); [|exact Hb].
      destruct (Hshow p s1 _ s' false prop unit H3 H2) as (G1 & G2 & G3). split; [eapply unaffected_trans; eassumption|]. split; [reflexivity|].
      intros z [= <-]. split; [reflexivity|]. rewrite <- (Hstable _ _ _ _ _ H1). apply visible_out; [exact G2|]. cbn. f_equal. eapply G3.
      rewrite H4 by reflexivity. reflexivity.
    - destruct H as [(-> & H1 & _)|(-> & p & s1 & x & H1 & H2 & H3 & _)].
      + split; [exact H1|]. split; [apply prefix_nil|]. intros z [=].
      + destruct (Hshow p s1 _ s' false prop unit H3 H2) as (G1 & _). split; [eapply unaffected_trans; eassumption|]. split; [reflexivity|]. intros z [=].
  Qed.

  Lemma valid_verb t : dhas t state_actions = true -> exists v, dget t state_actions = Some v /\ verb_of t v.
  Proof.
    unfold dhas. destruct (dget t state_actions) as [v|] eqn:E; [|discriminate]. intros _. exists v. split; [reflexivity|]. apply dget_Some_in. exact E.
  Qed.
  Lemma wif_does (b : bool) cmd : does exec (wif b (sh exec sha512 cmd)) (fun s l s' r =>
    (l = [] -> unaffected s s') /\ l `prefix_of` (if b then [cmd] else []) /\ (r = Ok tt -> l = (if b then [cmd] else []) /\
      (b = true -> exists p s1 out err, unaffected s s1 /\ exec p s1 = (Ok (XExit 0 out err), s') /\ p_argv p = cmd))).
  Proof.
    destruct b; cbn [wif].
    - eapply does_mono; [apply sh_does; exact Hb|]. intros s l s' r [(-> & H & e & ->)|(-> & p & s1 & x & H1 & H2 & H3 & H4)].
      + split; [auto|]. split; [apply prefix_nil|]. intros [=].
      + split; [discriminate|]. split; [reflexivity|]. intros Hr. split; [reflexivity|]. intros _. destruct (H4 Hr) as (out & err & ->). exists p, s1, out, err. auto.
    - eapply does_mono; [apply does_ret|]. intros s l s' r (-> & -> & ->). split; [intros; apply unaffected_refl|]. split; [reflexivity|]. intros _. split; [reflexivity|discriminate].
  Qed.

  Lemma service_lemma unit target en user_mode : valid_state target = true ->
    does exec (service_body exec sha512 false unit target en user_mode) (fun s l s' r =>
      exists l1 l2, state_action value s user_mode unit target l1 /\ enable_action value s user_mode unit en l2 /\
        l `prefix_of` [show_cmd false (lit "ActiveState") unit; show_cmd false (lit "UnitFileState") unit] ++ l1 ++ l2 /\
        forall x, r = Ok x -> or_success x = true /\
          l = [show_cmd false (lit "ActiveState") unit; show_cmd false (lit "UnitFileState") unit] ++ l1 ++ l2 /\
          (or_changed x = false <-> (exists t, target = Some t /\ state_given value s false unit t) /\ (exists e, en = Some e /\ enabled_given value s false unit e)) /\
          exists s1, performed exec l1 s s1 /\ performed exec l2 s1 s').
  Proof.
    intros Hv c r c' E. unfold service_body in E.
    set (cs := fun s => if str_in (value s false (lit "ActiveState") unit) [lit "active"; lit "activating"] then lit "started" else lit "stopped").
    set (ce := fun s => str_eqb (value s false (lit "UnitFileState") unit) (lit "enabled")).
    assert (Hcs : forall s t, state_given value s false unit t <-> t = cs s).
    { intros s t. unfold cs, state_given, running. destruct (str_in _ _) eqn:Es.
      - apply str_in_true in Es. rewrite !elem_of_cons in Es. assert (Hr : value s false (lit "ActiveState") unit = lit "active" \/ value s false (lit "ActiveState") unit = lit "activating") by (destruct Es as [Es|[Es|Es]]; [auto|auto|inversion Es]).
        split; [intros [[-> _]|[_ H]]; [reflexivity|contradiction]|intros ->; auto].
      - apply str_in_false in Es. rewrite !not_elem_of_cons in Es. destruct Es as (E1 & E2 & _).
        split; [intros [[-> H]|[-> _]]; [destruct H; contradiction|reflexivity]|]. intros ->. right. split; [reflexivity|]. intros [H|H]; contradiction. }
    assert (Hce : forall s e, enabled_given value s false unit e <-> e = ce s).
    { intros s e. unfold ce, enabled_given, enabled. destruct (str_eqb_spec (value s false (lit "UnitFileState") unit) (lit "enabled")) as [H|H]; destruct e; intuition congruence. }
    assert (Hs1 : exists l1, state_action value (sysof c) user_mode unit target l1 /\ l1 = match target with Some t => if negb (str_eqb (cs (sysof c)) t) then [systemctl user_mode (default [] (dget t state_actions)) unit] else [] | None => [] end).
    { eexists. split; [|reflexivity]. destruct target as [t|]; [|reflexivity]. unfold state_action. destruct (str_eqb_spec (cs (sysof c)) t) as [Hc|Hc]; cbn [negb].
      - left. split; [apply Hcs; auto|reflexivity].
      - right. split; [intros H; apply Hcs in H; congruence|]. destruct (valid_verb t Hv) as (v & G1 & G2). rewrite G1. exists v. split; [exact G2|]. destruct user_mode; reflexivity. }
    assert (Hs2 : exists l2, enable_action value (sysof c) user_mode unit en l2 /\ l2 = match en with Some e => if negb (Bool.eqb (ce (sysof c)) e) then [systemctl user_mode (if e then lit "enable" else lit "disable") unit] else [] | None => [] end).
    { eexists. split; [|reflexivity]. destruct en as [e|]; [|reflexivity]. unfold enable_action. destruct (Bool.eqb (ce (sysof c)) e) eqn:Hc; cbn [negb].
      - left. split; [apply Hce; apply Bool.eqb_prop in Hc; auto|reflexivity].
      - right. split; [intros H; apply Hce in H; subst; rewrite Bool.eqb_reflx in Hc; discriminate|]. destruct user_mode; reflexivity. }
    destruct Hs1 as (l1 & Hl1 & El1). destruct Hs2 as (l2 & Hl2 & El2).
    set (A := show_cmd false (lit "ActiveState") unit) in *. set (U := show_cmd false (lit "UnitFileState") unit) in *.
    apply bind_spec in E as [(x & c1 & E1 & E)|(e & E & ->)].
    2:{ destruct (show_does _ _ _ _ _ E) as (P0 & l & P1 & _ & P2 & _). split; [exact P0|]. exists l. split; [exact P1|]. exists l1, l2. split_and!; auto; [|intros ? [=]].
        destruct P2 as [k P2]. eexists. change ([A; U] ++ l1 ++ l2) with ([A] ++ U :: l1 ++ l2). fold A in P2. rewrite P2, <- app_assoc. reflexivity. }
    destruct (show_does _ _ _ _ _ E1) as (P0 & k1 & P1 & P2 & _ & P3). destruct (P3 x eq_refl) as [-> Hx].
    apply bind_spec in E as [(y & c2 & E2 & E)|(e & E & ->)].
    2:{ destruct (show_does _ _ _ _ _ E) as (Q0 & l & Q1 & _ & Q2 & _). split; [rewrite Q0, P0; reflexivity|]. eexists. split; [eapply history_app; eassumption|]. exists l1, l2. split_and!; auto; [|intros ? [=]].
        destruct Q2 as [k Q2]. eexists. change ([A; U] ++ l1 ++ l2) with ([A] ++ [U] ++ l1 ++ l2). fold U in Q2. rewrite Q2, <- !app_assoc. reflexivity. }
    destruct (show_does _ _ _ _ _ E2) as (Q0 & k2 & Q1 & Q2 & _ & Q3). destruct (Q3 y eq_refl) as [-> Hy]. rewrite (Hstable _ _ _ _ _ P2) in Hy.
    rewrite Hx, Hy in E. fold (cs (sysof c)) in E. fold (ce (sysof c)) in E.
    assert (Hu : unaffected (sysof c) (sysof c2)) by (eapply unaffected_trans; eassumption).
    assert (Hasked : as_asked target en (cs (sysof c)) (ce (sysof c)) = true <-> (exists t, target = Some t /\ state_given value (sysof c) false unit t) /\ (exists e, en = Some e /\ enabled_given value (sysof c) false unit e)).
    { unfold as_asked. rewrite andb_true_iff, !bool_decide_eq_true. split.
      - intros [-> ->]. split; eexists; (split; [reflexivity|]); [apply Hcs|apply Hce]; reflexivity.
      - intros [(t & -> & H1%Hcs) (e & -> & H2%Hce)]. subst. auto. }
    unfold conclude in E. rewrite service_eq in E. destruct (as_asked target en (cs (sysof c)) (ce (sysof c))) eqn:Eas.
    - injection E as <- <-. unfold as_asked in Eas. rewrite andb_true_iff, !bool_decide_eq_true in Eas. destruct Eas as [-> ->].
      rewrite str_eqb_refl in El1. rewrite Bool.eqb_reflx in El2. cbn in El1, El2. subst l1 l2.
      split; [rewrite Q0, P0; reflexivity|]. exists [A; U]. split; [eapply (history_app exec _ [A]); eassumption|]. exists [], []. split; [exact Hl1|]. split; [exact Hl2|]. split; [reflexivity|].
      intros x0 [= <-]. split; [reflexivity|]. split; [reflexivity|]. split; [cbn; tauto|]. exists (sysof c2). split; [exact Hu|apply unaffected_refl].
    - assert (Hwork : does exec (service_work exec sha512 false unit target en user_mode (cs (sysof c)) (ce (sysof c))) (fun s l s' r => l `prefix_of` l1 ++ l2 /\
        (r = Ok tt -> l = l1 ++ l2 /\ exists s1, performed exec l1 s s1 /\ performed exec l2 s1 s'))).
      { unfold service_work. subst l1 l2.
        set (b1 := match target with Some t => negb (str_eqb (cs (sysof c)) t) | None => false end).
        set (k1 := systemctl user_mode (match target with Some t => default [] (dget t state_actions) | None => [] end) unit).
        set (b2 := match en with Some e => negb (Bool.eqb (ce (sysof c)) e) | None => false end).
        set (k2 := systemctl user_mode (match en with Some e => if e then lit "enable" else lit "disable" | None => [] end) unit).
        replace (match target with Some t => if negb (str_eqb (cs (sysof c)) t) then [systemctl user_mode (default [] (dget t state_actions)) unit] else [] | None => [] end) with (if b1 then [k1] else []) by (unfold b1, k1; destruct target; reflexivity).
        replace (match en with Some e => if negb (Bool.eqb (ce (sysof c)) e) then [systemctl user_mode (if e then lit "enable" else lit "disable") unit] else [] | None => [] end) with (if b2 then [k2] else []) by (unfold b2, k2; destruct en; reflexivity).
        assert (HA : does exec (match target with Some t => wif (negb (str_eqb (cs (sysof c)) t)) (sh exec sha512 (systemctl user_mode (default [] (dget t state_actions)) unit)) | None => mret tt end)
          (fun s l s' r => (l = [] -> unaffected s s') /\ l `prefix_of` (if b1 then [k1] else []) /\ (r = Ok tt -> l = (if b1 then [k1] else []) /\ (b1 = true -> exists p s1 out err, unaffected s s1 /\ exec p s1 = (Ok (XExit 0 out err), s') /\ p_argv p = k1)))).
        { unfold b1, k1. destruct target as [t|]; [apply wif_does|]. exact (wif_does false (systemctl user_mode [] unit)). }
        assert (HB : does exec (match en with Some e => wif (negb (Bool.eqb (ce (sysof c)) e)) (sh exec sha512 (systemctl user_mode (if e then lit "enable" else lit "disable") unit)) | None => mret tt end)
          (fun s l s' r => (l = [] -> unaffected s s') /\ l `prefix_of` (if b2 then [k2] else []) /\ (r = Ok tt -> l = (if b2 then [k2] else []) /\ (b2 = true -> exists p s1 out err, unaffected s s1 /\ exec p s1 = (Ok (XExit 0 out err), s') /\ p_argv p = k2)))).
        { unfold b2, k2. destruct en as [e|]; [apply wif_does|]. exact (wif_does false (systemctl user_mode [] unit)). }
        clearbody b1 k1 b2 k2. refine (does_bind exec _ _ _ (fun _ => _) _ HA (fun _ => HB) _ _).
        - intros s l s' e (_ & H & _). split; [|intros [=]]. apply prefix_app_r. exact H.
        - intros s m1 s1 [] m2 s2 r0 (F0 & _ & F2) (G0 & G1 & G2). destruct (F2 eq_refl) as [-> F3]. split; [apply prefix_app; exact G1|].
          intros ->. destruct (G2 eq_refl) as [-> G3]. split; [reflexivity|]. exists s1. split; [destruct b1; [apply F3; reflexivity|apply F0; reflexivity]|destruct b2; [apply G3; reflexivity|apply G0; reflexivity]]. }
      apply bind_spec in E as [([] & c3 & E3 & E)|(e & E3 & ->)].
      + injection E as <- <-. destruct (Hwork _ _ _ E3) as (W0 & l & W1 & W2 & W3). destruct (W3 eq_refl) as (-> & s1 & W4 & W5).
        split; [rewrite W0, Q0, P0; reflexivity|]. exists ([A] ++ [U] ++ l1 ++ l2). split; [eapply history_app; [exact P1|eapply history_app; eassumption]|].
        exists l1, l2. split; [exact Hl1|]. split; [exact Hl2|]. split; [reflexivity|]. intros x0 [= <-]. split; [reflexivity|]. split; [reflexivity|].
        split; [cbn; split; [discriminate|]; intros H; apply Hasked in H; discriminate|].
        exists s1. split; [|exact W5]. destruct l1 as [|cmd [|]]; cbn in W4 |- *; [eapply unaffected_trans; eassumption|destruct W4 as (p & s0 & out & err & W6 & W7); exists p, s0, out, err; split; [eapply unaffected_trans; eassumption|exact W7]|exact W4].
      + destruct (Hwork _ _ _ E3) as (W0 & l & W1 & W2 & _). split; [rewrite W0, Q0, P0; reflexivity|]. exists ([A] ++ [U] ++ l). split; [eapply history_app; [exact P1|eapply history_app; eassumption]|].
        exists l1, l2. split; [exact Hl1|]. split; [exact Hl2|]. split; [|intros ? [=]]. cbn [app]. apply prefix_cons, prefix_cons. exact W2.
  Qed.
End service.

Lemma outcome_success a (x : result opres) r : (forall y, x = Ok y -> or_success y = true) -> outcome a x r -> forall y, r = Ok y -> x = Ok y.
Proof. intros _ Ho y ->. destruct x as [z|e]; cbn in Ho; [|discriminate]. destruct Ho as [[Ho _]|(_ & _ & Ho)]; [congruence|discriminate]. Qed.

Section C59.
  Variable exec : proc -> M xres.
  Variable sha512 : bytes -> bytes.
  Variable value : properties.
  Hypothesis Hb : bounded exec.

  Lemma service_run unit target en user_mode a c r c' : shows exec value -> value_stable value ->
    operation a (service exec sha512 false unit target en user_mode) c = (r, c') ->
    (valid_state target = false -> (exists m, r = Err (ValueError m)) /\ c' = c) /\
    (valid_state target = true -> c' = set_remote (c_remote c') c /\ service_outcome exec value unit target en user_mode (sysof c) (sysof c') r).
  Proof.
    intros Hshow Hstable E. rewrite (operation_plain _ _ _ _ (service_plain exec sha512 false unit target en user_mode)) in E.
    apply verdict_outcome in E as (x & E & Ho). split; intros Hv; rewrite Hv in E.
    - injection E as <- <-. cbn in Ho. split; [eauto|reflexivity].
    - destruct (service_lemma exec sha512 value Hb Hshow Hstable unit target en user_mode Hv c x c' E) as (H0 & l & H1 & l1 & l2 & H2 & H3 & H4 & H5).
      split; [exact H0|]. exists l, l1, l2. split; [exact H1|]. split; [exact H2|]. split; [exact H3|]. split; [exact H4|].
      intros y Hy. apply H5. eapply outcome_success; [|exact Ho|exact Hy]. intros z Hz. apply H5. exact Hz.
  Qed.
  Lemma valid_is target : (forall t, target = Some t -> exists v, verb_of t v) -> valid_state target = true.
  Proof.
    destruct target as [t|]; [|reflexivity]. intros H. destruct (H t eq_refl) as [v Hv]. cbn [valid_state]. unfold verb_of in Hv. unfold dhas.
    destruct (dget t state_actions) eqn:E; [reflexivity|]. exfalso. apply dget_None in E. apply E. apply (elem_of_list_fmap_1 fst) in Hv. exact Hv.
  Qed.

  (** ** The system's units *)
  (** Full statement: [C59_partial], where "unchanged" is reported already if a state was requested that is given, or none, and
      an enablement that is given, or none.  Missing, as it is false (see [C59_refuted]): here both must be requested. *)
  Theorem C59_partial unit target en a c r c' : shows exec value -> value_stable value ->
    (forall t, target = Some t -> exists v, verb_of t v) ->
    operation a (service exec sha512 false unit target en false) c = (r, c') ->
    c' = set_remote (c_remote c') c /\ service_outcome exec value unit target en false (sysof c) (sysof c') r.
  Proof. intros H1 H2 H3%valid_is E. exact (proj2 (service_run _ _ _ _ _ _ _ _ H1 H2 E) H3). Qed.
  (** Other states are refused. *)
  Theorem C59_invalid unit t en user_mode a c r c' : (forall v, ~ verb_of t v) ->
    operation a (service exec sha512 false unit (Some t) en user_mode) c = (r, c') -> (exists m, r = Err (ValueError m)) /\ c' = c.
  Proof.
    intros H E. rewrite (operation_plain _ _ _ _ (service_plain exec sha512 false unit (Some t) en user_mode)) in E. apply verdict_outcome in E as (x & E & Ho).
    cbn [valid_state] in E. destruct (dhas t state_actions) eqn:Ed; [exfalso; destruct (valid_verb t Ed) as (v & _ & Hv); exact (H v Hv)|].
    injection E as <- <-. cbn in Ho. split; [eauto|reflexivity].
  Qed.

  Lemma performed_run user unit target s s' l : value_stable value -> obeys exec value -> state_action value s user unit target l -> user = false -> performed exec l s s' ->
    (enabled value s' false unit <-> enabled value s false unit) /\
    match target with None => running value s' false unit <-> running value s false unit | Some t => if decide (t = lit "stopped") then ~ running value s' false unit else running value s' false unit end.
  Proof.
    intros Hs Ho Ha -> Hp. assert (Hsame : forall z, unaffected s z -> (enabled value z false unit <-> enabled value s false unit) /\ (running value z false unit <-> running value s false unit)).
    { intros z Hz. unfold enabled, running. rewrite !(Hs _ _ _ _ _ Hz). tauto. }
    destruct target as [t|]; cbn in Ha; [|subst l; exact (Hsame _ Hp)]. destruct Ha as [[Hg ->]|[_ (v & Hv & ->)]].
    - destruct (Hsame _ Hp) as [K1 K2]. split; [exact K1|]. destruct Hg as [[-> Hg]|[-> Hg]].
      + rewrite decide_False; [tauto|]. intros H. apply (f_equal (fun l => l !! 3)) in H. vm_compute in H. discriminate.
      + rewrite decide_True by reflexivity. tauto.
    - destruct Hp as (p & s1 & out & err & P1 & P2 & P3). destruct (Ho p s1 out err s' false unit v P3 P2) as (O1 & O2 & _). destruct (Hsame _ P1) as [K1 K2]. unfold verb_of in Hv.
      destruct (decide (t = lit "stopped")) as [-> |Hn].
      + assert (v = lit "stop") as ->.
        { rewrite !elem_of_cons in Hv. destruct Hv as [Hv|[Hv|[Hv|[Hv|Hv]]]]; [..|inversion Hv]; vm_compute in Hv; injection Hv as Hv; exact Hv || discriminate. }
        destruct (O2 eq_refl) as [G1 G2]. rewrite G2. tauto.
      + assert (Hv' : v ∈ [lit "start"; lit "restart"; lit "reload"]).
        { rewrite !elem_of_cons in Hv. destruct Hv as [Hv|[Hv|[Hv|[Hv|Hv]]]]; [..|inversion Hv]; injection Hv as -> ->; [left|right; left|right; right; left|contradiction]. }
        destruct (O1 Hv') as [G1 G2]. rewrite G2. tauto.
  Qed.
  Lemma performed_enable unit en s s1 s2 l : value_stable value -> obeys exec value -> enable_action value s false unit en l ->
    (enabled value s1 false unit <-> enabled value s false unit) -> performed exec l s1 s2 ->
    (running value s2 false unit <-> running value s1 false unit) /\
    match en with None => enabled value s2 false unit <-> enabled value s false unit | Some e => enabled_given value s2 false unit e end.
  Proof.
    intros Hs Ho Ha He Hp. assert (Hsame : forall z, unaffected s1 z -> (enabled value z false unit <-> enabled value s1 false unit) /\ (running value z false unit <-> running value s1 false unit)).
    { intros z Hz. unfold enabled, running. rewrite !(Hs _ _ _ _ _ Hz). tauto. }
    destruct en as [e|]; cbn in Ha; [|subst l; destruct (Hsame _ Hp) as [K1 K2]; rewrite K1; tauto]. destruct Ha as [[Hg ->]|[_ ->]].
    - destruct (Hsame _ Hp) as [K1 K2]. split; [exact K2|]. unfold enabled_given in *. rewrite K1, He. exact Hg.
    - destruct Hp as (p & s3 & out & err & P1 & P2 & P3). destruct (Ho p s3 out err s2 false unit _ P3 P2) as (_ & _ & O1 & O2). destruct (Hsame _ P1) as [K1 K2]. unfold enabled_given.
      destruct e; [destruct (O1 eq_refl)|destruct (O2 eq_refl)]; (split; [tauto|]); intuition congruence.
  Qed.
  (** What was requested holds afterwards, and what was not is as before. *)
  Theorem C59_effect unit target en a c x c' : shows exec value -> value_stable value -> obeys exec value ->
    (forall t, target = Some t -> exists v, verb_of t v) ->
    operation a (service exec sha512 false unit target en false) c = (Ok x, c') ->
    or_success x = true /\
    match target with
    | None => running value (sysof c') false unit <-> running value (sysof c) false unit
    | Some t => if decide (t = lit "stopped") then ~ running value (sysof c') false unit else running value (sysof c') false unit
    end /\
    match en with
    | None => enabled value (sysof c') false unit <-> enabled value (sysof c) false unit
    | Some e => enabled_given value (sysof c') false unit e
    end.
  Proof.
    intros H1 H2 H3 H4 E. destruct (C59_partial _ _ _ _ _ _ _ H1 H2 H4 E) as (_ & l & l1 & l2 & _ & A1 & A2 & _ & F). destruct (F x eq_refl) as (F1 & _ & _ & s1 & F2 & F3).
    split; [exact F1|]. destruct (performed_run _ _ _ _ _ _ H2 H3 A1 eq_refl F2) as [G1 G2]. destruct (performed_enable _ _ _ _ _ _ H2 H3 A2 G1 F3) as [G3 G4].
    split; [|exact G4]. destruct target as [t|]; [destruct (decide (t = lit "stopped"))|]; rewrite ?G3; exact G2.
  Qed.
  (** When systemd does its part, the operation succeeds. *)
  Theorem C59_works unit target en user_mode a c : fine c -> c_string unit ->
    (forall t, target = Some t -> exists v, verb_of t v) ->
    (forall prop, dependable exec (show_cmd false prop unit) ended) ->
    (forall verb, verb ∈ [lit "start"; lit "stop"; lit "restart"; lit "reload"; lit "enable"; lit "disable"] -> dependable exec (verb_cmd user_mode verb unit) ended) ->
    exists x c', operation a (service exec sha512 false unit target en user_mode) c = (Ok x, c') /\ fine c'.
  Proof.
    intros Hc Hu Hv Hs Hd. rewrite (operation_plain _ _ _ _ (service_plain exec sha512 false unit target en user_mode)). rewrite valid_is by exact Hv. unfold service_body.
    assert (Hsh : forall prop c, c_string prop -> fine c -> exists z c', crun exec sha512 (show_unit prop unit) c = (Ok z, c') /\ fine c').
    { intros prop c0 Hp Hc0. destruct (run_healthy exec sha512 true (show_unit prop unit) c0 ended Hb Hc0) as (rc & out & err & c' & -> & G2 & E); [|apply Hs|].
      - split; [discriminate|]. split; [small_nat|]. unfold show_unit. each; first [assumption|split; [text|dec]].
      - unfold crun. rewrite E. cbn. eauto. }
    destruct (Hsh (lit "ActiveState") c) as (x & c1 & E1 & Hc1); [split; [text|dec]|exact Hc|].
    destruct (Hsh (lit "UnitFileState") c1) as (y & c2 & E2 & Hc2); [split; [text|dec]|exact Hc1|].
    unfold mbind at 3, W_bind. unfold mbind at 2, W_bind. unfold mbind at 1, W_bind. rewrite E1. unfold mbind, W_bind. rewrite E2.
    set (cs := if str_in _ _ then _ else _). set (ce := str_eqb _ _). clearbody cs ce.
    assert (Hvc : forall verb c, verb ∈ [lit "start"; lit "stop"; lit "restart"; lit "reload"; lit "enable"; lit "disable"] -> fine c -> exists c', fine c' /\ sh exec sha512 (systemctl user_mode verb unit) c = (Ok tt, c')).
    { intros verb c0 Hverb Hc0. apply sh_healthy; [exact Hb|exact Hc0| |apply Hd; exact Hverb].
      assert (c_string verb) by (rewrite !elem_of_cons in Hverb; destruct Hverb as [-> |[-> |[-> |[-> |[-> |[-> |Hverb]]]]]]; [..|inversion Hverb]; (split; [text|dec])).
      split; [destruct user_mode; discriminate|]. split; [destruct user_mode; small_nat|]. destruct user_mode; cbn [systemctl app]; each; first [assumption|split; [text|dec]]. }
    assert (Hw : forall c, fine c -> exists c', service_work exec sha512 false unit target en user_mode cs ce c = (Ok tt, c') /\ fine c').
    { intros c0 Hc0. unfold service_work. assert (Ha : exists c3, match target with Some t => wif (negb (str_eqb cs t)) (sh exec sha512 (systemctl user_mode (default [] (dget t state_actions)) unit)) | None => mret tt end c0 = (Ok tt, c3) /\ fine c3).
      { destruct target as [t|]; [|eexists; split; [reflexivity|exact Hc0]]. destruct (str_eqb cs t); cbn [negb wif]; [eexists; split; [reflexivity|exact Hc0]|].
        destruct (valid_verb t (valid_is _ Hv)) as (v & G1 & G2). rewrite G1. cbn [default from_option]. unfold id. destruct (Hvc v c0) as (c3 & K1 & K2); [|exact Hc0|eauto].
        unfold verb_of in G2. rewrite !elem_of_cons in G2. rewrite !elem_of_cons. destruct G2 as [G2|[G2|[G2|[G2|G2]]]]; [..|inversion G2]; injection G2 as -> ->; auto. }
      destruct Ha as (c3 & E3 & Hc3). unfold mbind, W_bind. rewrite E3.
      destruct en as [e|]; [|eexists; split; [reflexivity|exact Hc3]]. destruct (Bool.eqb ce e); cbn [negb wif]; [eexists; split; [reflexivity|exact Hc3]|].
      destruct (Hvc (if e then lit "enable" else lit "disable") c3) as (c4 & K1 & K2); [|exact Hc3|eauto]. destruct e; rewrite !elem_of_cons; auto 8. }
    unfold conclude. destruct (py_eq _ _).
    - unfold verdict. cbv [mret W_ret]. cbn [or_success]. rewrite andb_false_r. eauto.
    - destruct (Hw c2 Hc2) as (c3 & E3 & Hc3). unfold mbind, W_bind. rewrite E3. unfold verdict. cbv [mret W_ret]. cbn [or_success]. rewrite andb_false_r. eauto.
  Qed.

  (** ** The user's units *)
  (** Full statement: as [C59_partial], with the properties of the user's unit in place of those of the system's unit of that name.
      This is false (see [C60_refuted]).  What holds: the user's service manager is told to act, as the system's unit suggests. *)
  Theorem C60_partial unit target en a c r c' : shows exec value -> value_stable value ->
    (forall t, target = Some t -> exists v, verb_of t v) ->
    operation a (service exec sha512 false unit target en true) c = (r, c') ->
    c' = set_remote (c_remote c') c /\ service_outcome exec value unit target en true (sysof c) (sysof c') r.
  Proof. intros H1 H2 H3%valid_is E. exact (proj2 (service_run _ _ _ _ _ _ _ _ H1 H2 E) H3). Qed.
End C59.

(** ** A service manager (for the examples) *)
(** Its units are kept among the variables of the system. *)
Definition unit_key (user : bool) (prop unit : pystr) : pystr := (if user then 49%N else 48%N) :: prop ++ 47%N :: unit.
Definition shown (v : pystr) : bool := forallb (fun c => (32 <? c)%N && (c <? 127)%N) v && (length v <? 64).
Definition kept (s : os) (user : bool) (prop unit : pystr) : pystr :=
  match dget (unit_key user prop unit) (o_env s) with Some v => if shown v then v else [] | None => [] end.
Definition put_unit (user : bool) (prop unit v : pystr) (s : os) : os := set_env (dset (unit_key user prop unit) v (o_env s)) s.
Definition act_unit (user : bool) (verb unit : pystr) (s : os) : option os :=
  if str_in verb [lit "start"; lit "restart"; lit "reload"] then Some (put_unit user (lit "ActiveState") unit (lit "active") s)
  else if str_eqb verb (lit "stop") then Some (put_unit user (lit "ActiveState") unit (lit "inactive") s)
  else if str_eqb verb (lit "enable") then Some (put_unit user (lit "UnitFileState") unit (lit "enabled") s)
  else if str_eqb verb (lit "disable") then Some (put_unit user (lit "UnitFileState") unit (lit "disabled") s)
  else None.
Definition systemd (p : proc) : M xres := fun s =>
  let show user prop unit := (Ok (XExit 0 (List.map n2b (kept s user prop unit) ++ [n2b 10]) []), s) in
  let act user verb unit := match act_unit user verb unit s with Some s' => (Ok (XExit 0 [] []), s') | None => (Ok (XExit 1 [] []), s) end in
  match p_argv p with
  | [_; _; _; _; prop; _; unit] => show false prop unit
  | [_; _; _; _; _; prop; _; unit] => show true prop unit
  | [_; verb; _; unit] => act false verb unit
  | [_; _; verb; _; unit] => act true verb unit
  | [_; _] | [_; _; _] => (Ok (XExit 0 [] []), s)
  | _ => (Ok (XFail (oserr ENOENT)), s)
  end.
Lemma kept_small s user prop unit : visible (kept s user prop unit) /\ length (kept s user prop unit) < 64.
Proof.
  unfold kept. destruct (dget _ _) as [v|]; [|split; [constructor|cbn; lia]]. destruct (shown v) eqn:E; [|split; [constructor|cbn; lia]].
  unfold shown in E. apply andb_true_iff in E as [E1 E2]. split; [|apply Nat.ltb_lt; exact E2]. apply Forall_forall. intros x Hx. rewrite forallb_forall in E1. apply elem_of_list_In in Hx. specialize (E1 x Hx). lia.
Qed.
Lemma systemd_bounded : bounded systemd.
Proof.
  assert (Hs : forall s user prop unit rc out err s', (Ok (XExit 0 (List.map n2b (kept s user prop unit) ++ [n2b 10]) []), s) = (Ok (XExit rc out err), s') -> in_i32 rc /\ small out /\ small err).
  { intros s user prop unit rc out err s' [= <- <- <- _]. destruct (kept_small s user prop unit) as [_ H]. unfold in_i32, small. rewrite app_length, map_length. cbn [length]. lia. }
  assert (Ha : forall s user verb unit rc out err s', match act_unit user verb unit s with Some s' => (Ok (XExit 0 [] []), s') | None => (Ok (XExit 1 [] []), s) end = (Ok (XExit rc out err), s') -> in_i32 rc /\ small out /\ small err).
  { intros s user verb unit rc out err s'. destruct (act_unit _ _ _ _); intros [= <- <- <- _]; unfold in_i32, small; cbn; lia. }
  assert (H0 : forall s rc out err s', (Ok (XExit 0 [] []), s) = (Ok (XExit rc out err), s' : os) -> in_i32 rc /\ small out /\ small err).
  { intros s rc out err s' [= <- <- <- _]; unfold in_i32, small; cbn; lia. }
  intros p s rc out err s' E. unfold systemd in E. cbv zeta in E.
  destruct (p_argv p) as [|a0 [|a1 [|a2 [|a3 [|a4 [|a5 [|a6 [|a7 [|a8 t]]]]]]]]]; try discriminate; eauto.
Qed.
Lemma systemd_stable : value_stable kept.
Proof. intros s s' user prop unit H. unfold kept. rewrite H. reflexivity. Qed.
Lemma systemd_shows : shows systemd kept.
Proof.
  intros q s x s' user prop unit E Ex. unfold systemd in Ex. rewrite E in Ex. destruct user; cbn [show_cmd manager_of app] in Ex; injection Ex as <- <-;
    (split; [apply unaffected_refl|]); (split; [apply kept_small|]); intros out err [= <- _]; reflexivity.
Qed.
Lemma unit_key_ne user unit : unit_key user (lit "ActiveState") unit <> unit_key user (lit "UnitFileState") unit.
Proof. intros H. apply (f_equal (fun l => l !! 1)) in H. destruct user; vm_compute in H; discriminate. Qed.
Lemma kept_put user prop unit v s : shown v = true -> kept (put_unit user prop unit v s) user prop unit = v.
Proof. intros H. unfold kept, put_unit. cbn [o_env set_env]. rewrite dget_dset_same, H. reflexivity. Qed.
Lemma kept_other user prop prop' unit v s : unit_key user prop unit <> unit_key user prop' unit -> kept (put_unit user prop unit v s) user prop' unit = kept s user prop' unit.
Proof. intros H. unfold kept, put_unit. cbn [o_env set_env]. rewrite dget_dset_other by auto. reflexivity. Qed.
Lemma systemd_obeys : obeys systemd kept.
Proof.
  intros q s out err s' user unit verb E Ex.
  assert (Ha : act_unit user verb unit s = Some s').
  { unfold systemd in Ex. rewrite E in Ex. destruct user; cbn [verb_cmd manager_of app] in Ex; destruct (act_unit _ _ _ _) as [z|]; injection Ex; congruence. }
  pose proof (unit_key_ne user unit) as Hk. unfold act_unit in Ha. unfold running, enabled.
  assert (Hx : (forall z, s' = put_unit user (lit "ActiveState") unit z s -> (kept s' user (lit "UnitFileState") unit = lit "enabled" <-> kept s user (lit "UnitFileState") unit = lit "enabled")) /\
    (forall z, s' = put_unit user (lit "UnitFileState") unit z s -> kept s' user (lit "ActiveState") unit = kept s user (lit "ActiveState") unit)).
  { split; intros z ->; rewrite kept_other by auto; tauto. }
  destruct Hx as [Hx1 Hx2]. split_and!.
  - intros Hv. apply str_in_true in Hv. rewrite Hv in Ha. injection Ha as Ha. split; [|eauto]. left. rewrite <- Ha. apply kept_put. reflexivity.
  - intros ->. vm_compute (str_in _ _) in Ha. vm_compute (str_eqb _ _) in Ha. injection Ha as Ha. split; [|eauto]. rewrite <- Ha, kept_put by reflexivity. intros [H|H]; discriminate H.
  - intros ->. vm_compute (str_in _ _) in Ha. vm_compute (str_eqb _ _) in Ha. cbv iota in Ha. injection Ha as Ha. split; [|erewrite Hx2 by eauto; tauto]. rewrite <- Ha. apply kept_put. reflexivity.
  - intros ->. vm_compute (str_in _ _) in Ha. vm_compute (str_eqb _ _) in Ha. cbv iota in Ha. injection Ha as Ha. split; [|erewrite Hx2 by eauto; tauto]. rewrite <- Ha, kept_put by reflexivity. intros H; discriminate H.
Qed.
Lemma systemd_show_dependable user prop unit : dependable systemd (show_cmd user prop unit) ended.
Proof.
  intros q s E Hs. unfold systemd. rewrite E. destruct user; cbn [show_cmd manager_of app]; eexists _, _, _, _; (split; [reflexivity|]); split_and!; auto; reflexivity.
Qed.
Lemma systemd_verb_dependable user verb unit : verb ∈ [lit "start"; lit "stop"; lit "restart"; lit "reload"; lit "enable"; lit "disable"] -> dependable systemd (verb_cmd user verb unit) ended.
Proof.
  intros Hv q s E Hs. assert (Ha : exists s', act_unit user verb unit s = Some s' /\ exists e, s' = set_env e s).
  { rewrite !elem_of_cons in Hv. destruct Hv as [-> |[-> |[-> |[-> |[-> |[-> |Hv]]]]]]; [..|inversion Hv]; eexists; (split; [reflexivity|]); eexists; reflexivity. }
  destruct Ha as (s' & Ha & e & ->). unfold systemd. rewrite E. destruct user; cbn [verb_cmd manager_of app]; rewrite Ha; eexists _, _, _, _; (split; [reflexivity|]); split_and!; auto; reflexivity.
Qed.
Definition unit_site (l : list (pystr * pystr)) : ctl := on (set_env l site) ex_base.
Lemma unit_fine l : fine (unit_site l). Proof. exact site_fine. Qed.
Definition sshd := lit "sshd.service".

(** a unit that is to be started and enabled, and is enabled already *)
Example C59_case :
  let op := service systemd fake_hash false sshd (Some (lit "started")) (Some true) false in
  let c := unit_site [(unit_key false (lit "UnitFileState") sshd, lit "enabled")] in
  let c1 := snd (operation NotGiven op c) in let c2 := snd (operation NotGiven op c1) in
  shows systemd kept /\ value_stable kept /\ obeys systemd kept /\ bounded systemd /\ fine c /\
  (exists x c', operation NotGiven op c = (Ok x, c') /\ fine c') /\
  or_changed (result_of (operation NotGiven op c)) = true /\ running kept (sysof c1) false sshd /\ enabled kept (sysof c1) false sshd /\
  history systemd (sysof c) [show_cmd false (lit "ActiveState") sshd; show_cmd false (lit "UnitFileState") sshd; verb_cmd false (lit "start") sshd] (sysof c1) /\
  or_success (result_of (operation NotGiven op c1)) = true /\ or_changed (result_of (operation NotGiven op c1)) = false /\ o_env (sysof c2) = o_env (sysof c1).
Proof.
  intros op c c1 c2. split; [apply systemd_shows|]. split; [apply systemd_stable|]. split; [apply systemd_obeys|]. split; [apply systemd_bounded|]. split; [apply unit_fine|].
  assert (Hv : forall t, Some (lit "started") = Some t -> exists v, verb_of t v) by (intros t [= <-]; exists (lit "start"); left).
  split.
  { apply C59_works; [apply systemd_bounded|apply unit_fine|split; [text|dec]|exact Hv|intros; apply systemd_show_dependable|intros; apply systemd_verb_dependable; assumption]. }
  split; [vm_compute; reflexivity|]. split; [left; vm_compute; reflexivity|]. split; [vm_compute; reflexivity|]. split; [|split_and!; vm_compute; reflexivity].
  destruct (C59_partial systemd fake_hash kept systemd_bounded sshd (Some (lit "started")) (Some true) NotGiven c (Ok (result_of (operation NotGiven op c))) c1 systemd_shows systemd_stable Hv) as (_ & l & l1 & l2 & H1 & H2 & H3 & _ & H4).
  { apply surely. vm_compute. reflexivity. }
  destruct (H4 _ eq_refl) as (_ & -> & _).
  destruct H2 as [[[[_ [H|H]]|[H _]] _]|(_ & v & Hw & ->)]; [exfalso; vm_compute in H; discriminate..|].
  destruct H3 as [[_ ->]|[H _]]; [|exfalso; apply H; vm_compute; tauto].
  unfold verb_of in Hw. rewrite !elem_of_cons in Hw. destruct Hw as [Hw|[Hw|[Hw|[Hw|Hw]]]]; [|exfalso; vm_compute in Hw; discriminate..|inversion Hw]. injection Hw as ->. exact H1.
Qed.

(** ** False: "the operation reports changed iff something requested differed from the present state":
      C59_partial with
        or_changed x = false <-> (forall t, target = Some t -> state_given value s false unit t) /\ (forall e, en = Some e -> enabled_given value s false unit e)
    A unit that is only to be started, and runs already, is reported as changed, always: what is not requested is compared as
    None with the present state. *)
Theorem C59_refuted : exists exec value unit target en c x c', bounded exec /\ shows exec value /\ value_stable value /\ obeys exec value /\ fine c /\
  operation NotGiven (service exec fake_hash false unit target en false) c = (Ok x, c') /\ or_success x = true /\
  (forall t, target = Some t -> state_given value (sysof c) false unit t) /\ (forall e, en = Some e -> enabled_given value (sysof c) false unit e) /\
  history exec (sysof c) [show_cmd false (lit "ActiveState") unit; show_cmd false (lit "UnitFileState") unit] (sysof c') /\
  or_changed x = true.
Proof.
  set (op := service systemd fake_hash false sshd (Some (lit "started")) None false).
  set (c := unit_site [(unit_key false (lit "ActiveState") sshd, lit "active")]).
  set (c1 := snd (operation NotGiven op c)).
  exists systemd, kept, sshd, (Some (lit "started")), None, c, (result_of (operation NotGiven op c)), c1.
  split; [apply systemd_bounded|]. split; [apply systemd_shows|]. split; [apply systemd_stable|]. split; [apply systemd_obeys|]. split; [apply unit_fine|].
  assert (E : operation NotGiven op c = (Ok (result_of (operation NotGiven op c)), c1)) by (apply surely; vm_compute; reflexivity).
  assert (Hg : state_given kept (sysof c) false sshd (lit "started")) by (left; split; [reflexivity|left; vm_compute; reflexivity]).
  split; [exact E|]. split; [vm_compute; reflexivity|]. split; [intros t [= <-]; exact Hg|]. split; [intros e [=]|]. split; [|vm_compute; reflexivity].
  assert (Hv : forall t, Some (lit "started") = Some t -> exists v, verb_of t v) by (intros t [= <-]; exists (lit "start"); left).
  destruct (C59_partial systemd fake_hash kept systemd_bounded sshd (Some (lit "started")) None NotGiven c _ c1 systemd_shows systemd_stable Hv E) as (_ & l & l1 & l2 & H1 & H2 & H3 & _ & H4).
  destruct (H4 _ eq_refl) as (_ & -> & _). destruct H2 as [[_ ->]|[H _]]; [|contradiction]. cbn in H3. subst l2. exact H1.
Qed.

(** ** False: "with user_mode=True decisions are based on the user's unit":
      C60_partial with the properties of the user's unit.
    The unit of the system runs, the user's unit of the same name does not.  Starting it is reported as done, and unchanged: *)
Theorem C60_refuted : exists exec value unit c x c', bounded exec /\ shows exec value /\ value_stable value /\ obeys exec value /\ fine c /\
  operation NotGiven (service exec fake_hash false unit (Some (lit "started")) (Some true) true) c = (Ok x, c') /\ or_success x = true /\ or_changed x = false /\
  ~ running value (sysof c) true unit /\ ~ running value (sysof c') true unit /\ ~ enabled value (sysof c') true unit.
Proof.
  set (op := service systemd fake_hash false sshd (Some (lit "started")) (Some true) true).
  set (c := unit_site [(unit_key false (lit "ActiveState") sshd, lit "active"); (unit_key false (lit "UnitFileState") sshd, lit "enabled")]).
  set (c1 := snd (operation NotGiven op c)).
  exists systemd, kept, sshd, c, (result_of (operation NotGiven op c)), c1.
  split; [apply systemd_bounded|]. split; [apply systemd_shows|]. split; [apply systemd_stable|]. split; [apply systemd_obeys|]. split; [apply unit_fine|].
  assert (E : operation NotGiven op c = (Ok (result_of (operation NotGiven op c)), c1)) by (apply surely; vm_compute; reflexivity).
  split; [exact E|]. split_and!; [vm_compute; reflexivity|vm_compute; reflexivity|..]; try (intros [H|H]; vm_compute in H; discriminate). intros H; vm_compute in H; discriminate.
Qed.
(** The other way round: the user's unit runs, but it is told to start again, on each run. *)
Example C60_case :
  let op := service systemd fake_hash false sshd (Some (lit "started")) (Some true) true in
  let c := unit_site [(unit_key true (lit "ActiveState") sshd, lit "active"); (unit_key true (lit "UnitFileState") sshd, lit "enabled")] in
  let c1 := snd (operation NotGiven op c) in
  or_success (result_of (operation NotGiven op c)) = true /\ or_changed (result_of (operation NotGiven op c)) = true /\
  history systemd (sysof c) [show_cmd false (lit "ActiveState") sshd; show_cmd false (lit "UnitFileState") sshd; verb_cmd true (lit "start") sshd; verb_cmd true (lit "enable") sshd] (sysof c1) /\
  or_changed (result_of (operation NotGiven op c1)) = true.
Proof.
  intros op c c1. split; [vm_compute; reflexivity|]. split; [vm_compute; reflexivity|]. split; [|vm_compute; reflexivity].
  assert (Hv : forall t, Some (lit "started") = Some t -> exists v, verb_of t v) by (intros t [= <-]; exists (lit "start"); left).
  destruct (C60_partial systemd fake_hash kept systemd_bounded sshd (Some (lit "started")) (Some true) NotGiven c (Ok (result_of (operation NotGiven op c))) c1 systemd_shows systemd_stable Hv) as (_ & l & l1 & l2 & H1 & H2 & H3 & _ & H4).
  { apply surely. vm_compute. reflexivity. }
  destruct (H4 _ eq_refl) as (_ & -> & _).
  destruct H2 as [[[[_ [H|H]]|[H _]] _]|(_ & v & Hw & ->)]; [exfalso; vm_compute in H; discriminate..|].
  destruct H3 as [[H _]|[_ ->]]; [exfalso; unfold enabled_given, enabled in H; assert (K : true = true) by reflexivity; apply H in K; vm_compute in K; discriminate|].
  unfold verb_of in Hw. rewrite !elem_of_cons in Hw. destruct Hw as [Hw|[Hw|[Hw|[Hw|Hw]]]]; [|exfalso; vm_compute in Hw; discriminate..|inversion Hw]. injection Hw as ->. exact H1.
Qed.

(** * C71: systemd.daemon_reload *)
Section reload.
  Variable exec : proc -> M xres.
  Variable sha512 : bytes -> bytes.
  Hypothesis Hb : bounded exec.
  Definition reload_cmd (user : bool) : list pystr := manager_of user ++ [lit "daemon-reload"].
  Definition reload_before : state := [(k_reloaded, VBool false)].
  Definition reload_after : state := [(k_reloaded, VBool true)].
  Lemma reload_plain dry user : yields (daemon_reload exec sha512 dry user) new_op
    (_ ← (if dry then mret tt else sh exec sha512 (reload_cmd user)); mret (OpRes true true reload_before reload_after None)).
  Proof.
    unfold daemon_reload, new_op. apply yields_initial. apply yields_final. eapply yields_bind.
    - destruct dry; [apply keeps_ret|]. destruct user; apply keeps_lift.
    - intros []. eapply yields_ext; [apply keeps_yields, keeps_success|]. reflexivity.
  Qed.
  (** The service manager of the system, or of the user, reloads its units exactly once, which is reported as a change; if the
      command fails so does the operation. *)
  Theorem C71 user a c r c' : operation a (daemon_reload exec sha512 false user) c = (r, c') ->
    c' = set_remote (c_remote c') c /\
    exists l, history exec (sysof c) l (sysof c') /\ l `prefix_of` [reload_cmd user] /\
      forall x, r = Ok x -> or_success x = true /\ or_changed x = true /\ l = [reload_cmd user] /\
        exists p s out err, unaffected (sysof c) s /\ p_argv p = reload_cmd user /\ exec p s = (Ok (XExit 0 out err), sysof c').
  Proof.
    intros E. rewrite (operation_plain _ _ _ _ (reload_plain false user)) in E. apply verdict_outcome in E as (x & E & Ho).
    apply bind_spec in E as [([] & c1 & E1 & E)|(e & E1 & ->)].
    - injection E as <- <-. destruct (sh_does exec sha512 _ Hb _ _ _ E1) as (H0 & l & H1 & [(-> & _ & e & [=])|(-> & p & s & y & K1 & K2 & K3 & K4)]).
      destruct (K4 eq_refl) as (out & err & ->). split; [exact H0|]. eexists. split; [exact H1|]. split; [reflexivity|]. intros z ->. cbn in Ho. destruct Ho as [[[= ->] _]|([=] & _)].
      split; [reflexivity|]. split; [reflexivity|]. split; [reflexivity|]. exists p, s, out, err. auto.
    - destruct (sh_does exec sha512 _ Hb _ _ _ E1) as (H0 & l & H1 & H2). split; [exact H0|]. exists l. split; [exact H1|]. split.
      + destruct H2 as [(-> & _)|(-> & _)]; [apply prefix_nil|reflexivity].
      + cbn in Ho. intros z Hz. congruence.
  Qed.
End reload.
Example C71_case :
  let c := unit_site [] in let o := operation NotGiven (daemon_reload systemd fake_hash false true) c in
  or_success (result_of o) = true /\ or_changed (result_of o) = true /\ history systemd (sysof c) [reload_cmd true] (sysof (snd o)).
Proof.
  intros c o. split; [vm_compute; reflexivity|]. split; [vm_compute; reflexivity|].
  destruct (C71 systemd fake_hash systemd_bounded true NotGiven c (Ok (result_of o)) (snd o)) as (_ & l & H1 & _ & H2); [apply surely; vm_compute; reflexivity|].
  destruct (H2 _ eq_refl) as (_ & _ & -> & _). exact H1.
Qed.
Print Assumptions C59_partial.
Print Assumptions C59_invalid.
Print Assumptions C59_effect.
Print Assumptions C59_works.
Print Assumptions C60_partial.
Print Assumptions C59_refuted.
Print Assumptions C60_refuted.
Print Assumptions C71.
