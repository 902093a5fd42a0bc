(** C92: interrupted changes of packages, units and checkouts can be repeated. *)
From Coq Require Import Lia ZifyBool ZifyN ZifyNat.
From stdpp Require Import gmap.
From Verif Require Import Base Utf8 Dict_proofs Codec Spec_Codec Paths Sys Spec_Sys Sys_proofs Dispatcher Client Spec_Session Spec_Remote Remote_run Control Spec_Control Control_proofs
  Walk_proofs Quiet Prop_Control Op Op_proofs Files Files_plain Spec_Files Shell_proofs Steps Remote_examples Files_examples Prop_Files System Spec_Commands Commands_proofs Package_proofs Prop_Package
  Spec_Account Spec_Service Prop_Service Spec_Git Git_proofs Git_prog Prop_Git Spec_Repeat.
Local Open Scope nat_scope.

Lemma history_steps exec (R : os -> os -> Prop) : (forall s s', unaffected s s' -> R s s') -> (forall s1 s2 s3, R s1 s2 -> R s2 s3 -> R s1 s3) ->
  forall s l s', history exec s l s' -> (forall q s x s', p_argv q ∈ l -> exec q s = (x, s') -> R s s') -> R s s'.
Proof.
  intros Hu Ht s l s' H. induction H as [s s' H|s s1 p x s2 l s' H1 H2 _ IH]; intros Hl; [auto|].
  eapply Ht; [apply Hu, H1|]. eapply Ht; [eapply Hl; [left|exact H2]|]. apply IH. intros q t y t' Hq. apply Hl. right. exact Hq.
Qed.
Lemma tries_steps op (R : os -> os -> Prop) : (forall s s', unaffected s s' -> R s s') -> (forall s1 s2 s3, R s1 s2 -> R s2 s3 -> R s1 s3) ->
  (forall a c r c', op a c = (r, c') -> R (sysof c) (sysof c')) -> forall s s', tries op s s' -> R s s'.
Proof. intros Hu Ht Ho s s' H. induction H as [s s' H|s a c r c' s' H1 H2 _ IH]; [auto|]. eapply Ht; [apply Hu, H1|]. eapply Ht; [eapply Ho, H2|exact IH]. Qed.

Section packages.
  Variable exec : proc -> M xres.
  Variable sha512 : bytes -> bytes.
  Variable set_order : list pystr -> list pystr.
  Hypothesis Horder : forall l, set_order l ≡ₚ l.
  Variable has : os -> pystr -> Prop.
  Hypothesis Hstable : stable has.
  Hypothesis Hb : bounded exec.

  (** Installing never loses a package, removing never brings one, and a success means that all of it is done. *)
  Theorem C92_pacman packages (present : bool) opts s0 a c x c' :
    answers exec has pacman_ask by_code -> installs exec has (pacman_sync (opt_list opts)) -> removes exec has (pacman_erase (opt_list opts)) ->
    let op a := operation a (pacman_package exec sha512 false set_order packages present opts) in
    tries op s0 (sysof c) -> op a c = (Ok x, c') ->
    or_success x = true /\ (forall p, p ∈ packages -> if present then has (sysof c') p else ~ has (sysof c') p) /\
    forall o, if present then has s0 o -> has (sysof c') o else has (sysof c') o -> has s0 o.
  Proof.
    intros H1 H2 H3 op Ht E. set (R := fun s s' => forall o, if present then has s o -> has s' o else has s' o -> has s o).
    assert (Hone : forall a c r c', op a c = (r, c') -> R (sysof c) (sysof c')).
    { intros a1 c1 r1 c2 E1. apply (C57_pacman exec sha512 set_order Horder has Hstable Hb) in E1 as (_ & l & _ & asked & acted & _ & _ & _ & _ & K & _); [exact K|assumption..]. }
    assert (HR : R s0 (sysof c)).
    { eapply tries_steps; [..|exact Hone|exact Ht].
      - intros s s' Hu o. destruct present; intros Ho; [eapply Hstable; eassumption|]. eapply Hstable; [|exact Ho]. rewrite Hu. unfold unaffected. destruct s; reflexivity.
      - intros s1 s2 s3 K1 K2 o. specialize (K1 o). specialize (K2 o). destruct present; auto. }
    pose proof (Hone _ _ _ _ E) as HR2.
    apply (C57_pacman exec sha512 set_order Horder has Hstable Hb) in E as (_ & l & _ & asked & acted & _ & _ & _ & _ & _ & _ & F); [|assumption..].
    destruct (F x eq_refl) as (F1 & _ & _ & F2 & _). split; [exact F1|]. split; [exact F2|]. intros o. specialize (HR o). specialize (HR2 o). destruct present; auto.
  Qed.
  Theorem C92_portage packages (present oneshot : bool) opts s0 a c x c' :
    answers exec has emerge_ask (by_text emerge_marker) -> installs exec has (emerge_add oneshot (opt_list opts)) -> removes exec has (emerge_erase (opt_list opts)) ->
    let op a := operation a (portage_package exec sha512 false set_order packages present oneshot opts) in
    tries op s0 (sysof c) -> op a c = (Ok x, c') ->
    or_success x = true /\ (forall p, p ∈ packages -> if present then has (sysof c') p else ~ has (sysof c') p) /\
    forall o, if present then has s0 o -> has (sysof c') o else has (sysof c') o -> has s0 o.
  Proof.
    intros H1 H2 H3 op Ht E. set (R := fun s s' => forall o, if present then has s o -> has s' o else has s' o -> has s o).
    assert (Hone : forall a c r c', op a c = (r, c') -> R (sysof c) (sysof c')).
    { intros a1 c1 r1 c2 E1. apply (C57_portage exec sha512 set_order Horder has Hstable Hb) in E1 as (_ & l & _ & asked & acted & _ & _ & _ & _ & K & _); [exact K|assumption..]. }
    assert (HR : R s0 (sysof c)).
    { eapply tries_steps; [..|exact Hone|exact Ht].
      - intros s s' Hu o. destruct present; intros Ho; [eapply Hstable; eassumption|]. eapply Hstable; [|exact Ho]. rewrite Hu. unfold unaffected. destruct s; reflexivity.
      - intros s1 s2 s3 K1 K2 o. specialize (K1 o). specialize (K2 o). destruct present; auto. }
    pose proof (Hone _ _ _ _ E) as HR2.
    apply (C57_portage exec sha512 set_order Horder has Hstable Hb) in E as (_ & l & _ & asked & acted & _ & _ & _ & _ & _ & _ & F); [|assumption..].
    destruct (F x eq_refl) as (F1 & _ & _ & F2 & _). split; [exact F1|]. split; [exact F2|]. intros o. specialize (HR o). specialize (HR2 o). destruct present; auto.
  Qed.
End packages.
Print Assumptions C92_pacman.
Print Assumptions C92_portage.

Section units.
  Variable exec : proc -> M xres.
  Variable sha512 : bytes -> bytes.
  Variable value : properties.
  Hypothesis Hb : bounded exec.
  (** What was asked for holds, and what was not asked for is as it was before the first attempt. *)
  Theorem C92_service unit target en s0 a c x c' : shows exec value -> value_stable value -> obeys exec value -> confined_verbs exec value ->
    (forall t, target = Some t -> exists v, verb_of t v) ->
    let op a := operation a (service exec sha512 false unit target en false) in
    tries op s0 (sysof c) -> op a c = (Ok x, c') ->
    or_success x = true /\
    match target with
    | None => running value (sysof c') false unit <-> running value s0 false unit
    | Some t => if decide (t = lit "stopped") then ~ running value (sysof c') false unit else running value (sysof c') false unit
    end /\
    match en with
    | None => enabled value (sysof c') false unit <-> enabled value s0 false unit
    | Some e => enabled_given value (sysof c') false unit e
    end.
  Proof.
    intros H1 H2 H3 H4 H5 op Ht E.
    set (R := fun s s' => (target = None -> running value s' false unit <-> running value s false unit) /\ (en = None -> enabled value s' false unit <-> enabled value s false unit)).
    assert (Hu : forall s s', unaffected s s' -> R s s') by (intros s s' Hu; split; intros _; unfold running, enabled; rewrite !(H2 _ _ _ _ _ Hu); reflexivity).
    assert (Htr : forall s1 s2 s3, R s1 s2 -> R s2 s3 -> R s1 s3) by (intros s1 s2 s3 [A1 A2] [B1 B2]; split; intros Hn; [rewrite (B1 Hn); auto|rewrite (B2 Hn); auto]).
    assert (HR : R s0 (sysof c)).
    { eapply tries_steps; [exact Hu|exact Htr| |exact Ht]. intros a1 c1 r c2 E1.
      destruct (C59_partial exec sha512 value Hb _ _ _ _ _ _ _ H1 H2 H5 E1) as (_ & l & l1 & l2 & Hh & A1 & A2 & Hpre & _).
      apply (history_steps exec R Hu Htr _ l _ Hh). intros q s y s' Hq Hx. destruct Hpre as [k Hk].
      assert (Hin : p_argv q ∈ [show_cmd false (lit "ActiveState") unit; show_cmd false (lit "UnitFileState") unit] ++ l1 ++ l2) by (rewrite Hk; apply elem_of_app; left; exact Hq).
      apply elem_of_app in Hin as [Hin|[Hin|Hin]%elem_of_app].
      - apply Hu. rewrite !elem_of_cons in Hin. destruct Hin as [Hin|[Hin|Hin]]; [..|inversion Hin]; destruct (H1 q s y s' _ _ _ Hin Hx) as (K & _); exact K.
      - destruct target as [t|]; cbn in A1; [|subst l1; inversion Hin]. destruct A1 as [[_ ->]|[_ (v & Hv & ->)]]; [inversion Hin|]. apply elem_of_list_singleton in Hin.
        split; [discriminate|]. intros _. apply (proj1 (H4 q s y s' false unit v Hin Hx)). unfold verb_of in Hv. rewrite !elem_of_cons in Hv. rewrite !elem_of_cons.
        destruct Hv as [Hv|[Hv|[Hv|[Hv|Hv]]]]; [..|inversion Hv]; injection Hv as _ ->; tauto.
      - destruct en as [e|]; cbn in A2; [|subst l2; inversion Hin]. destruct A2 as [[_ ->]|[_ ->]]; [inversion Hin|]. apply elem_of_list_singleton in Hin.
        split; [|discriminate]. intros _. apply (proj2 (H4 q s y s' false unit _ Hin Hx)). rewrite !elem_of_cons. destruct e; tauto. }
    destruct (C59_effect exec sha512 value Hb _ _ _ _ _ _ _ H1 H2 H3 H5 E) as (F1 & F2 & F3). split; [exact F1|]. destruct HR as [R1 R2]. split.
    - destruct target; [exact F2|]. rewrite F2. auto.
    - destruct en; [exact F3|]. rewrite F3. auto.
  Qed.
End units.
Print Assumptions C92_service.

Section checkouts.
  Variable exec : proc -> M xres.
  Variable sha512 : bytes -> bytes.
  Variable up : os -> pystr -> upstream.
  Variable checkout : os -> pystr -> option work.
  Variable behind : pystr -> pystr -> Prop.
  Hypothesis Hb : bounded exec.
  Hypothesis Hg : git_program exec up checkout behind.
  Hypothesis Hat : git_atomic exec up checkout behind.
  Hypothesis Hrefl : forall h, behind h h.

  Lemma branch_tip u branch f t : branch_ref u branch = Some f -> dget f (up_refs u) = Some t -> tip u branch = Some t.
  Proof. unfold branch_ref, tip. destruct branch as [b|]; [|congruence]. destruct (dget (heads b) (up_refs u)) eqn:E; [|discriminate]. intros [= <-]. congruence. Qed.

  (** Full statement: also the submodules are there in the end.  It is false, see below. *)
  Theorem C92_git_partial url path branch depth rebase ff submodules recursive shallow s0 a c x c' : short path -> literal (default [] branch) -> distinct (up s0 url) branch ->
    (forall w, checkout s0 path = Some w -> w_origin w = url -> follows behind (up s0 url) branch w) ->
    let op a := operation a (repo exec sha512 false url path branch true depth rebase ff submodules recursive shallow) in
    tries op s0 (sysof c) -> op a c = (Ok x, c') -> or_success x = true ->
    up (sysof c') = up s0 /\ current up checkout url path branch (sysof c').
  Proof using Hb Hg Hat Hrefl.
    intros Hp Hl Hd Hf op Ht E Hx.
    set (R := fun s s' => up s' = up s /\ ((forall w, checkout s path = Some w -> w_origin w = url -> follows behind (up s url) branch w) -> (forall w, checkout s' path = Some w -> w_origin w = url -> follows behind (up s url) branch w))).
    assert (Hu : forall s s', unaffected s s' -> R s s').
    { intros s s' Hu. destruct (g_stable _ _ _ _ Hg s s' Hu) as [K1 K2]. split; [exact K1|]. rewrite K2. auto. }
    assert (Htr : forall s1 s2 s3, R s1 s2 -> R s2 s3 -> R s1 s3) by (intros s1 s2 s3 [A1 A2] [B1 B2]; split; [congruence|]; rewrite A1 in B2; auto).
    assert (HR : R s0 (sysof c)).
    { eapply tries_steps; [exact Hu|exact Htr| |exact Ht]. intros a1 c1 r c2 E1.
      destruct (C61_partial exec sha512 up checkout behind Hb Hg url path branch true depth rebase ff submodules recursive shallow a1 c1 r c2 Hp E1) as (_ & l & Hh & there & lags & Hpre & _).
      apply (history_steps exec R Hu Htr _ l _ Hh). intros q s y s' Hq Hy.
      assert (Hin : p_argv q ∈ repo_plan url path branch true depth rebase ff submodules recursive shallow there lags) by (destruct Hpre as [k ->]; apply elem_of_app; left; exact Hq).
      assert (Hsub : p_argv q ∈ submodule_plan path depth submodules recursive shallow -> R s s').
      { unfold submodule_plan. destruct submodules; [|intros H; inversion H]. intros H%elem_of_list_singleton. destruct (g_submodules _ _ _ _ Hg q s y s' _ _ _ H Hy) as [K1 K2]. split; [exact K1|]. rewrite K2. auto. }
      assert (Hask : forall pat, p_argv q = git_list url pat -> R s s') by (intros pat H; apply Hu, (g_list _ _ _ _ Hg q s y s' _ _ H Hy)).
      unfold repo_plan in Hin. destruct there.
      - apply elem_of_cons in Hin as [Hin|[Hin|Hin]%elem_of_cons]; [apply Hu, (g_head _ _ _ _ Hg q s y s' _ Hin Hy)|eapply Hask, Hin|].
        destruct lags; [|inversion Hin]. apply elem_of_app in Hin as [Hin|Hin]; [|exact (Hsub Hin)].
        apply elem_of_cons in Hin as [Hin|Hin%elem_of_list_singleton]; [apply Hu, (g_origin _ _ _ _ Hg q s y s' _ Hin Hy)|].
        split; [apply (g_pull _ _ _ _ Hg q s y s' _ _ _ _ Hin Hy)|]. intros Hw w Ew Eo.
        destruct (ga_pull _ _ _ _ Hat q s y s' _ _ _ _ Hin Hy) as [K|(w1 & f & t & h & K1 & K2 & K3 & K4 & K5)]; [rewrite K in Ew; auto|].
        rewrite K4 in Ew. injection Ew as <-. cbn in Eo. destruct (Hw w1 K1 Eo) as [F1 F2]. rewrite K2 in F1. symmetry in F1. rewrite Eo in K3. pose proof (branch_tip _ _ _ _ F1 K3) as Htip.
        rewrite (K5 (F2 _ Htip)). split; [cbn; congruence|]. intros t' Ht'. cbn. assert (t' = t) as -> by congruence. apply Hrefl.
      - apply elem_of_app in Hin as [Hin|Hin]; [|exact (Hsub Hin)]. apply elem_of_cons in Hin as [Hin|Hin%elem_of_list_singleton]; [eapply Hask, Hin|].
        set (args := with_depth depth ++ match branch with Some b => [lit "--branch"; b] | None => [] end ++ [lit "--"; url; path]).
        set (opts := match depth with Some d => [(lit "--depth", str_of_Z d)] | None => [] end ++ match branch with Some b => [(lit "--branch", b)] | None => [] end).
        assert (Ho : getopt args = (opts, [url; path])) by (subst args opts; destruct depth, branch; reflexivity).
        assert (Hbr : dget (lit "--branch") opts = branch) by (subst opts; destruct depth, branch; reflexivity).
        split; [apply (g_clone _ _ _ _ Hg q s y s' args opts url path Hin Ho Hy)|]. intros Hw w Ew Eo.
        destruct (ga_clone _ _ _ _ Hat q s y s' args opts url path Hin Ho Hy) as [K|(h & K1 & K2)]; [rewrite K in Ew; auto|].
        rewrite Hbr in *. rewrite K2 in Ew. injection Ew as <-. split; [reflexivity|]. intros t Ht'. cbn. assert (t = h) as -> by congruence. apply Hrefl. }
    destruct HR as [R1 R2].
    destruct (C61_partial exec sha512 up checkout behind Hb Hg url path branch true depth rebase ff submodules recursive shallow a c (Ok x) c' Hp E) as (_ & l & _ & there & lags & _ & U & _ & _ & F).
    split; [congruence|]. destruct (F x eq_refl) as [_ F1]. destruct (F1 Hx) as (_ & _ & F2). rewrite R1 in F2. destruct (F2 Hl Hd (or_intror eq_refl)) as [F3 _]. apply F3. exact (R2 Hf).
  Qed.
End checkouts.
Print Assumptions C92_git_partial.

(** Programs that fail once: as long as the clock is behind, the commands chosen by [bad] end with 1 and set the clock. *)
Definition set_now (n : Z) (s : os) : os := OS (o_passwd s) (o_group s) (o_shadow s) (o_env s) (o_fs s) (o_uid s) (o_gid s) (o_groups s) (o_cwd s) n (o_faults s).
Definition stumble (bad : list pystr -> bool) (exec : proc -> M xres) (q : proc) : M xres := fun s =>
  if bad (p_argv q) && (o_now s <? 0)%Z then (Ok (XExit 1 [] []), set_now 0 s) else exec q s.
Lemma stumble_cases bad exec q s x s' : stumble bad exec q s = (x, s') ->
  (bad (p_argv q) = true /\ x = Ok (XExit 1 [] []) /\ s' = set_now 0 s) \/ exec q s = (x, s').
Proof. unfold stumble. destruct (bad (p_argv q)); [|auto]. destruct (o_now s <? 0)%Z; cbn [andb]; [|auto]. intros [= <- <-]. auto. Qed.
Lemma stumble_good bad exec q s : bad (p_argv q) = false -> stumble bad exec q s = exec q s.
Proof. intros E. unfold stumble. rewrite E. reflexivity. Qed.
Lemma stumble_bounded bad exec : bounded exec -> bounded (stumble bad exec).
Proof.
  intros Hb q s rc out err s' E. apply stumble_cases in E as [(_ & [= -> -> ->] & _)|E]; [|eapply Hb, E]. split; [unfold in_i32; lia|]. split; unfold small; cbn; lia.
Qed.
Lemma tries_once op s a c r c' : sysof c = s -> op a c = (r, c') -> tries op s (sysof c').
Proof. intros <- E. eapply tries_more; [apply unaffected_refl|exact E|]. apply tries_none, unaffected_refl. Qed.
Definition error_of {A} (x : result opres * A) : exn := match x with (Err e, _) => e | _ => IndexError end.
Lemma failed (x : result opres * ctl) : (if fst x then false else true) = true -> x = (Err (error_of x), snd x).
Proof. destruct x as [[r|e] c]; cbn; [discriminate|reflexivity]. Qed.

(** Two packages, and the installation of the second is interrupted. *)
Definition arch_weak := stumble (fun l => bool_decide (l = pacman_sync [] git)) arch.
Lemma arch_weak_contract : answers arch_weak listed pacman_ask by_code /\ installs arch_weak listed (pacman_sync []) /\ removes arch_weak listed (pacman_erase []) /\ bounded arch_weak.
Proof.
  destruct arch_contract as ((H1 & H2 & H3) & H4 & _). split; [|split; [|split]].
  - intros p q s x s' E Ex. apply stumble_cases in Ex as [(K & _)|Ex]; [|exact (H1 p q s x s' E Ex)]. apply bool_decide_eq_true in K. rewrite E in K. discriminate K.
  - intros p q s x s' E Ex. apply stumble_cases in Ex as [(_ & -> & ->)|Ex]; [|exact (H2 p q s x s' E Ex)]. split; [auto|intros out err [=]].
  - intros p q s x s' E Ex. apply stumble_cases in Ex as [(_ & -> & ->)|Ex]; [|exact (H3 p q s x s' E Ex)]. split; [auto|intros out err [=]].
  - apply stumble_bounded, H4.
Qed.
Definition weak (e : list (pystr * pystr)) : ctl := on (set_now (-1) (set_env e site)) ex_base.
Definition install_two := operation NotGiven (pacman_package arch_weak fake_hash false (fun l => l) [vim; git] true None).
Definition pk0 : ctl := weak [(nano, [])].
Definition pk1 : ctl := snd (install_two pk0).
Definition pk2 : ctl := snd (install_two pk1).
Example C92_pacman_case : answers arch_weak listed pacman_ask by_code /\ installs arch_weak listed (pacman_sync []) /\ removes arch_weak listed (pacman_erase []) /\ bounded arch_weak /\
  install_two pk0 = (Err (error_of (install_two pk0)), pk1) /\ (o_env (sysof pk1)).*1 = [nano; vim] /\
  tries (fun a => operation a (pacman_package arch_weak fake_hash false (fun l => l) [vim; git] true None)) (sysof pk0) (sysof pk1) /\
  install_two pk1 = (Ok (result_of (install_two pk1)), pk2) /\ (o_env (sysof pk2)).*1 = [nano; vim; git].
Proof.
  destruct arch_weak_contract as (H1 & H2 & H3 & H4). split; [exact H1|]. split; [exact H2|]. split; [exact H3|]. split; [exact H4|].
  assert (E : install_two pk0 = (Err (error_of (install_two pk0)), pk1)) by (apply failed; vm_compute; reflexivity). split; [exact E|].
  split; [vm_compute; reflexivity|]. split; [exact (tries_once (fun a => operation a (pacman_package arch_weak fake_hash false (fun l => l) [vim; git] true None)) _ NotGiven pk0 _ pk1 eq_refl E)|].
  split; [apply surely; vm_compute; reflexivity|vm_compute; reflexivity].
Qed.

(** A unit that is started, but not enabled at the first attempt. *)
Definition systemd_weak := stumble (fun l => bool_decide (l = verb_cmd false (lit "enable") sshd)) systemd.
Lemma systemd_all q s x s' : systemd q s = (x, s') -> (exists out err, x = Ok (XExit 0 out err)) \/ s' = s.
Proof.
  unfold systemd. cbv zeta. intros E. repeat match type of E with (match ?y with _ => _ end) = _ => destruct y end; injection E as <- <-; eauto.
Qed.
Lemma systemd_weak_contract : shows systemd_weak kept /\ obeys systemd_weak kept /\ confined_verbs systemd_weak kept /\ bounded systemd_weak.
Proof.
  split; [|split; [|split]].
  - intros q s x s' user prop unit E Ex. apply stumble_cases in Ex as [(K & _)|Ex]; [|eapply systemd_shows; eassumption]. apply bool_decide_eq_true in K. rewrite E in K. exfalso. revert K. clear. destruct user; vm_compute; discriminate.
  - intros q s out err s' user unit verb E Ex. apply stumble_cases in Ex as [(_ & K & _)|Ex]; [discriminate K|eapply systemd_obeys; eassumption].
  - intros q s x s' user unit verb E Ex. apply stumble_cases in Ex as [(_ & _ & ->)|Ex]; [split; reflexivity|]. destruct (systemd_all q s x s' Ex) as [(out & err & ->)| ->]; [|split; reflexivity].
    destruct (systemd_obeys q s out err s' user unit verb E Ex) as (K1 & K2 & K3 & K4). rewrite !elem_of_cons. split.
    + intros [H|[H|[H|[H|H]]]]; [..|inversion H]; try (apply K1; rewrite !elem_of_cons; tauto). apply K2, H.
    + intros [H|[H|H]]; [..|inversion H]; [apply K3, H|apply K4, H].
  - apply stumble_bounded, systemd_bounded.
Qed.
Definition start_enable := operation NotGiven (service systemd_weak fake_hash false sshd (Some (lit "started")) (Some true) false).
Definition un0 : ctl := weak [].
Definition un1 : ctl := snd (start_enable un0).
Definition un2 : ctl := snd (start_enable un1).
Example C92_service_case : shows systemd_weak kept /\ value_stable kept /\ obeys systemd_weak kept /\ confined_verbs systemd_weak kept /\ bounded systemd_weak /\
  start_enable un0 = (Err (error_of (start_enable un0)), un1) /\ running kept (sysof un1) false sshd /\ kept (sysof un1) false (lit "UnitFileState") sshd = [] /\
  tries (fun a => operation a (service systemd_weak fake_hash false sshd (Some (lit "started")) (Some true) false)) (sysof un0) (sysof un1) /\
  start_enable un1 = (Ok (result_of (start_enable un1)), un2) /\ or_changed (result_of (start_enable un1)) = true.
Proof.
  destruct systemd_weak_contract as (H1 & H2 & H3 & H4). split; [exact H1|]. split; [apply systemd_stable|]. split; [exact H2|]. split; [exact H3|]. split; [exact H4|].
  assert (E : start_enable un0 = (Err (error_of (start_enable un0)), un1)) by (apply failed; vm_compute; reflexivity). split; [exact E|].
  split; [left; vm_compute; reflexivity|]. split; [vm_compute; reflexivity|].
  split; [exact (tries_once (fun a => operation a (service systemd_weak fake_hash false sshd (Some (lit "started")) (Some true) false)) _ NotGiven un0 _ un1 eq_refl E)|].
  split; [apply surely; vm_compute; reflexivity|vm_compute; reflexivity].
Qed.

(** git with submodules: [modules p] is noted in [o_env] when they have been fetched. *)
Definition k_mod (p : pystr) := lit "modules " ++ p.
Definition sub_path (argv : list pystr) : option pystr :=
  match argv with
  | _ :: c :: rest => if str_eqb c (lit "-C") then match rest with p :: v :: _ => if str_eqb v (lit "submodule") then Some p else None | _ => None end else None
  | _ => None
  end.
Definition fillgit (q : proc) : M xres := fun s =>
  match sub_path (p_argv q) with Some p => (Ok (XExit 0 [] []), set_env (dset (k_mod p) [] (o_env s)) s) | None => gitx q s end.
Definition git_weak := stumble (fun l => if sub_path l then true else false) fillgit.
Definition have_modules (s : os) (p : pystr) : Prop := dhas (k_mod p) (o_env s) = true.
Lemma git_weak_other q s : sub_path (p_argv q) = None -> git_weak q s = gitx q s.
Proof. intros E. unfold git_weak. rewrite stumble_good by (rewrite E; reflexivity). unfold fillgit. rewrite E. reflexivity. Qed.
Lemma git_weak_sub q s x s' path depth recursive : p_argv q = git_submodules path depth recursive -> git_weak q s = (x, s') ->
  (x = Ok (XExit 1 [] []) /\ s' = set_now 0 s) \/ (x = Ok (XExit 0 [] []) /\ s' = set_env (dset (k_mod path) [] (o_env s)) s).
Proof.
  intros E Ex. apply stumble_cases in Ex as [(_ & K)|Ex]; [left; exact K|]. unfold fillgit in Ex. rewrite E in Ex. replace (sub_path (git_submodules path depth recursive)) with (Some path) in Ex by reflexivity.
  injection Ex as <- <-. auto.
Qed.
Lemma mod_up p s : gup (set_env (dset (k_mod p) [] (o_env s)) s) = gup s.
Proof. unfold gup, srv_up, dhas. cbn [o_env set_env]. rewrite dget_dset_other by (vm_compute; congruence). reflexivity. Qed.
Lemma mod_checkout p s o : srv_checkout (set_env (dset (k_mod p) [] (o_env s)) s) o = srv_checkout s o.
Proof. unfold srv_checkout. cbn [o_env set_env]. rewrite !dget_dset_other by (vm_compute; congruence). reflexivity. Qed.
Lemma git_weak_ok : git_program git_weak gup srv_checkout (fun _ _ => True).
Proof.
  destruct (git_ok ex_server) as [H1 H2 H3 H4 H5 H6 H7]. split.
  - exact H1.
  - intros q s x s' path E Ex. rewrite git_weak_other in Ex by (rewrite E; reflexivity). exact (H2 q s x s' path E Ex).
  - intros q s x s' url pat E Ex. rewrite git_weak_other in Ex by (rewrite E; reflexivity). exact (H3 q s x s' url pat E Ex).
  - intros q s x s' path E Ex. rewrite git_weak_other in Ex by (rewrite E; reflexivity). exact (H4 q s x s' path E Ex).
  - intros q s x s' args opts url path E Eo Ex. rewrite git_weak_other in Ex by (rewrite E; reflexivity). exact (H5 q s x s' args opts url path E Eo Ex).
  - intros q s x s' path depth rebase ff E Ex. rewrite git_weak_other in Ex by (rewrite E; reflexivity). exact (H6 q s x s' path depth rebase ff E Ex).
  - intros q s x s' path depth recursive E Ex. destruct (git_weak_sub _ _ _ _ _ _ _ E Ex) as [(_ & ->)|(_ & ->)]; [split; reflexivity|]. split; [apply mod_up|]. intros; apply mod_checkout.
Qed.
Lemma git_weak_bounded : bounded git_weak.
Proof.
  apply stumble_bounded. intros q s rc out err s'. unfold fillgit. destruct (sub_path (p_argv q)); [|apply (git_bounded ex_server)].
  intros [= <- <- <- _]. split; [unfold in_i32; lia|]. split; unfold small; cbn; lia.
Qed.
Lemma git_weak_atomic : git_atomic git_weak gup srv_checkout (fun _ _ => True).
Proof.
  split.
  - intros q s x s' args opts url path E Eo Ex. rewrite git_weak_other in Ex by (rewrite E; reflexivity).
    assert (E1 : gitx q s = clone_prog ex_server opts url path s).
    { unfold gitx, git_exec. rewrite E. change (match getopt args with (opts, [url; p]) => clone_prog ex_server opts url p s | _ => done 129 s end = clone_prog ex_server opts url path s). rewrite Eo. reflexivity. }
    rewrite E1 in Ex. unfold clone_prog in Ex. cbv zeta in Ex. destruct (srv_checkout s path) as [w|] eqn:Ew; [injection Ex as <- <-; left; exact Ew|].
    destruct (tip (srv_up ex_server s url) (dget (lit "--branch") opts)) as [h|] eqn:Et; [|injection Ex as <- <-; left; exact Ew].
    injection Ex as <- <-. right. exists h. split; [exact Et|]. exact (record_checkout path _ (o_env s) s).
  - intros q s x s' path depth rebase ff E Ex. rewrite git_weak_other in Ex by (rewrite E; reflexivity).
    assert (E1 : gitx q s = pull_prog ex_server path s) by (unfold gitx, git_exec; rewrite E; reflexivity). rewrite E1 in Ex. unfold pull_prog in Ex.
    destruct (srv_checkout s path) as [w|] eqn:Ew; [|injection Ex as <- <-; left; exact Ew].
    destruct (w_follows w) as [f|] eqn:Ef; [|injection Ex as <- <-; left; exact Ew].
    destruct (dget f (up_refs (srv_up ex_server s (w_origin w)))) as [t|] eqn:Et; [|injection Ex as <- <-; left; exact Ew].
    injection Ex as <- <-. right. exists w, f, t, t. split; [reflexivity|]. split; [exact Ef|]. split; [exact Et|]. split; [apply record_checkout|auto].
Qed.
Lemma git_weak_fills : fills_submodules git_weak have_modules.
Proof.
  split.
  - intros s s' path H. rewrite H. reflexivity.
  - intros q s out err s' path depth recursive E Ex. destruct (git_weak_sub _ _ _ _ _ _ _ E Ex) as [([=] & _)|(_ & ->)]. unfold have_modules, dhas. cbn [o_env set_env]. rewrite dget_dset_same. reflexivity.
Qed.

Definition fetch := operation NotGiven (repo git_weak fake_hash false ex_url p_co (Some b_dev) true None false true true true false).
Definition rp0 : ctl := weak [].
Definition rp1 : ctl := snd (fetch rp0).
Definition rp2 : ctl := snd (fetch rp1).
Example C92_git_case : bounded git_weak /\ git_program git_weak gup srv_checkout (fun _ _ => True) /\ git_atomic git_weak gup srv_checkout (fun _ _ => True) /\
  short p_co /\ literal b_dev /\ distinct (gup (sysof rp0) ex_url) (Some b_dev) /\ srv_checkout (sysof rp0) p_co = None /\
  tries (fun a => operation a (repo git_weak fake_hash false ex_url p_co (Some b_dev) true None false true true true false)) (sysof rp0) (sysof rp1) /\
  fetch rp0 = (Err (error_of (fetch rp0)), rp1) /\ fetch rp1 = (Ok (result_of (fetch rp1)), rp2) /\ or_success (result_of (fetch rp1)) = true.
Proof.
  split; [apply git_weak_bounded|]. split; [apply git_weak_ok|]. split; [apply git_weak_atomic|]. destruct C61_case as (_ & _ & Hs & Hl & _). split; [exact Hs|]. split; [exact Hl|].
  split; [assert (E : gup (sysof rp0) = ex_server false) by (vm_compute; reflexivity); rewrite E; exact (dev_distinct false)|]. split; [vm_compute; reflexivity|].
  assert (E : fetch rp0 = (Err (error_of (fetch rp0)), rp1)) by (apply failed; vm_compute; reflexivity).
  split; [exact (tries_once (fun a => operation a (repo git_weak fake_hash false ex_url p_co (Some b_dev) true None false true true true false)) _ NotGiven rp0 _ rp1 eq_refl E)|].
  split; [exact E|]. split; [apply surely; vm_compute; reflexivity|vm_compute; reflexivity].
Qed.

(** Full statement (false): when an attempt with submodules succeeds, the submodules are there.  The submodules of a fresh clone could not be fetched and the operation
    fails; the next attempt finds the newest commit, succeeds without doing anything, and does not even try to fetch them, although this would work now. *)
Theorem C92_submodules_refuted : exists exec up checkout behind ready url path b c e c1 x c2,
  bounded exec /\ git_program exec up checkout behind /\ git_atomic exec up checkout behind /\ fills_submodules exec ready /\
  short path /\ literal b /\ distinct (up (sysof c) url) (Some b) /\ checkout (sysof c) path = None /\
  let op := operation NotGiven (repo exec fake_hash false url path (Some b) true None false true true true false) in
  op c = (Err e, c1) /\ op c1 = (Ok x, c2) /\ or_success x = true /\ or_changed x = false /\ ~ ready (sysof c2) path /\
  forall q, p_argv q = git_submodules path None true -> exists s', exec q (sysof c2) = (Ok (XExit 0 [] []), s') /\ ready s' path.
Proof.
  exists git_weak, gup, srv_checkout, (fun _ _ => True), have_modules, ex_url, p_co, b_dev, rp0, (error_of (fetch rp0)), rp1, (result_of (fetch rp1)), rp2.
  destruct C92_git_case as (H1 & H2 & H3 & H4 & H5 & H6 & H7 & _ & H8 & H9 & H10).
  split; [exact H1|]. split; [exact H2|]. split; [exact H3|]. split; [exact git_weak_fills|]. split; [exact H4|]. split; [exact H5|]. split; [exact H6|]. split; [exact H7|].
  cbv zeta. split; [exact H8|]. split; [exact H9|]. split; [exact H10|]. split; [vm_compute; reflexivity|]. split; [vm_compute; discriminate|].
  intros q E. assert (En : (o_now (sysof rp2) <? 0)%Z = false) by (vm_compute; reflexivity).
  exists (set_env (dset (k_mod p_co) [] (o_env (sysof rp2))) (sysof rp2)). split.
  - unfold git_weak, stumble. rewrite En, andb_false_r. unfold fillgit. rewrite E. reflexivity.
  - unfold have_modules, dhas. cbn [o_env set_env]. rewrite dget_dset_same. reflexivity.
Qed.
Print Assumptions C92_submodules_refuted.
