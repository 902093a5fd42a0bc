(** All operations that are only tried: the commands that they run, and what they return. *)
From stdpp Require Import gmap.
From Verif Require Import Base Utf8 Codec Paths Sys Spec_Sys Sys_proofs Dispatcher Client Spec_Remote Control Spec_Control Control_proofs Control_settle Quiet Op Op_proofs Files Files_plain Spec_Files Shell_proofs Steps Dry_proofs Dry_files
  System Spec_Commands Commands_proofs.
Local Open Scope nat_scope.

Section asks.
  Variable exec : proc -> M xres.
  Variable sha512 : bytes -> bytes.
  Variable P : list pystr -> Prop.

  (** only commands with [P] are run *)
  Definition asks {A} (m : W A) : Prop := forall c r c', m c = (r, c') -> exists l, history exec (sysof c) l (sysof c') /\ Forall P l.
  Lemma asks_quiet {A} (m : W A) : quiet m -> asks m.
  Proof. intros H c r c' E. exists []. split; [constructor; exact (H _ _ _ E)|constructor]. Qed.
  Lemma asks_bind {A B} (m : W A) (f : A -> W B) : asks m -> (forall a, asks (f a)) -> asks (m ≫= f).
  Proof.
    intros Hm Hf c r c' E. apply bind_spec in E as [(a & c1 & E1 & E2)|(e & E & ->)]; [|eapply Hm; eassumption].
    destruct (Hm _ _ _ E1) as (l1 & H1 & H2). destruct (Hf a _ _ _ E2) as (l2 & H3 & H4). exists (l1 ++ l2). split; [eapply history_app; eassumption|apply Forall_app; auto].
  Qed.
  Lemma asks_run chk cmd : P cmd -> asks (run exec sha512 cmd None true chk None None None None).
  Proof.
    intros H c r c' E. apply run_does in E as (_ & l & E & [(-> & _)|(-> & _)]); [exists []|exists [cmd]]; (split; [exact E|]); repeat constructor. exact H.
  Qed.
  Lemma asks_crun cmd : P cmd -> asks (crun exec sha512 cmd). Proof. apply asks_run. Qed.
  Lemma asks_finally {A} (m : W A) f : asks m -> quiet f -> asks (wfinally m f).
  Proof.
    intros Hm Hf c r c' E. apply finally_spec in E as (r1 & c1 & E1 & E2). destruct (Hm _ _ _ E1) as (l & H1 & H2). exists l. split; [|exact H2].
    assert (Hu : unaffected (sysof c1) (sysof c')) by (destruct E2 as [(u & E2 & _)|(e & E2 & _)]; exact (Hf _ _ _ E2)).
    rewrite <- (app_nil_r l). eapply history_app; [exact H1|]. constructor. exact Hu.
  Qed.
  Lemma asks_block {A} q (body : settings -> W A) : (forall d, asks (body d)) -> asks (script_defaults exec sha512 q body).
  Proof.
    intros Hb c r c' E. unfold script_defaults in E. destruct (c_script c) as [i|]; [|injection E as _ <-; exists []; split; [constructor; apply unaffected_refl|constructor]].
    revert c r c' E. change (asks (with_defaults exec sha512 i q body)). unfold with_defaults. apply asks_bind; [apply asks_quiet, quiet_defaults|]. intros new. apply asks_bind; [apply asks_quiet, quiet_enter|]. intros d.
    apply asks_finally; [apply Hb|apply quiet_mod; reflexivity].
  Qed.

  Definition oasks {A} (m : O A) : Prop := forall o, asks (m o).
  Lemma oasks_bind {A B} (m : O A) (f : A -> O B) : oasks m -> (forall a, oasks (f a)) -> oasks (m ≫= f).
  Proof. intros Hm Hf o. apply asks_bind; [apply Hm|]. intros [a o']. apply Hf. Qed.
  Lemma oasks_lift {A} (m : W A) : asks m -> oasks (olift m).
  Proof. intros H o. apply asks_bind; [exact H|]. intros. apply asks_quiet, quiet_ret. Qed.
  Lemma oasks_quiet {A} (m : O A) : oquiet m -> oasks m. Proof. intros H o. apply asks_quiet, H. Qed.
  Lemma oasks_defaults {A} q (body : settings -> O A) : (forall d, oasks (body d)) -> oasks (op_defaults exec sha512 q body).
  Proof. intros H o. apply asks_block. intros d. apply H. Qed.
  Lemma asks_operation a (m : O opres) : oasks m -> asks (operation a m).
  Proof. intros H. unfold operation. apply asks_bind; [apply H|]. intros x. apply asks_quiet. destruct (_ && _); [apply quiet_raise|apply quiet_ret]. Qed.
  Lemma history_harmless s l s' : history exec s l s' -> Forall P l -> (forall cmd, P cmd -> harmless exec cmd) -> unaffected s s'.
  Proof.
    intros H Hl Hp. induction H as [s s' H|s s1 p x s2 l s' H1 H2 H3 IH]; [exact H|]. inversion Hl as [|? ? Hc Hl']; subst. specialize (IH Hl').
    pose proof (Hp _ Hc p s1 eq_refl) as H4. rewrite H2 in H4. cbn in H4. eapply unaffected_trans; [exact H1|]. eapply unaffected_trans; eassumption.
  Qed.
End asks.

Section dry.
  Variable exec : proc -> M xres.
  Variable sha512 : bytes -> bytes.
  Variable want_diff : bool.
  Variable search : bool -> pystr -> pystr -> result bool.
  Variable date : pystr.
  Variable set_order : list pystr -> list pystr.

  Ltac oa := repeat first [apply oasks_quiet; first [apply oquiet_ret|apply oquiet_raise|apply oquiet_initial|apply oquiet_final|apply oquiet_unchanged|apply oquiet_changed|apply oquiet_diff|apply oquiet_failure|apply oquiet_success]
    |apply oasks_lift; first [apply asks_quiet; first [apply quiet_check|apply quiet_decoded|apply quiet_lift|apply quiet_stat|apply quiet_query_user|apply quiet_query_group]|apply asks_crun; assumption]
    |apply oasks_defaults; intros ?
    |match goal with |- oasks _ _ (if ?b then _ else _) => destruct b | |- oasks _ _ (match ?x with _ => _ end) => destruct x end
    |apply oasks_bind; [|intros ?]].
  Lemma asks_link (P : list pystr -> Prop) path target present touch owner group : P [lit "readlink"; lit "-n"; path] -> oasks exec P (link exec sha512 true path target present touch owner group).
  Proof. intros H. unfold link. cbv zeta. oa. Qed.
  Lemma asks_user (P : list pystr -> Prop) u present uid group groups app system hash home shell comment : oasks exec P (user exec sha512 true u present uid group groups app system hash home shell comment).
  Proof. unfold user. cbv zeta. oa. Qed.
  Lemma asks_group (P : list pystr -> Prop) g present gid system : oasks exec P (System.group exec sha512 true g present gid system).
  Proof. unfold System.group. cbv zeta. oa. Qed.
  Lemma asks_reload (P : list pystr -> Prop) um : oasks exec P (daemon_reload exec sha512 true um).
  Proof. unfold daemon_reload. oa. Qed.
  Lemma asks_service (P : list pystr -> Prop) name target enabled um : P (show_unit (lit "ActiveState") name) -> P (show_unit (lit "UnitFileState") name) -> oasks exec P (service exec sha512 true name target enabled um).
  Proof. intros H1 H2. unfold service. cbv zeta. oa. Qed.
  Lemma asks_generic (P : list pystr -> Prop) packages present has install uninstall : (forall p, p ∈ packages -> asks exec P (has p)) -> oasks exec P (generic_package true set_order packages present has install uninstall).
  Proof.
    intros H. unfold generic_package. apply oasks_bind; [|intros; oa]. apply oasks_lift. generalize (@nil pystr). induction packages as [|p ps IH]; intros l; cbn [probe_all]; [apply asks_quiet, quiet_ret|].
    apply asks_bind; [apply H; left|]. intros b. apply IH. intros q Hq. apply H. right. exact Hq.
  Qed.
  Lemma asks_repo (P : list pystr -> Prop) url path branch update depth rebase ff sub rec shallow :
    P [lit "git"; lit "-C"; path; lit "rev-parse"; lit "HEAD"] -> P [lit "git"; lit "ls-remote"; lit "--exit-code"; lit "--"; url; default (lit "HEAD") (or_str branch None)] ->
    oasks exec P (repo exec sha512 true url path branch update depth rebase ff sub rec shallow).
  Proof. intros H1 H2. unfold repo. cbv zeta. oa. Qed.

  (** ** Prediction *)
  Ltac orr := repeat first [apply oremote_ret|apply oremote_raise|apply oremote_initial|apply oremote_final|apply oremote_unchanged|apply oremote_changed|apply oremote_diff|apply oremote_failure|apply oremote_success
    |apply oremote_when; [|first [apply remotely_sh'|apply remotely_crun']]|apply oremote_either|apply oremote_both|apply oremote_nope
    |apply oremote_lift; first [apply remotely_lift|apply remotely_check|apply remotely_stat|apply remotely_crun'|apply remotely_sh'|apply remotely_via]
    |apply oremote_defaults; intros ?
    |match goal with |- oremote (if ?b then _ else _) => destruct b | |- oremote (match ?x with _ => _ end) => destruct x end
    |apply oremote_bind; [|intros ?]].
  Ltac okk := unfold when_some; repeat first [apply okeeps_ret|apply okeeps_raise|apply okeeps_changed|apply okeeps_when|apply okeeps_either|apply okeeps_both|apply okeeps_nope|apply okeeps_lift
    |match goal with |- okeeps (if ?b then _ else _) => destruct b | |- okeeps (match ?x with _ => _ end) => destruct x end
    |apply okeeps_bind; [|intros ?]].
  Ltac pre := repeat first
    [apply predicts_defaults; [intros ?; solve [orr]|intros ?; solve [orr]|intros ?]
    |apply predicts_work; [solve [okk]|intros [] []; reflexivity|apply steady_success]
    |apply predicts_bind; [solve [orr]|intros ?]
    |match goal with |- predicts (if ?b then _ else _) _ => destruct b | |- predicts (match ?x with _ => _ end) _ => destruct x end
    |apply predicts_same; solve [orr]].
  Lemma remotely_query_user u h d : remotely (query_user exec sha512 u h d).
  Proof. unfold query_user, or_default. apply remotely_try; [apply remotely_bind; [apply remotely_via|intros; apply remotely_ret]|]. intros e. destruct (is_ValueError e); [apply remotely_ret|apply remotely_raise]. Qed.
  Lemma remotely_query_group u d : remotely (query_group exec sha512 u d).
  Proof. unfold query_group, or_default. apply remotely_try; [apply remotely_bind; [apply remotely_via|intros; apply remotely_ret]|]. intros e. destruct (is_ValueError e); [apply remotely_ret|apply remotely_raise]. Qed.
  Lemma predicts_user u present uid group groups app system hash home shell comment :
    predicts (user exec sha512 false u present uid group groups app system hash home shell comment) (user exec sha512 true u present uid group groups app system hash home shell comment).
  Proof. unfold user. cbv zeta. apply predicts_bind; [apply oremote_lift, remotely_query_user|]. intros cur. pre. Qed.
  Lemma predicts_group g present gid system : predicts (System.group exec sha512 false g present gid system) (System.group exec sha512 true g present gid system).
  Proof. unfold System.group. cbv zeta. apply predicts_bind; [apply oremote_lift, remotely_query_group|]. intros cur. pre. Qed.
  Lemma predicts_reload um : predicts (daemon_reload exec sha512 false um) (daemon_reload exec sha512 true um).
  Proof. unfold daemon_reload. pre. Qed.
  Lemma predicts_service name target enabled um : predicts (service exec sha512 false name target enabled um) (service exec sha512 true name target enabled um).
  Proof. unfold service. cbv zeta. pre. Qed.
  Lemma predicts_generic packages present has install uninstall : (forall p, remotely (has p)) -> predicts (generic_package false set_order packages present has install uninstall) (generic_package true set_order packages present has install uninstall).
  Proof.
    intros H. unfold generic_package. apply predicts_bind; [|intros; pre]. apply oremote_lift. generalize (@nil pystr). induction packages as [|p ps IH]; intros l; cbn [probe_all]; [apply remotely_ret|].
    apply remotely_bind; [apply H|]. intros b. apply IH.
  Qed.
  Lemma predicts_packages packages present opts oneshot :
    predicts (pacman_package exec sha512 false set_order packages present opts) (pacman_package exec sha512 true set_order packages present opts) /\
    predicts (portage_package exec sha512 false set_order packages present oneshot opts) (portage_package exec sha512 true set_order packages present oneshot opts) /\
    predicts (apt_package exec sha512 false set_order packages present opts) (apt_package exec sha512 true set_order packages present opts).
  Proof.
    assert (Hr : forall chk cmd, remotely (run exec sha512 cmd None true chk None None None None)) by (intros; unfold run; apply remotely_bind; [apply remotely_current|intros; apply remotely_via]).
    split_and!; apply predicts_generic; intros p; (apply remotely_bind; [apply Hr|intros; apply remotely_ret]).
  Qed.

  (** the same for runs that succeed *)
  Definition foresees (real dry : O opres) : Prop := forall o c x c', real o c = (Ok x, c') -> or_success (fst x) = true -> exists v, dry o c = (Ok x, set_remote v c).
  Lemma foresees_bind {A} (m : O A) (f f' : A -> O opres) : oremote m -> (forall a, foresees (f a) (f' a)) -> foresees (m ≫= f) (m ≫= f').
  Proof.
    intros Hm Hf o c x c' E Hx. apply obind_ok in E as (a & o1 & c1 & E1 & E2). destruct (Hf _ _ _ _ _ E2 Hx) as [v Hv]. exists v.
    rewrite (obind_run _ _ _ _ _ _ _ E1), Hv. f_equal. rewrite (Hm _ _ _ _ E1). reflexivity.
  Qed.
  Lemma foresees_same m : oremote m -> foresees m m.
  Proof. intros H o c x c' E _. exists (c_remote c'). rewrite E. f_equal. exact (H _ _ _ _ E). Qed.
  (** work that ends in success *)
  Definition leads (m : O opres) : Prop := forall o c x c', m o c = (Ok x, c') -> or_success (fst x) = true -> forall c1, success o c1 = (Ok x, c1).
  Lemma leads_success : leads success. Proof. intros o c x c' E _ c1. exact (steady_success _ _ _ _ E c1). Qed.
  Lemma leads_work {A} (w : O A) k : okeeps w -> (forall a, leads (k a)) -> leads (w ≫= k).
  Proof. intros Hw Hk o c x c' E Hx c1. apply obind_ok in E as (a & o1 & c2 & E1 & E2). assert (Ho := Hw _ _ _ _ E1). cbn in Ho. subst o1. exact (Hk a _ _ _ _ E2 Hx c1). Qed.
  Lemma leads_failure msg : leads (failure msg).
  Proof. intros o c x c' E Hx. unfold failure in E. apply obind_ok in E as (a & o1 & c2 & E1 & E2). injection E2 as <- <-. discriminate. Qed.
  Lemma foresees_leads m : leads m -> foresees m success.
  Proof. intros H o c x c' E Hx. exists (c_remote c). rewrite set_remote_self. exact (H _ _ _ _ E Hx c). Qed.
  Lemma foresees_repo url path branch update depth rebase ff sub rec shallow :
    foresees (repo exec sha512 false url path branch update depth rebase ff sub rec shallow) (repo exec sha512 true url path branch update depth rebase ff sub rec shallow).
  Proof.
    unfold repo. cbv zeta.
    repeat first
      [apply foresees_leads; repeat first [apply leads_success|apply leads_failure
         |match goal with |- leads (if ?b then _ else _) => destruct b end|apply leads_work; [solve [okk]|intros ?]]
      |apply foresees_bind; [solve [orr]|intros ?]
      |match goal with |- foresees (if ?b then _ else _) _ => destruct b | |- foresees (match ?x with _ => _ end) _ => destruct x end
      |apply foresees_same; solve [orr]].
  Qed.
  Lemma foresees_operation a real dry c r c' : foresees real dry -> operation a real c = (Ok r, c') -> or_success r = true -> exists v, operation a dry c = (Ok r, set_remote v c).
  Proof.
    intros H E Hr. unfold operation in *. apply bind_spec in E as [([x o] & c1 & E1 & E2)|(e & _ & [=])]. cbn in E2. destruct (seen_check a && negb (or_success x)) eqn:Eb; [discriminate|].
    injection E2 as <- <-. destruct (H _ _ _ _ E1 Hr) as [v Hv]. exists v. rewrite (Control_settle.bind_works _ _ _ _ _ Hv). cbn. rewrite Eb. reflexivity.
  Qed.
End dry.
