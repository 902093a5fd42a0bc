(** A connection that was lost does not come back: if it holds after a computation it held before. *)
From stdpp Require Import gmap.
From Verif Require Import Base Utf8 Codec Paths Sys Dispatcher Client Control Spec_Control Control_proofs Op Spec_Op Op_proofs Coreutils Files Files_plain Tree_run.
Local Open Scope nat_scope.

Definition upward {A} (m : W A) : Prop := forall c r c', m c = (r, c') -> r_link (c_remote c') = Up -> r_link (c_remote c) = Up.
Definition upwardC {A} (m : C A) : Prop := forall v r v', m v = (r, v') -> r_link v' = Up -> r_link v = Up.

Lemma upward_id {A} (m : W A) : (forall c, c_remote (snd (m c)) = c_remote c) -> upward m.
Proof. intros H c r c' E. specialize (H c). rewrite E in H. cbn in H. rewrite H. auto. Qed.
Lemma upward_ret {A} (a : A) : upward (mret a). Proof. apply upward_id. reflexivity. Qed.
Lemma upward_raise {A} e : upward (wraise e : W A). Proof. apply upward_id. reflexivity. Qed.
Lemma upward_get : upward getW. Proof. apply upward_id. reflexivity. Qed.
Lemma upward_lift {A} (x : result A) : upward (liftW x). Proof. apply upward_id. reflexivity. Qed.
Lemma upward_mod f : (forall c, c_remote (f c) = c_remote c) -> upward (modW f). Proof. intros H. apply upward_id. exact H. Qed.
Lemma upward_bind {A B} (m : W A) (f : A -> W B) : upward m -> (forall a, upward (f a)) -> upward (m ≫= f).
Proof.
  intros Hm Hf c r c' E Hu. apply bind_spec in E as [(a & c1 & E1 & E2)|(e & E & ->)]; [|eapply Hm; eassumption].
  eapply Hm; [exact E1|]. eapply Hf; eassumption.
Qed.
Lemma upward_try {A} (m : W A) h : upward m -> (forall e, upward (h e)) -> upward (wtry m h).
Proof.
  intros Hm Hh c r c' E Hu. unfold wtry in E. destruct (m c) as [[a|e] c1] eqn:E1.
  - injection E as <- <-. eapply Hm; eassumption.
  - eapply Hm; [exact E1|]. eapply Hh; eassumption.
Qed.
Lemma upward_finally {A} (m : W A) f : upward m -> upward f -> upward (wfinally m f).
Proof.
  intros Hm Hf c r c' E Hu. apply finally_spec in E as (r1 & c1 & E1 & [(u & E2 & ->)|(e & E2 & ->)]); (eapply Hm; [exact E1|]; eapply Hf; eassumption).
Qed.
Lemma upward_via {A} (m : C A) : upwardC m -> upward (via m).
Proof. intros H c r c' E Hu. unfold via in E. destruct (m (c_remote c)) as [x v] eqn:Em. injection E as _ <-. eapply H; eassumption. Qed.
Lemma upwardC_bind {A B} (m : C A) (f : A -> C B) : upwardC m -> (forall a, upwardC (f a)) -> upwardC (m ≫= f).
Proof.
  intros Hm Hf v r v' E Hu. unfold mbind, C_bind in E. destruct (m v) as [[a|e] v1] eqn:E1.
  - eapply Hm; [exact E1|]. eapply Hf; eassumption.
  - injection E as <- <-. eapply Hm; eassumption.
Qed.
Lemma upwardC_ret {A} (a : A) : upwardC (mret a). Proof. intros v r v' [= _ <-]. auto. Qed.
Lemma upwardC_raise {A} e : upwardC (craise e : C A). Proof. intros v r v' [= _ <-]. auto. Qed.
Lemma upward_conclude i f m : upward m -> upward (conclude i f m).
Proof. intros H. unfold conclude. destruct (py_eq _ _); [apply upward_ret|]. apply upward_bind; [exact H|intros; apply upward_ret]. Qed.
Lemma upward_wif b m : upward m -> upward (wif b m). Proof. intros H. destruct b; [exact H|apply upward_ret]. Qed.

Section upward.
  Variable exec : proc -> M xres.
  Variable sha512 : bytes -> bytes.
  Lemma upwardC_request q : upwardC (request exec sha512 q).
  Proof.
    intros v r v' E Hu. unfold request in E. destruct (r_link v) as [| | |k late] eqn:El; [reflexivity|injection E as _ <-; congruence..|].
    destruct (write_packet q) as [b [e|]]; [injection E as _ <-; discriminate Hu|]. destruct k as [|k]; [injection E as _ <-; discriminate Hu|].
    destruct (request_held exec sha512 q (r_os v)) as [x v1]. injection E as _ <-. cbn in Hu. destruct (r_link v1); discriminate Hu.
  Qed.
  Ltac conn := apply upwardC_bind; [apply upwardC_request|intros []; first [apply upwardC_ret|apply upwardC_raise|case_match; first [apply upwardC_ret|apply upwardC_raise]]].
  Lemma upward_resolve_user u : upward (resolve_user exec sha512 u). Proof. apply upward_via. conn. Qed.
  Lemma upward_resolve_group u : upward (resolve_group exec sha512 u). Proof. apply upward_via. conn. Qed.
  Lemma upward_stat p follow sha : upward (stat exec sha512 p follow sha).
  Proof.
    apply upward_via. intros v r v' E Hu. unfold conn_stat in E. destruct (request _ _ _ v) as [x v1] eqn:Er.
    eapply upwardC_request; [exact Er|]. destruct x as [p0|e]; [destruct p0|destruct (is_ValueError e)]; injection E as _ <-; exact Hu.
  Qed.
  Lemma upward_download p : upward (download exec sha512 p). Proof. apply upward_via. conn. Qed.
  Lemma upward_or_default {A} (m : W A) d : upward m -> upward (or_default m d).
  Proof.
    intros H. apply upward_try; [apply upward_bind; [assumption|intros; apply upward_ret]|]. intros e.
    destruct (is_ValueError e); [apply upward_ret|apply upward_raise].
  Qed.
  Lemma upward_download_or p d : upward (download_or exec sha512 p d). Proof. apply upward_or_default, upward_download. Qed.
  Lemma upward_current_of i : upward (current_of i).
  Proof. apply upward_id. intros c. unfold current_of. destruct (c_scripts c !! i); reflexivity. Qed.
  Lemma upward_current : upward current_defaults.
  Proof. apply upward_id. intros c. unfold current_defaults, current_of. destruct (c_script c) as [i|]; [destruct (c_scripts c !! i)|]; reflexivity. Qed.
  Lemma upward_resolved f o : (forall x, upward (f x)) -> upward (resolved f o).
  Proof. intros H. destruct o; cbn; [|apply upward_ret]. apply upward_bind; [apply H|]. intros. apply upward_ret. Qed.
  Lemma upward_check_mask m : upward (check_mask m).
  Proof. unfold check_mask. destruct m as [m|]; [destruct (py_int 8 m)|]; first [apply upward_ret|apply upward_raise]. Qed.
  Lemma upward_resolve_defaults q : upward (resolve_defaults exec sha512 q).
  Proof.
    unfold resolve_defaults. apply upward_bind; [apply upward_get|]. intros c. destruct (c_script c); [|apply upward_raise].
    apply upward_bind; [apply upward_current|]. intros cur.
    repeat (apply upward_bind; [apply upward_resolved; intros; first [apply upward_resolve_user|apply upward_resolve_group]|intros]).
    repeat (apply upward_bind; [apply upward_check_mask|intros]).
    apply upward_bind; [|intros; apply upward_ret].
    destruct (s_cwd (overlay cur q)) as [[|x d]|]; try apply upward_ret.
    apply upward_bind; [apply upward_stat|]. intros [st|]; [|apply upward_raise].
    destruct (str_eqb (st_type st) (lit "dir")); first [apply upward_ret|apply upward_raise].
  Qed.
  Lemma upward_defaults i q : upward (defaults i q).
  Proof.
    unfold defaults. repeat (apply upward_bind; [apply upward_lift|intros]). apply upward_bind; [apply upward_get|]. intros.
    apply upward_bind; [apply upward_current_of|]. intros. apply upward_ret.
  Qed.
  Lemma upward_enter i q : upward (enter_defaults exec sha512 i q).
  Proof.
    unfold enter_defaults. apply upward_bind; [apply upward_resolve_defaults|]. intros. apply upward_bind; [apply upward_mod; reflexivity|].
    intros. apply upward_bind; [apply upward_get|]. intros. apply upward_ret.
  Qed.
  Lemma upward_script_defaults {A} q (body : settings -> W A) : (forall d, upward (body d)) -> upward (script_defaults exec sha512 q body).
  Proof.
    intros Hb c r c' E. unfold script_defaults in E. destruct (c_script c) as [i|]; [|injection E as _ <-; auto]. revert E. revert c r c'.
    change (upward (with_defaults exec sha512 i q body)). unfold with_defaults. apply upward_bind; [apply upward_defaults|]. intros. apply upward_bind; [apply upward_enter|]. intros.
    apply upward_finally; [apply Hb|apply upward_mod; reflexivity].
  Qed.
  Lemma upward_crun cmd : upward (crun exec sha512 cmd).
  Proof.
    unfold crun, run. apply upward_bind; [apply upward_current|]. intros d. apply upward_via. unfold conn_run. conn.
  Qed.
  Lemma upward_sh cmd : upward (sh exec sha512 cmd).
  Proof. unfold sh. apply upward_bind; [apply upward_crun|intros; apply upward_ret]. Qed.
  Lemma upward_upload file content mode owner group : upward (upload exec sha512 file content mode owner group).
  Proof. apply upward_via. unfold conn_upload. conn. Qed.
  Lemma upward_operation a f w : yields f new_op w -> upward w -> upward (operation a f).
  Proof.
    intros H Hw c r c'. rewrite (operation_plain a f w c H). revert c r c'. change (upward (w ≫= verdict a)). apply upward_bind; [exact Hw|]. intros r. unfold verdict.
    destruct (_ && _); [apply upward_raise|apply upward_ret].
  Qed.
  Lemma upward_check path : upward (check_absolute_path path).
  Proof. unfold check_absolute_path. destruct path as [|x r]; [apply upward_raise|]. destruct (x =? slash)%N; [apply upward_ret|apply upward_raise]. Qed.
  Lemma upward_op path q body op : yields op new_op (_ ← check_absolute_path path; script_defaults exec sha512 q body) -> (forall d, upward (body d)) -> upward (operation NotGiven op).
  Proof. intros H Hb. eapply upward_operation; [exact H|]. apply upward_bind; [apply upward_check|intros _; apply upward_script_defaults, Hb]. Qed.

  (** ** The operations on files *)
  Variable dry want_diff : bool.
  Ltac steps := repeat first [apply upward_sh|apply upward_crun|apply upward_wif|apply upward_ret|apply upward_raise|apply upward_bind; [|intros ?]].
  Lemma upward_chmod_to path m : upward (chmod_to exec sha512 path m).
  Proof. unfold chmod_to, arg. destruct m; steps. Qed.
  Ltac works := repeat first [apply upward_sh|apply upward_chmod_to|apply upward_crun|apply upward_wif|apply upward_ret|apply upward_raise|apply upward_bind; [|intros ?]].
  Lemma upward_dir path present touch attr : upward (dir_body exec sha512 dry path present touch attr).
  Proof.
    unfold dir_body. apply upward_bind; [apply upward_stat|]. intros st.
    assert (Hw : upward (dir_work exec sha512 dry path present touch attr st)).
    { unfold dir_work, chown_to. destruct dry; [apply upward_ret|]. destruct present; works. }
    destruct st as [x|]; [destruct (negb (str_eqb (st_type x) (lit "dir"))); [apply upward_ret|]|]; apply upward_conclude; exact Hw.
  Qed.
  Lemma upward_file path present touch attr : upward (file_body exec sha512 dry path present touch attr).
  Proof.
    unfold file_body. apply upward_bind; [apply upward_stat|]. intros st.
    assert (Hw : upward (file_work exec sha512 dry path present touch attr st)).
    { unfold file_work, chown_to. destruct dry; [apply upward_ret|]. destruct present; works. }
    destruct st as [x|]; [destruct (negb (str_eqb (st_type x) (lit "file"))); [apply upward_ret|]|]; apply upward_conclude; exact Hw.
  Qed.
  Lemma upward_decoded b : upward (decoded b).
  Proof. unfold decoded. repeat case_match; first [apply upward_ret|apply upward_raise|apply upward_lift]. Qed.
  Lemma upward_link path target present touch attr : upward (link_body exec sha512 dry path target present touch attr).
  Proof.
    unfold link_body. apply upward_bind; [apply upward_stat|]. intros st.
    assert (Hw : forall x, upward (link_work exec sha512 dry path target present touch attr x)).
    { intros x. unfold link_work. destruct dry; [apply upward_ret|]. destruct present; works. }
    destruct st as [x|]; cbv zeta; [|apply upward_conclude; apply Hw]. destruct (negb (str_eqb (st_type x) (lit "link"))); [apply upward_ret|].
    apply upward_bind; [apply upward_crun|]. intros r. apply upward_bind; [apply upward_decoded|]. intros t. apply upward_conclude. apply Hw.
  Qed.
  Lemma upward_content content dest attr : upward (content_body exec sha512 dry want_diff content dest attr).
  Proof.
    unfold content_body. apply upward_bind; [apply upward_stat|]. intros st.
    assert (Hw : upward (content_work exec sha512 dry want_diff content dest attr st)).
    { unfold content_work, chown_to. apply upward_bind.
      - destruct want_diff; [|apply upward_ret]. apply upward_bind; [apply upward_download_or|intros; apply upward_ret].
      - intros _. destruct dry; [apply upward_ret|]. destruct (_ || _); [apply upward_upload|]. works. }
    destruct st as [x|]; [destruct (negb (str_eqb (st_type x) (lit "file"))); [apply upward_ret|]|]; apply upward_conclude; exact Hw.
  Qed.
End upward.
