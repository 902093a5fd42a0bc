(** Computations of the process that leave the remote host as it is. *)
From stdpp Require Import gmap.
From Verif Require Import Base Utf8 Codec Paths Sys Spec_Sys Sys_proofs Dispatcher Client Spec_Session Session_proofs Spec_Remote Remote_proofs Remote_run
  Readonly Control Control_proofs.

Definition quiet {A} (m : W A) : Prop := forall c r c', m c = (r, c') -> unaffected (r_os (c_remote c)) (r_os (c_remote c')).
Definition quietC {A} (m : C A) : Prop := forall v r v', m v = (r, v') -> unaffected (r_os v) (r_os v').

Lemma quiet_id {A} (m : W A) : (forall c, c_remote (snd (m c)) = c_remote c) -> quiet m.
Proof. intros H c r c' E. specialize (H c). rewrite E in H. cbn in H. rewrite H. apply unaffected_refl. Qed.
Lemma quiet_ret {A} (a : A) : quiet (mret a). Proof. apply quiet_id. reflexivity. Qed.
Lemma quiet_raise {A} e : quiet (wraise e : W A). Proof. apply quiet_id. reflexivity. Qed.
Lemma quiet_get : quiet getW. Proof. apply quiet_id. reflexivity. Qed.
Lemma quiet_lift {A} (x : result A) : quiet (liftW x). Proof. apply quiet_id. reflexivity. Qed.
Lemma quiet_mod f : (forall c, c_remote (f c) = c_remote c) -> quiet (modW f). Proof. intros H. apply quiet_id. exact H. Qed.
Lemma quiet_bind {A B} (m : W A) (f : A -> W B) : quiet m -> (forall a, quiet (f a)) -> quiet (m ≫= f).
Proof.
  intros Hm Hf c r c' E. apply bind_spec in E as [(a & c1 & E1 & E2)|(e & E & ->)]; [|eapply Hm; eassumption].
  eapply unaffected_trans; [eapply Hm|eapply Hf]; eassumption.
Qed.
Lemma quiet_try {A} (m : W A) h : quiet m -> (forall e, quiet (h e)) -> quiet (wtry m h).
Proof.
  intros Hm Hh c r c' E. unfold wtry in E. destruct (m c) as [[a|e] c1] eqn:E1.
  - injection E as <- <-. eapply Hm. eassumption.
  - eapply unaffected_trans; [eapply Hm|eapply Hh]; eassumption.
Qed.
Lemma quiet_finally {A} (m : W A) f : quiet m -> quiet f -> quiet (wfinally m f).
Proof.
  intros Hm Hf c r c' E. apply finally_spec in E as (r1 & c1 & E1 & [(u & E2 & ->)|(e & E2 & ->)]);
    (eapply unaffected_trans; [eapply Hm|eapply Hf]; eassumption).
Qed.
Lemma quiet_via {A} (m : C A) : quietC m -> quiet (via m).
Proof. intros H c r c' E. unfold via in E. destruct (m (c_remote c)) as [x v] eqn:Em. injection E as _ <-. eapply H. eassumption. Qed.
Lemma quietC_bind {A B} (m : C A) (f : A -> C B) : quietC m -> (forall a, quietC (f a)) -> quietC (m ≫= f).
Proof.
  intros Hm Hf v r v' E. unfold mbind, C_bind in E. destruct (m v) as [[a|e] v1] eqn:E1.
  - eapply unaffected_trans; [eapply Hm|eapply Hf]; eassumption.
  - injection E as <- <-. eapply Hm. eassumption.
Qed.
Lemma quietC_ret {A} (a : A) : quietC (mret a).
Proof. intros v r v' [= _ <-]. apply unaffected_refl. Qed.
Lemma quietC_raise {A} e : quietC (craise e : C A).
Proof. intros v r v' [= _ <-]. apply unaffected_refl. Qed.

Section quiet.
  Variable exec : proc -> M xres.
  Variable sha512 : bytes -> bytes.
  Lemma request_any_state q v x v' : request exec sha512 q v = (x, v') -> r_os v' = r_os v \/ r_os v' = (handle exec sha512 q (r_os v)).2.
  Proof.
    intros E. destruct v as [s l]. apply request_as_up in E as [[H _]|(x0 & v0 & E & -> & _ & He)]; [left; exact H|].
    right. eapply request_state; [exact He|exact E].
  Qed.
  Lemma quietC_request q : looks q -> quietC (request exec sha512 q).
  Proof.
    intros Hq v r v' E. apply request_any_state in E as [-> | ->]; [apply unaffected_refl|apply handle_looks; assumption].
  Qed.
  Ltac quiet_conn := apply quietC_bind; [apply quietC_request; exact I|intros []; first [apply quietC_ret|apply quietC_raise]].
  Lemma quiet_resolve_user u : quiet (resolve_user exec sha512 u).
  Proof. apply quiet_via. quiet_conn. Qed.
  Lemma quiet_resolve_group u : quiet (resolve_group exec sha512 u).
  Proof. apply quiet_via. quiet_conn. Qed.
  Lemma quiet_stat p follow sha : quiet (stat exec sha512 p follow sha).
  Proof.
    apply quiet_via. intros v r v' E. unfold conn_stat in E. destruct (request _ _ _ v) as [x v1] eqn:Er.
    apply quietC_request in Er; [|exact I]. destruct x as [p0|e]; [destruct p0|destruct (is_ValueError e)]; injection E as _ <-; exact Er.
  Qed.
  Lemma quiet_download p : quiet (download exec sha512 p).
  Proof. apply quiet_via. quiet_conn. Qed.
  Lemma quiet_or_default {A} (m : W A) d : quiet m -> quiet (or_default m d).
  Proof.
    intros H. apply quiet_try; [apply quiet_bind; [assumption|intros; apply quiet_ret]|]. intros e.
    destruct (is_ValueError e); [apply quiet_ret|apply quiet_raise].
  Qed.
  Lemma quiet_download_or p d : quiet (download_or exec sha512 p d).
  Proof. apply quiet_or_default, quiet_download. Qed.
  Lemma quiet_query_user u h d : quiet (query_user exec sha512 u h d).
  Proof. apply quiet_or_default, quiet_via. quiet_conn. Qed.
  Lemma quiet_query_group g d : quiet (query_group exec sha512 g d).
  Proof. apply quiet_or_default, quiet_via. quiet_conn. Qed.
  Lemma quiet_home_dir u : quiet (home_dir exec sha512 u).
  Proof.
    apply quiet_bind; [destruct u; [apply quiet_ret|apply quiet_resolve_user]|]. intros x.
    apply quiet_bind; [apply quiet_via; quiet_conn|intros; apply quiet_ret].
  Qed.
  Lemma quiet_getenv k d : quiet (getenv exec sha512 k d).
  Proof. apply quiet_bind; [apply quiet_via; quiet_conn|intros; apply quiet_ret]. Qed.
  Lemma quiet_current_of i : quiet (current_of i).
  Proof. apply quiet_id. intros c. unfold current_of. destruct (c_scripts c !! i); reflexivity. Qed.
  Lemma quiet_current : quiet current_defaults.
  Proof. apply quiet_id. intros c. unfold current_defaults, current_of. destruct (c_script c) as [i|]; [destruct (c_scripts c !! i)|]; reflexivity. Qed.
  Lemma quiet_resolved f o : (forall x, quiet (f x)) -> quiet (resolved f o).
  Proof. intros H. destruct o; cbn; [|apply quiet_ret]. apply quiet_bind; [apply H|]. intros. apply quiet_ret. Qed.
  Lemma quiet_check_mask m : quiet (check_mask m).
  Proof. unfold check_mask. destruct m as [m|]; [destruct (py_int 8 m)|]; first [apply quiet_ret|apply quiet_raise]. Qed.
  Lemma quiet_resolve_defaults q : quiet (resolve_defaults exec sha512 q).
  Proof.
    unfold resolve_defaults. apply quiet_bind; [apply quiet_get|]. intros c. destruct (c_script c); [|apply quiet_raise].
    apply quiet_bind; [apply quiet_current|]. intros cur.
    repeat (apply quiet_bind; [apply quiet_resolved; intros; first [apply quiet_resolve_user|apply quiet_resolve_group]|intros]).
    repeat (apply quiet_bind; [apply quiet_check_mask|intros]).
    apply quiet_bind; [|intros; apply quiet_ret].
    destruct (s_cwd (overlay cur q)) as [[|x d]|]; try apply quiet_ret.
    apply quiet_bind; [apply quiet_stat|]. intros [st|]; [|apply quiet_raise].
    destruct (str_eqb (st_type st) (lit "dir")); first [apply quiet_ret|apply quiet_raise].
  Qed.
  Lemma quiet_defaults i q : quiet (defaults i q).
  Proof.
    unfold defaults. repeat (apply quiet_bind; [apply quiet_lift|intros]). apply quiet_bind; [apply quiet_get|]. intros.
    apply quiet_bind; [apply quiet_current_of|]. intros. apply quiet_ret.
  Qed.
  Lemma quiet_enter i q : quiet (enter_defaults exec sha512 i q).
  Proof.
    unfold enter_defaults. apply quiet_bind; [apply quiet_resolve_defaults|]. intros. apply quiet_bind; [apply quiet_mod; reflexivity|].
    intros. apply quiet_bind; [apply quiet_get|]. intros. apply quiet_ret.
  Qed.
  Lemma quiet_with {A} i q (body : settings -> W A) : (forall d, quiet (body d)) -> quiet (with_defaults exec sha512 i q body).
  Proof.
    intros H. unfold with_defaults. apply quiet_bind; [apply quiet_defaults|]. intros. apply quiet_bind; [apply quiet_enter|]. intros.
    apply quiet_finally; [apply H|apply quiet_mod; reflexivity].
  Qed.
  Lemma quiet_script_defaults {A} q (body : settings -> W A) : (forall d, quiet (body d)) -> quiet (script_defaults exec sha512 q body).
  Proof.
    intros Hb c r c' E. unfold script_defaults in E. destruct (c_script c) as [i|]; [eapply quiet_with; eassumption|].
    injection E as _ <-. apply unaffected_refl.
  Qed.
End quiet.
