(** Computations of the process that only look: the remote host stays as it is, and the schedule of failures gets no longer. *)
From stdpp Require Import gmap.
From Verif Require Import Base Utf8 Codec Paths Sys Spec_Sys Sys_proofs Dispatcher Client Spec_Session Session_proofs Spec_Remote Remote_proofs Remote_run
  Readonly Control Control_proofs.

Definition spends (s s' : os) : Prop := unaffected s s' /\ o_faults s' `suffix_of` o_faults s.
Lemma spends_refl s : spends s s. Proof. split; [apply unaffected_refl|reflexivity]. Qed.
Lemma spends_trans s1 s2 s3 : spends s1 s2 -> spends s2 s3 -> spends s1 s3.
Proof. intros [H1 H2] [H3 H4]. split; [eapply unaffected_trans; eassumption|]. etransitivity; eassumption. Qed.
Lemma syscall_spends {A} (m : M A) s r s' : syscall m s = (r, s') ->
  exists s0, spends s s0 /\ ((exists n, r = Err (oserr n) /\ s' = s0) \/ m s0 = (r, s')).
Proof.
  unfold syscall, next_fault. destruct (o_faults s) as [|[|n k] fl] eqn:Ef.
  - intros H. exists s. split; [apply spends_refl|auto].
  - intros H. exists (set_faults fl s). split; [|auto]. split; [reflexivity|]. rewrite Ef. cbn. exists [FOk]. reflexivity.
  - intros [= <- <-]. exists (set_faults fl s). split; [|left; eauto]. split; [reflexivity|]. rewrite Ef. exists [FErr n k]. reflexivity.
Qed.
Lemma stat_spends p follow s : spends s (snd (sys_stat p follow s)).
Proof.
  destruct (sys_stat p follow s) as [r s'] eqn:E. cbn. apply syscall_spends in E as (s0 & H & [(n & _ & ->)|E]); [assumption|].
  injection E as _ <-. assumption.
Qed.
Lemma read_spends p s : spends s (snd (sys_read p s)).
Proof.
  destruct (sys_read p s) as [r s'] eqn:E. cbn. apply syscall_spends in E as (s0 & H & [(n & _ & ->)|E]); [assumption|].
  injection E as _ <-. assumption.
Qed.
Section spending.
  Variable exec : proc -> M xres.
  Variable sha512 : bytes -> bytes.
  Lemma handle_stat_spends p follow sha s : spends s (snd (handle_stat sha512 p follow sha s)).
  Proof.
    unfold handle_stat. pose proof (stat_spends p follow s) as H. destruct (sys_stat p follow s) as [[n|e] s1]; cbn in H.
    - destruct (sha && str_eqb (node_type n) (lit "file")); [|exact H]. cbv [mbind M_bind bindM].
      pose proof (read_spends p s1) as H1. destruct (sys_read p s1) as [[b|e] s2]; cbn in *; eapply spends_trans; eassumption.
    - destruct e; try exact H. destruct (_ =? _)%Z; exact H.
  Qed.
  Lemma handle_download_spends p s : spends s (snd (handle_download p s)).
  Proof.
    unfold handle_download. pose proof (read_spends p s) as H. destruct (sys_read p s) as [[n|e] s1]; cbn in H; [exact H|].
    destruct e; try exact H. destruct (_ =? _)%Z; exact H.
  Qed.
  Lemma handle_spends q s : looks q -> spends s (snd (handle exec sha512 q s)).
  Proof.
    destruct q; intros []; cbn [handle]; try apply spends_refl; try apply handle_stat_spends; try apply handle_download_spends.
    - unfold handle_resolve_user. cbv [mbind M_bind bindM getM lift]. destruct (lookup_user _ _) as [[a|]|e]; apply spends_refl.
    - unfold handle_resolve_group. cbv [mbind M_bind bindM getM lift]. destruct (lookup_group _ _) as [[a|]|e]; apply spends_refl.
    - unfold handle_query_user. cbv [mbind M_bind bindM getM lift]. destruct (lookup_user _ _) as [[a|]|e]; try apply spends_refl.
      destruct query_password_hash; [destruct (getspnam _ _) as [h|e]; [|destruct e; apply spends_refl]|];
        destruct (getgrgid _ _); apply spends_refl.
    - unfold handle_query_group. cbv [mbind M_bind bindM getM lift]. destruct (lookup_group _ _) as [[a|]|e]; apply spends_refl.
  Qed.
End spending.

Definition thrifty {A} (m : W A) : Prop := forall c r c', m c = (r, c') -> spends (r_os (c_remote c)) (r_os (c_remote c')).
Definition thriftyC {A} (m : C A) : Prop := forall v r v', m v = (r, v') -> spends (r_os v) (r_os v').

Lemma thrifty_id {A} (m : W A) : (forall c, c_remote (snd (m c)) = c_remote c) -> thrifty m.
Proof. intros H c r c' E. specialize (H c). rewrite E in H. cbn in H. rewrite H. apply spends_refl. Qed.
Lemma thrifty_ret {A} (a : A) : thrifty (mret a). Proof. apply thrifty_id. reflexivity. Qed.
Lemma thrifty_raise {A} e : thrifty (wraise e : W A). Proof. apply thrifty_id. reflexivity. Qed.
Lemma thrifty_get : thrifty getW. Proof. apply thrifty_id. reflexivity. Qed.
Lemma thrifty_lift {A} (x : result A) : thrifty (liftW x). Proof. apply thrifty_id. reflexivity. Qed.
Lemma thrifty_mod f : (forall c, c_remote (f c) = c_remote c) -> thrifty (modW f). Proof. intros H. apply thrifty_id. exact H. Qed.
Lemma thrifty_bind {A B} (m : W A) (f : A -> W B) : thrifty m -> (forall a, thrifty (f a)) -> thrifty (m ≫= f).
Proof.
  intros Hm Hf c r c' E. apply bind_spec in E as [(a & c1 & E1 & E2)|(e & E & ->)]; [|eapply Hm; eassumption].
  eapply spends_trans; [eapply Hm|eapply Hf]; eassumption.
Qed.
Lemma thrifty_try {A} (m : W A) h : thrifty m -> (forall e, thrifty (h e)) -> thrifty (wtry m h).
Proof.
  intros Hm Hh c r c' E. unfold wtry in E. destruct (m c) as [[a|e] c1] eqn:E1.
  - injection E as <- <-. eapply Hm. eassumption.
  - eapply spends_trans; [eapply Hm|eapply Hh]; eassumption.
Qed.
Lemma thrifty_finally {A} (m : W A) f : thrifty m -> thrifty f -> thrifty (wfinally m f).
Proof.
  intros Hm Hf c r c' E. apply finally_spec in E as (r1 & c1 & E1 & [(u & E2 & ->)|(e & E2 & ->)]);
    (eapply spends_trans; [eapply Hm|eapply Hf]; eassumption).
Qed.
Lemma thrifty_via {A} (m : C A) : thriftyC m -> thrifty (via m).
Proof. intros H c r c' E. unfold via in E. destruct (m (c_remote c)) as [x v] eqn:Em. injection E as _ <-. eapply H. eassumption. Qed.
Lemma thriftyC_bind {A B} (m : C A) (f : A -> C B) : thriftyC m -> (forall a, thriftyC (f a)) -> thriftyC (m ≫= f).
Proof.
  intros Hm Hf v r v' E. unfold mbind, C_bind in E. destruct (m v) as [[a|e] v1] eqn:E1.
  - eapply spends_trans; [eapply Hm|eapply Hf]; eassumption.
  - injection E as <- <-. eapply Hm. eassumption.
Qed.
Lemma thriftyC_ret {A} (a : A) : thriftyC (mret a).
Proof. intros v r v' [= _ <-]. apply spends_refl. Qed.
Lemma thriftyC_raise {A} e : thriftyC (craise e : C A).
Proof. intros v r v' [= _ <-]. apply spends_refl. Qed.

Section thrifty.
  Variable exec : proc -> M xres.
  Variable sha512 : bytes -> bytes.
  Lemma request_any_state_s q v x v' : request exec sha512 q v = (x, v') -> r_os v' = r_os v \/ r_os v' = (handle exec sha512 q (r_os v)).2.
  Proof.
    intros E. destruct v as [s l]. apply request_as_up in E as [[H _]|(x0 & v0 & E & -> & _ & He)]; [left; exact H|].
    right. eapply request_state; [exact He|exact E].
  Qed.
  Lemma thriftyC_request q : looks q -> thriftyC (request exec sha512 q).
  Proof.
    intros Hq v r v' E. apply request_any_state_s in E as [-> | ->]; [apply spends_refl|apply handle_spends; assumption].
  Qed.
  Ltac thrifty_conn := apply thriftyC_bind; [apply thriftyC_request; exact I|intros []; first [apply thriftyC_ret|apply thriftyC_raise]].
  Lemma thrifty_resolve_user u : thrifty (resolve_user exec sha512 u).
  Proof. apply thrifty_via. thrifty_conn. Qed.
  Lemma thrifty_resolve_group u : thrifty (resolve_group exec sha512 u).
  Proof. apply thrifty_via. thrifty_conn. Qed.
  Lemma thrifty_stat p follow sha : thrifty (stat exec sha512 p follow sha).
  Proof.
    apply thrifty_via. intros v r v' E. unfold conn_stat in E. destruct (request _ _ _ v) as [x v1] eqn:Er.
    apply thriftyC_request in Er; [|exact I]. destruct x as [p0|e]; [destruct p0|destruct (is_ValueError e)]; injection E as _ <-; exact Er.
  Qed.
  Lemma thrifty_download p : thrifty (download exec sha512 p).
  Proof. apply thrifty_via. thrifty_conn. Qed.
  Lemma thrifty_or_default {A} (m : W A) d : thrifty m -> thrifty (or_default m d).
  Proof.
    intros H. apply thrifty_try; [apply thrifty_bind; [assumption|intros; apply thrifty_ret]|]. intros e.
    destruct (is_ValueError e); [apply thrifty_ret|apply thrifty_raise].
  Qed.
  Lemma thrifty_download_or p d : thrifty (download_or exec sha512 p d).
  Proof. apply thrifty_or_default, thrifty_download. Qed.
  Lemma thrifty_query_user u h d : thrifty (query_user exec sha512 u h d).
  Proof. apply thrifty_or_default, thrifty_via. thrifty_conn. Qed.
  Lemma thrifty_query_group g d : thrifty (query_group exec sha512 g d).
  Proof. apply thrifty_or_default, thrifty_via. thrifty_conn. Qed.
  Lemma thrifty_home_dir u : thrifty (home_dir exec sha512 u).
  Proof.
    apply thrifty_bind; [destruct u; [apply thrifty_ret|apply thrifty_resolve_user]|]. intros x.
    apply thrifty_bind; [apply thrifty_via; thrifty_conn|intros; apply thrifty_ret].
  Qed.
  Lemma thrifty_getenv k d : thrifty (getenv exec sha512 k d).
  Proof. apply thrifty_bind; [apply thrifty_via; thrifty_conn|intros; apply thrifty_ret]. Qed.
  Lemma thrifty_current_of i : thrifty (current_of i).
  Proof. apply thrifty_id. intros c. unfold current_of. destruct (c_scripts c !! i); reflexivity. Qed.
  Lemma thrifty_current : thrifty current_defaults.
  Proof. apply thrifty_id. intros c. unfold current_defaults, current_of. destruct (c_script c) as [i|]; [destruct (c_scripts c !! i)|]; reflexivity. Qed.
  Lemma thrifty_resolved f o : (forall x, thrifty (f x)) -> thrifty (resolved f o).
  Proof. intros H. destruct o; cbn; [|apply thrifty_ret]. apply thrifty_bind; [apply H|]. intros. apply thrifty_ret. Qed.
  Lemma thrifty_check_mask m : thrifty (check_mask m).
  Proof. unfold check_mask. destruct m as [m|]; [destruct (py_int 8 m)|]; first [apply thrifty_ret|apply thrifty_raise]. Qed.
  Lemma thrifty_resolve_defaults q : thrifty (resolve_defaults exec sha512 q).
  Proof.
    unfold resolve_defaults. apply thrifty_bind; [apply thrifty_get|]. intros c. destruct (c_script c); [|apply thrifty_raise].
    apply thrifty_bind; [apply thrifty_current|]. intros cur.
    repeat (apply thrifty_bind; [apply thrifty_resolved; intros; first [apply thrifty_resolve_user|apply thrifty_resolve_group]|intros]).
    repeat (apply thrifty_bind; [apply thrifty_check_mask|intros]).
    apply thrifty_bind; [|intros; apply thrifty_ret].
    destruct (s_cwd (overlay cur q)) as [[|x d]|]; try apply thrifty_ret.
    apply thrifty_bind; [apply thrifty_stat|]. intros [st|]; [|apply thrifty_raise].
    destruct (str_eqb (st_type st) (lit "dir")); first [apply thrifty_ret|apply thrifty_raise].
  Qed.
  Lemma thrifty_defaults i q : thrifty (defaults i q).
  Proof.
    unfold defaults. repeat (apply thrifty_bind; [apply thrifty_lift|intros]). apply thrifty_bind; [apply thrifty_get|]. intros.
    apply thrifty_bind; [apply thrifty_current_of|]. intros. apply thrifty_ret.
  Qed.
  Lemma thrifty_enter i q : thrifty (enter_defaults exec sha512 i q).
  Proof.
    unfold enter_defaults. apply thrifty_bind; [apply thrifty_resolve_defaults|]. intros. apply thrifty_bind; [apply thrifty_mod; reflexivity|].
    intros. apply thrifty_bind; [apply thrifty_get|]. intros. apply thrifty_ret.
  Qed.
  Lemma thrifty_with {A} i q (body : settings -> W A) : (forall d, thrifty (body d)) -> thrifty (with_defaults exec sha512 i q body).
  Proof.
    intros H. unfold with_defaults. apply thrifty_bind; [apply thrifty_defaults|]. intros. apply thrifty_bind; [apply thrifty_enter|]. intros.
    apply thrifty_finally; [apply H|apply thrifty_mod; reflexivity].
  Qed.
  Lemma thrifty_script_defaults {A} q (body : settings -> W A) : (forall d, thrifty (body d)) -> thrifty (script_defaults exec sha512 q body).
  Proof.
    intros Hb c r c' E. unfold script_defaults in E. destruct (c_script c) as [i|]; [eapply thrifty_with; eassumption|].
    injection E as _ <-. apply spends_refl.
  Qed.
End thrifty.
