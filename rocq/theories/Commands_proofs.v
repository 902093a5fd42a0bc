From Coq Require Import Lia ZifyBool ZifyN ZifyNat.
From stdpp Require Import gmap.
From Verif Require Import Base Utf8 Dict_proofs Codec Spec_Codec Paths Sys Spec_Sys Sys_proofs Dispatcher Client Spec_Session Spec_Remote Remote_run Control Spec_Control Control_proofs
  Walk_proofs Quiet Op Op_proofs Files Files_plain Spec_Files Shell_proofs Steps System Spec_Commands.
Local Open Scope nat_scope.

Section commands.
  Variable exec : proc -> M xres.
  Variable sha512 : bytes -> bytes.

  Lemma history_before s0 s l s' : unaffected s0 s -> history exec s l s' -> history exec s0 l s'.
  Proof using exec.
    intros H0 H. destruct H as [s s' H|s s1 p x s2 l s' H1 H2 H3].
    - constructor. eapply unaffected_trans; eassumption.
    - econstructor; [|exact H2|exact H3]. eapply unaffected_trans; eassumption.
  Qed.
  Lemma history_app s l1 s1 l2 s2 : history exec s l1 s1 -> history exec s1 l2 s2 -> history exec s (l1 ++ l2) s2.
  Proof.
    intros H1 H2. induction H1 as [s s' H|s s1 p x s3 l s' H3 H4 _ IH].
    - eapply history_before; eassumption.
    - econstructor; [exact H3|exact H4|]. apply IH. exact H2.
  Qed.
  Lemma history_one s s1 p x s' : unaffected s s1 -> exec p s1 = (x, s') -> history exec s [p_argv p] s'.
  Proof. intros H1 H2. econstructor; [exact H1|exact H2|]. constructor. apply unaffected_refl. Qed.

  (** [m] runs commands [l] from [s] to [s'] with result [r], such that [P s l s' r] *)
  Definition does {A} (m : W A) (P : os -> list (list pystr) -> os -> result A -> Prop) : Prop := forall c r c', m c = (r, c') ->
    c' = set_remote (c_remote c') c /\ exists l, history exec (sysof c) l (sysof c') /\ P (sysof c) l (sysof c') r.
  Lemma does_mono {A} (m : W A) (P Q : os -> list (list pystr) -> os -> result A -> Prop) : does m P -> (forall s l s' r, P s l s' r -> Q s l s' r) -> does m Q.
  Proof. intros H1 H2 c r c' E. destruct (H1 c r c' E) as [E1 (l & E2 & E3)]. split; [exact E1|]. exists l. auto. Qed.
  Lemma does_ret {A} (a : A) : does (mret a) (fun s l s' r => l = [] /\ s' = s /\ r = Ok a).
  Proof. intros c r c' E. injection E as <- <-. split; [symmetry; apply set_remote_self|]. exists []. split; [constructor; apply unaffected_refl|]. auto. Qed.
  Lemma does_raise {A} e : does (wraise e : W A) (fun s l s' r => l = [] /\ s' = s /\ r = Err e).
  Proof. intros c r c' E. injection E as <- <-. split; [symmetry; apply set_remote_self|]. exists []. split; [constructor; apply unaffected_refl|]. auto. Qed.
  Lemma does_bind {A B} (m : W A) (f : A -> W B) P Q (R : os -> list (list pystr) -> os -> result B -> Prop) : does m P -> (forall a, does (f a) (Q a)) ->
    (forall s l s' e, P s l s' (Err e) -> R s l s' (Err e)) ->
    (forall s l1 s1 a l2 s2 r, P s l1 s1 (Ok a) -> Q a s1 l2 s2 r -> R s (l1 ++ l2) s2 r) ->
    does (m ≫= f) R.
  Proof.
    intros H1 H2 H3 H4 c r c' E. apply bind_spec in E as [(a & c1 & E1 & E2)|(e & E & ->)].
    - destruct (H1 _ _ _ E1) as [F1 (l1 & F2 & F3)]. destruct (H2 a _ _ _ E2) as [G1 (l2 & G2 & G3)]. split.
      + rewrite G1, F1. reflexivity.
      + exists (l1 ++ l2). split; [eapply history_app; eassumption|]. eapply H4; eassumption.
    - destruct (H1 _ _ _ E) as [F1 (l1 & F2 & F3)]. split; [exact F1|]. exists l1. split; [exact F2|]. apply H3. exact F3.
  Qed.

  (** a command was run, or the request for it failed *)
  Definition ran chk cmd s (l : list (list pystr)) s' (r : result completed) : Prop :=
    (l = [] /\ unaffected s s' /\ exists e, r = Err e) \/
    (l = [cmd] /\ exists p s1 x, unaffected s s1 /\ exec p s1 = (x, s') /\ p_argv p = cmd /\ (run_result chk cmd x r \/ exists e, r = Err e)).
  Lemma run_does chk cmd : does (run exec sha512 cmd None true chk None None None None) (ran chk cmd).
  Proof.
    intros c r c' E. apply run_any in E as [H1 [[H2 H3]|(p & s1 & x & H2 & H3 & H4 & H5)]]; (split; [exact H1|]).
    - exists []. split; [constructor; exact H2|]. left. auto.
    - exists [cmd]. split; [rewrite <- H4; eapply history_one; eassumption|]. right. split; [reflexivity|]. exists p, s1, x. auto.
  Qed.
  (** the command ended *)
  Lemma ran_ok chk cmd s l s' z : bounded exec -> ran chk cmd s l s' (Ok z) ->
    l = [cmd] /\ exists p s1 rc out err, unaffected s s1 /\ exec p s1 = (Ok (XExit rc out err), s') /\ p_argv p = cmd /\
      z = Completed (Some out) (Some err) rc /\ (chk = true -> rc = 0%Z).
  Proof.
    clear sha512. intros Hb [(_ & _ & e & [=])|(-> & p & s1 & x & H1 & H2 & H3 & [H4|[e [=]]])]. split; [reflexivity|].
    destruct x as [[rc out err|e|]|e]; cbn in H4; try (destruct H4; discriminate); try discriminate.
    destruct (Hb _ _ _ _ _ _ H2) as (B1 & B2 & B3). specialize (H4 B1 B2 B3). exists p, s1, rc, out, err. split_and!; auto.
    - destruct (chk && negb (rc =? 0)%Z); [discriminate|]. injection H4 as ->. reflexivity.
    - intros ->. destruct (rc =? 0)%Z eqn:E; [lia|]. discriminate.
  Qed.
  Definition ranu cmd s (l : list (list pystr)) s' (r : result unit) : Prop :=
    (l = [] /\ unaffected s s' /\ exists e, r = Err e) \/
    (l = [cmd] /\ exists p s1 x, unaffected s s1 /\ exec p s1 = (x, s') /\ p_argv p = cmd /\ (r = Ok tt -> exists out err, x = Ok (XExit 0 out err))).
  Lemma sh_does cmd : bounded exec -> does (sh exec sha512 cmd) (ranu cmd).
  Proof.
    intros Hb. unfold sh. eapply does_bind; [apply run_does|intros; apply does_ret|..].
    - intros s l s' e [(-> & H1 & _)|(-> & p & s1 & x & H1 & H2 & H3 & _)].
      + left. eauto.
      + right. split; [reflexivity|]. exists p, s1, x. split_and!; auto. intros [=].
    - intros s l1 s1 z l2 s2 r H (-> & -> & ->). apply ran_ok in H as (-> & p & s3 & rc & out & err & H1 & H2 & H3 & H4 & H5); [|assumption].
      right. split; [reflexivity|]. exists p, s3, (Ok (XExit rc out err)). split_and!; auto. intros _. rewrite H5 by reflexivity. eauto.
  Qed.

  (** the same on a connection that works *)
  Lemma run_healthy chk cmd c good : bounded exec -> fine c -> sendable cmd -> dependable exec cmd good ->
    exists rc out err c', good rc out /\ fine c' /\
      run exec sha512 cmd None true chk None None None None c =
        (if chk && negb (rc =? 0)%Z then Err (CalledProcessError rc (Some out) (Some err) cmd) else Ok (Completed (Some out) (Some err) rc), c').
  Proof.
    intros Hb Hf (H1 & H2 & H3) Hd. destruct (run exec sha512 cmd None true chk None None None None c) as [r c'] eqn:E.
    destruct (run_fine exec sha512 _ _ _ _ _ E Hf H1 H2 H3) as (p & x & F1 & F2 & F3 & F4).
    apply run_any in E as [E _]. destruct Hf as ((L1 & L2 & L3) & d & L4 & L5).
    destruct (Hd p (sysof c) F2 L2) as (rc & out & err & s' & G1 & G2 & G3 & G4 & G5). rewrite F1 in G1. injection G1 as -> <-.
    destruct (Hb _ _ _ _ _ _ F1) as (B1 & B2 & B3). specialize (F4 rc out err eq_refl B1 B2 B3). specialize (F3 B1 B2 B3).
    exists rc, out, err, c'. split; [exact G2|]. split.
    - split; [split_and!; [exact F4|exact G3|rewrite G4; exact L3]|]. exists d. split; [rewrite E; exact L4|]. apply G5. exact L5.
    - destruct (chk && negb (rc =? 0)%Z); rewrite F3; reflexivity.
  Qed.
  Lemma sh_healthy cmd c : bounded exec -> fine c -> sendable cmd -> dependable exec cmd ended ->
    exists c', fine c' /\ sh exec sha512 cmd c = (Ok tt, c').
  Proof.
    intros Hb Hf (H1 & H2 & H3) Hd. destruct (run_healthy true cmd c _ Hb Hf (conj H1 (conj H2 H3)) Hd) as (rc & out & err & c' & -> & Hf' & E).
    exists c'. split; [exact Hf'|]. unfold sh, crun, mbind, W_bind. rewrite E. reflexivity.
  Qed.
End commands.
