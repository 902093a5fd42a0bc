(** Operations that are only tried: what they send, and what they return. *)
From stdpp Require Import gmap.
From Verif Require Import Base Utf8 Codec Paths Sys Spec_Sys Sys_proofs Dispatcher Client Spec_Remote Control Spec_Control Control_proofs Control_settle Quiet Op Op_proofs Files Files_plain Spec_Files Shell_proofs Steps.
Local Open Scope nat_scope.

(** ** Operations that do not change the remote host *)
Definition oquiet {A} (m : O A) : Prop := forall o, quiet (m o).
Lemma oquiet_bind {A B} (m : O A) (f : A -> O B) : oquiet m -> (forall a, oquiet (f a)) -> oquiet (m ≫= f).
Proof. intros Hm Hf o. apply quiet_bind; [apply Hm|]. intros [a o']. apply Hf. Qed.
Lemma oquiet_ret {A} (a : A) : oquiet (mret a). Proof. intros o. apply quiet_ret. Qed.
Lemma oquiet_raise {A} e : oquiet (oraise e : O A). Proof. intros o. apply quiet_raise. Qed.
Lemma oquiet_lift {A} (m : W A) : quiet m -> oquiet (olift m).
Proof. intros H o. apply quiet_bind; [exact H|]. intros. apply quiet_ret. Qed.
Lemma oquiet_get : oquiet getO. Proof. intros o. apply quiet_ret. Qed.
Lemma oquiet_put o : oquiet (putO o). Proof. intros o'. apply quiet_ret. Qed.
Ltac oq0 := repeat first [apply oquiet_ret|apply oquiet_raise|apply oquiet_get|apply oquiet_put|apply oquiet_lift, quiet_lift|apply oquiet_bind; [|intros ?]
  |match goal with |- oquiet (if ?b then _ else _) => destruct b | |- oquiet (match ?x with _ => _ end) => destruct x end].
Lemma oquiet_nested b : oquiet (nested b). Proof. unfold nested. oq0. Qed.
Lemma oquiet_add k r : oquiet (add_nested_result k r). Proof. unfold add_nested_result. oq0. Qed.
Lemma oquiet_initial k : oquiet (initial_state k). Proof. unfold initial_state. oq0. Qed.
Lemma oquiet_final k : oquiet (final_state k). Proof. unfold final_state. oq0. Qed.
Lemma oquiet_unchanged b : oquiet (unchanged b). Proof. unfold unchanged. oq0. Qed.
Lemma oquiet_changed k : oquiet (changed k). Proof. unfold changed. oq0. Qed.
Lemma oquiet_diff f a b : oquiet (diff f a b). Proof. unfold diff. oq0. Qed.
Lemma oquiet_failure m : oquiet (failure m). Proof. unfold failure. oq0. Qed.
Lemma oquiet_success : oquiet success.
Proof. unfold success. apply oquiet_bind; [apply oquiet_get|]. intros o. destruct (op_initial o), (op_final o); oq0. Qed.
Lemma quiet_operation a (m : O opres) : oquiet m -> quiet (operation a m).
Proof. intros H. unfold operation. apply quiet_bind; [apply H|]. intros x. destruct (_ && _); [apply quiet_raise|apply quiet_ret]. Qed.

(** ** Operations that only use the connection *)
Definition oremote {A} (m : O A) : Prop := forall o, remotely (m o).
Lemma oremote_bind {A B} (m : O A) (f : A -> O B) : oremote m -> (forall a, oremote (f a)) -> oremote (m ≫= f).
Proof. intros Hm Hf o. apply remotely_bind; [apply Hm|]. intros [a o']. apply Hf. Qed.
Lemma oremote_ret {A} (a : A) : oremote (mret a). Proof. intros o. apply remotely_ret. Qed.
Lemma oremote_raise {A} e : oremote (oraise e : O A). Proof. intros o. apply remotely_raise. Qed.
Lemma oremote_lift {A} (m : W A) : remotely m -> oremote (olift m).
Proof. intros H o. apply remotely_bind; [exact H|]. intros. apply remotely_ret. Qed.
Lemma oremote_get : oremote getO. Proof. intros o. apply remotely_ret. Qed.
Lemma oremote_put o : oremote (putO o). Proof. intros o'. apply remotely_ret. Qed.
Ltac or0 := repeat first [apply oremote_ret|apply oremote_raise|apply oremote_get|apply oremote_put|apply oremote_lift, remotely_lift|apply oremote_bind; [|intros ?]
  |match goal with |- oremote (if ?b then _ else _) => destruct b | |- oremote (match ?x with _ => _ end) => destruct x end].
Lemma oremote_initial k : oremote (initial_state k). Proof. unfold initial_state. or0. Qed.
Lemma oremote_final k : oremote (final_state k). Proof. unfold final_state. or0. Qed.
Lemma oremote_unchanged b : oremote (unchanged b). Proof. unfold unchanged. or0. Qed.
Lemma oremote_changed k : oremote (changed k). Proof. unfold changed. or0. Qed.
Lemma oremote_diff f a b : oremote (diff f a b). Proof. unfold diff. or0. Qed.
Lemma oremote_failure m : oremote (failure m). Proof. unfold failure. or0. Qed.
Lemma oremote_success : oremote success.
Proof. unfold success. apply oremote_bind; [apply oremote_get|]. intros o. destruct (op_initial o), (op_final o); or0. Qed.

(** ** Work that leaves the state of the operation as it is *)
Definition okeeps {A} (m : O A) : Prop := forall o c x c', m o c = (Ok x, c') -> snd x = o.
Lemma obind_ok {A B} (m : O A) (f : A -> O B) o c x c' : (m ≫= f) o c = (Ok x, c') -> exists a o1 c1, m o c = (Ok (a, o1), c1) /\ f a o1 c1 = (Ok x, c').
Proof. unfold mbind, O_bind, mbind, W_bind. destruct (m o c) as [[[a o1]|e] c1]; [|discriminate]. cbn. intros E. exists a, o1, c1. auto. Qed.
Lemma obind_run {A B} (m : O A) (f : A -> O B) o c a o1 c1 : m o c = (Ok (a, o1), c1) -> (m ≫= f) o c = f a o1 c1.
Proof. intros E. unfold mbind, O_bind, mbind, W_bind. rewrite E. reflexivity. Qed.
Lemma okeeps_bind {A B} (m : O A) (f : A -> O B) : okeeps m -> (forall a, okeeps (f a)) -> okeeps (m ≫= f).
Proof. intros Hm Hf o c x c' E. apply obind_ok in E as (a & o1 & c1 & E1 & E2). rewrite (Hf _ _ _ _ _ E2). apply (Hm _ _ _ _ E1). Qed.
Lemma okeeps_ret {A} (a : A) : okeeps (mret a). Proof. intros o c x c' [= <- <-]. reflexivity. Qed.
Lemma okeeps_raise {A} e : okeeps (oraise e : O A). Proof. intros o c x c' [=]. Qed.
Lemma okeeps_lift {A} (m : W A) : okeeps (olift m).
Proof. intros o c x c' E. unfold olift, mbind, W_bind in E. destruct (m c) as [[a|e] c1]; [|discriminate]. injection E as <- <-. reflexivity. Qed.
Lemma okeeps_get : okeeps getO. Proof. intros o c x c' [= <- <-]. reflexivity. Qed.
Lemma okeeps_changed k : okeeps (changed k).
Proof.
  intros o c x c' E. unfold changed in E. apply obind_ok in E as (a & o1 & c1 & E1 & E2). injection E1 as <- <- <-.
  destruct (op_nested o); [discriminate|]. destruct (op_initial o), (op_final o); try discriminate. destruct (dget k l), (dget k l0); try discriminate.
  injection E2 as <- <-. reflexivity.
Qed.

(** ** Prediction: if the first succeeds, the second returns the same, and both leave the process as it is *)
Definition predicts {A} (real dry : O A) : Prop := forall o c x c', real o c = (Ok x, c') ->
  exists v, dry o c = (Ok x, set_remote v c).
Lemma predicts_same {A} (m : O A) : oremote m -> predicts m m.
Proof. intros H o c x c' E. exists (c_remote c'). rewrite E. f_equal. exact (H _ _ _ _ E). Qed.
Lemma predicts_bind {A B} (m : O A) (f f' : A -> O B) : oremote m -> (forall a, predicts (f a) (f' a)) -> predicts (m ≫= f) (m ≫= f').
Proof.
  intros Hm Hf o c x c' E. apply obind_ok in E as (a & o1 & c1 & E1 & E2). destruct (Hf _ _ _ _ _ E2) as [v Hv]. exists v.
  rewrite (obind_run _ _ _ _ _ _ _ E1), Hv. f_equal. rewrite (Hm _ _ _ _ E1). reflexivity.
Qed.
(** the result depends only on the state of the operation *)
Definition steady {A} (m : O A) : Prop := forall o c x c', m o c = (Ok x, c') -> forall c1, m o c1 = (Ok x, c1).
Lemma predicts_work {A B} (w : O A) (a : A) (k : A -> O B) : okeeps w -> (forall a a', k a = k a') -> steady (k a) -> predicts (w ≫= k) (mret a ≫= k).
Proof.
  intros Hw Hk Hs o c x c' E. apply obind_ok in E as (a' & o1 & c1 & E1 & E2). assert (Ho := Hw _ _ _ _ E1). cbn in Ho. subst o1. rewrite (Hk a' a) in E2. exists (c_remote c). rewrite set_remote_self.
  change ((mret a ≫= k) o c) with (k a o c). apply (Hs _ _ _ _ E2).
Qed.
Lemma steady_success : steady success.
Proof.
  intros o c x c' E c1. unfold success in *. apply obind_ok in E as (a & o1 & c2 & E1 & E2). injection E1 as <- <- <-.
  change ((getO ≫= ?f) o c1) with (f o o c1). cbn beta. destruct (op_initial o) as [i|] eqn:Hi, (op_final o) as [f|] eqn:Hf; try discriminate.
  apply obind_ok in E2 as (u & o1 & c3 & E3 & E4). unfold unchanged in E3. apply obind_ok in E3 as (o2 & o3 & c4 & E5 & E6). injection E5 as <- <- <-. rewrite Hi, Hf in E6. injection E6 as <- <- <-. injection E4 as <- <-.
  assert (Hu : unchanged false o c1 = (Ok (py_eq (VDict i) (VDict f), o), c1)). { unfold unchanged. change ((getO ≫= ?f) o c1) with (f o o c1). cbn beta. rewrite Hi, Hf. reflexivity. }
  rewrite (obind_run _ _ _ _ _ _ _ Hu). reflexivity.
Qed.
Section sending.
  Variable exec : proc -> M xres.
  Variable sha512 : bytes -> bytes.
  (** a command that only looks *)
  Definition harmless (cmd : list pystr) : Prop := forall p s, p_argv p = cmd -> unaffected s (snd (exec p s)).
  Lemma quiet_crun cmd : harmless cmd -> quiet (crun exec sha512 cmd).
  Proof.
    intros H c r c' E. destruct (crun_any exec sha512 cmd c r c' E) as [_ [[Hu _]|(p & s1 & x & H1 & H2 & H3 & _)]]; [exact Hu|].
    specialize (H p s1 H3). rewrite H2 in H. cbn in H. eapply unaffected_trans; eassumption.
  Qed.
  Lemma oquiet_defaults {A} q (body : settings -> O A) : (forall d, oquiet (body d)) -> oquiet (op_defaults exec sha512 q body).
  Proof. intros H o. apply quiet_script_defaults. intros d. apply H. Qed.
  Lemma oremote_defaults {A} q (body : settings -> O A) : (forall d, oremote (body d)) -> oremote (op_defaults exec sha512 q body).
  Proof. intros H o. apply remotely_block. intros d. apply H. Qed.
  Lemma predicts_defaults {A} q (f f' : settings -> O A) : (forall d, oremote (f d)) -> (forall d, oremote (f' d)) -> (forall d, predicts (f d) (f' d)) ->
    predicts (op_defaults exec sha512 q f) (op_defaults exec sha512 q f').
  Proof.
    intros Hr Hr' Hf o c x c' E. unfold op_defaults, script_defaults in E |- *. destruct (c_script c) as [i|] eqn:Hi; [|discriminate].
    unfold with_defaults in E. apply bind_spec in E as [(new & c0 & E1 & E)|(e & _ & [=])]. apply bind_spec in E as [(d & c1 & E2 & E)|(e & _ & [=])].
    unfold wfinally in E. destruct (f d o c1) as [[y|e] c2] eqn:E3; [|destruct (exit_defaults i c2) as [[]]; discriminate].
    destruct (Hf d o c1 y c2 E3) as [v Hv].
    assert (Hd : with_defaults exec sha512 i q (fun attr => f' attr o) c = (Ok y, snd (exit_defaults i (set_remote v c1)))).
    { unfold with_defaults. rewrite (bind_works _ _ _ _ _ E1), (bind_works _ _ _ _ _ E2). unfold wfinally. rewrite Hv. reflexivity. }
    assert (Hy : y = x) by (destruct (exit_defaults i c2) as [[]]; congruence). subst y.
    exists (c_remote (snd (exit_defaults i (set_remote v c1)))). rewrite Hd. f_equal.
    assert (Hb : op_defaults exec sha512 q f' o c = (Ok x, snd (exit_defaults i (set_remote v c1)))).
    { unfold op_defaults, script_defaults. rewrite Hi. exact Hd. }
    exact (oremote_defaults q f' Hr' _ _ _ _ Hb).
  Qed.
End sending.
