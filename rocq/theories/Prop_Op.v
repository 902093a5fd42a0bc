(** Properties C39 and C40: results of operations. *)
From stdpp Require Import gmap.
From Verif Require Import Base Dict_proofs Paths Sys Dispatcher Client Remote_examples Control Control_proofs Prop_Control Op Spec_Op Op_proofs Coreutils Files.
Local Open Scope nat_scope.

(** ** C39 *)
(** Whatever calls of the API an operation makes: both states can be recorded once only. *)
Theorem C39_recorded_once : forall l o c c', calls l new_op c = (Ok (tt, o), c') ->
  length (initials l) <= 1 /\ length (finals l) <= 1.
Proof. intros l o c c' E. apply calls_once in E as (_ & H1 & H2 & _). auto. Qed.
Print Assumptions C39_recorded_once.
(** For an operation that does not nest others, success reports the recorded states, and a change iff they differ as dictionaries. *)
Theorem C39_truthful : forall l o c c' r o' c2, nestings l = [] ->
  calls l new_op c = (Ok (tt, o), c') -> success o c' = (Ok (r, o'), c2) ->
  exists i f, initials l = [i] /\ finals l = [f] /\ or_success r = true /\ or_initial r = i /\ or_final r = f /\ or_message r = None /\
    (proper (VDict i) -> proper (VDict f) -> or_changed r = true <-> ~ same (VDict i) (VDict f)).
Proof.
  intros l o c c' r o' c2 Hn E Es. apply calls_recorded in E as (_ & _ & H1 & H2); [|assumption].
  apply success_spec in Es as (_ & _ & i & f & Hi & Hf & ->). rewrite Hi in H1. rewrite Hf in H2. exists i, f. split_and!; auto.
  intros Pi Pf. cbn [or_changed]. rewrite <- (py_eq_same _ _ Pi Pf). destruct (py_eq _ _); cbn [negb]; (split; intros H); [discriminate H|destruct H; reflexivity|discriminate|reflexivity].
Qed.
Print Assumptions C39_truthful.
(** An operation that nests others reports a change iff one of them recorded a change. *)
Theorem C39_nested : forall l o c c' r o' c2, nestings l = [] ->
  calls (CNested true :: l) new_op c = (Ok (tt, o), c') -> success o c' = (Ok (r, o'), c2) ->
  or_success r = true /\ keys (or_initial r) = (additions l).*1 /\
  (Forall (fun kr => proper (VDict (or_initial (snd kr))) /\ proper (VDict (or_final (snd kr)))) (additions l) ->
   or_changed r = true <-> exists k x, (k, x) ∈ additions l /\ ~ same (VDict (or_initial x)) (VDict (or_final x))).
Proof.
  intros l o c c' r o' c2 Hn E Es. apply calls_nested in E as (_ & _ & _ & Hk & H1 & H2); [|assumption].
  apply success_spec in Es as (_ & _ & i & f & Hi & Hf & ->). rewrite Hi in H1. rewrite Hf in H2. cbn in H1, H2.
  change (i = (fun kr => (fst kr, VDict (or_initial (snd kr)))) <$> additions l) in H1.
  change (f = (fun kr => (fst kr, VDict (or_final (snd kr)))) <$> additions l) in H2. clear Hi Hf.
  cbn [or_success or_initial or_changed].
  assert (Ki : keys i = (additions l).*1) by (rewrite H1; unfold keys; rewrite <- list_fmap_compose; reflexivity).
  assert (Kf : keys f = (additions l).*1) by (rewrite H2; unfold keys; rewrite <- list_fmap_compose; reflexivity).
  split; [reflexivity|]. split; [assumption|]. intros Hp. rewrite Forall_forall in Hp.
  assert (Pi : proper (VDict i)).
  { constructor; [rewrite Ki; assumption|]. apply Forall_forall. intros kv Hkv. rewrite H1 in Hkv.
    apply elem_of_list_fmap in Hkv as (kr & -> & Hkr). apply (Hp kr Hkr). }
  assert (Pf : proper (VDict f)).
  { constructor; [rewrite Kf; assumption|]. apply Forall_forall. intros kv Hkv. rewrite H2 in Hkv.
    apply elem_of_list_fmap in Hkv as (kr & -> & Hkr). apply (Hp kr Hkr). }
  pose proof (py_eq_same _ _ Pi Pf) as Heq.
  assert (Hsame : same (VDict i) (VDict f) <-> forall k x, (k, x) ∈ additions l -> same (VDict (or_initial x)) (VDict (or_final x))).
  { split.
    - intros H k x Hin. inversion H as [| | | | | | |? ? _ Hv]; subst d e. apply (Hv k).
      + rewrite H1. apply elem_of_list_fmap. exists (k, x). auto.
      + rewrite H2. apply elem_of_list_fmap. exists (k, x). auto.
    - intros H. constructor; [rewrite Ki, Kf; auto|]. intros k v w Hv Hw. rewrite H1 in Hv. rewrite H2 in Hw.
      apply elem_of_list_fmap in Hv as ([k1 x1] & [= -> ->] & Hin1). apply elem_of_list_fmap in Hw as ([k2 x2] & [= -> ->] & Hin2).
      assert (x1 = x2) as ->.
      { apply in_dget in Hin1; [|assumption]. apply in_dget in Hin2; [|assumption]. congruence. }
      eauto. }
  destruct (py_eq (VDict i) (VDict f)) eqn:Eq; cbn [negb].
  - split; [discriminate|]. intros (k & x & Hin & Hx). destruct Hx. apply Hsame with k; [apply Heq; reflexivity|assumption].
  - split; [|reflexivity]. intros _.
    cut (Exists (fun kx => ~ same (VDict (or_initial (snd kx))) (VDict (or_final (snd kx)))) (additions l)).
    { rewrite Exists_exists. intros ([k x] & Hin & H). eauto. }
    clear -Heq Hsame Hp.
    assert (Hno : ~ same (VDict i) (VDict f)) by (rewrite <- Heq; discriminate). rewrite Hsame in Hno. clear Hsame Heq.
    induction (additions l) as [|[k x] a IH].
    + destruct Hno. intros k x H. inversion H.
    + destruct (Hp (k, x)) as [P1 P2]; [left|]. cbn in P1, P2.
      destruct (py_eq (VDict (or_initial x)) (VDict (or_final x))) eqn:E.
      * apply Exists_cons_tl. apply IH; [intros y Hy; apply Hp; right; assumption|].
        intros H. apply Hno. intros k' x' Hin. apply elem_of_cons in Hin as [[= -> ->]|Hin]; [|eauto]. apply (py_eq_same _ _ P1 P2). assumption.
      * apply Exists_cons_hd. cbn. rewrite <- (py_eq_same _ _ P1 P2). congruence.
Qed.
Print Assumptions C39_nested.
(** A failed result reports no change. *)
Theorem C39_failure : forall msg o c r o' c', failure msg o c = (Ok (r, o'), c') ->
  or_success r = false /\ or_changed r = false /\ or_message r = Some msg.
Proof. intros msg o c r o' c' [= <- _ _]. auto. Qed.
Print Assumptions C39_failure.
Example C39_example :
  let i := [(lit "exists", VBool true); (lit "mode", VStr (lit "755"))] in
  let f m := [(lit "mode", VStr (lit m)); (lit "exists", VBool true)] in
  let report l := match (_ ← calls l; success) new_op ex_ctl with (Ok (r, _), _) => Some (or_changed r) | _ => None end in
  report [CFinal (f "700"); CInitial i; CUnchanged false; CChanged (lit "mode")] = Some true /\
  report [CFinal (f "755"); CInitial i] = Some false /\
  report [CFinal (f "755"); CInitial i; CFinal i] = None /\
  report [CNested true; CAdd (lit "a") (OpRes true true i (f "700") None); CAdd (lit "b") (OpRes true false i i None)] = Some true /\
  report [CNested true; CAdd (lit "a") (OpRes true true i (f "700") None); CAdd (lit "a") (OpRes true false i i None)] = None.
Proof. vm_compute. split_and!; reflexivity. Qed.
(** ignore_none has no effect on values: a None in the final state that is ignored according to the documentation counts as a
    change (143: the condition is about the key). *)
Example C39_ignore_none :
  let x := calls [CInitial [(lit "gid", VInt 5)]; CFinal [(lit "gid", VNone)]] in
  fst ((_ ← x; unchanged true) new_op ex_ctl) = Ok (false, Op false (Some [(lit "gid", VInt 5)]) (Some [(lit "gid", VNone)]) []).
Proof. vm_compute. reflexivity. Qed.

(** ** C40 *)
(** The full claim: with check=False, however it is passed, no failure raises:
      forall f c, exists r, fst (operation (Keyword false) f c) = Ok r /\ fst (operation (Positional false) f c) = Ok r
    for all operations [f].  It is false: exceptions are raised again whatever [check] is, and a positional [check] is ignored. *)
Theorem C40_check_refuted :
  (exists c, fst (operation (Keyword false) (directory (coreutils echo) fake_hash false (lit "/none/dir") true false None None None) c)
     = Err (CalledProcessError 1 (Some []) (Some []) [lit "mkdir"; lit "--"; lit "/none/dir"])) /\
  (exists c msg, fst (operation (Positional false) (directory (coreutils echo) fake_hash false (lit "/etc/app.conf") true false None None None) c)
     = Err (OperationError msg)).
Proof. split; [exists ex_inside; vm_compute; reflexivity|]. exists ex_inside. eexists. vm_compute. reflexivity. Qed.
Print Assumptions C40_check_refuted.
(** What holds: a failure that the operation returns is raised as an OperationError with its message, unless check=False is given by
    keyword; then it is returned.  Exceptions are raised in any case, successes returned in any case. *)
Theorem C40_check_partial : forall a f c,
  match f new_op c with
  | (Ok (r, _), c') =>
      or_success r = true \/ a = Keyword false -> operation a f c = (Ok r, c')
  | (Err e, c') => operation a f c = (Err e, c')
  end /\
  (forall r o c', f new_op c = (Ok (r, o), c') -> or_success r = false -> a <> Keyword false ->
     exists msg, operation a f c = (Err (OperationError msg), c') /\ forall m, or_message r = Some m -> msg = m).
Proof.
  intros a f c. unfold operation. split.
  - unfold mbind, W_bind. destruct (f new_op c) as [[[r o]|e] c']; [|reflexivity]. cbn. intros [-> | ->]; cbn; [|reflexivity].
    destruct (seen_check a); reflexivity.
  - intros r o c' E Hr Ha. unfold mbind, W_bind. rewrite E. cbn. rewrite Hr. exists (default (lit "None") (or_message r)).
    split; [|intros m ->; reflexivity]. destruct a as [|[]|]; try reflexivity. destruct Ha. reflexivity.
Qed.
Print Assumptions C40_check_partial.
Example C40_example :
  fst (operation (Keyword false) (directory (coreutils echo) fake_hash false (lit "/etc/app.conf") true false None None None) ex_inside)
    = Ok (OpRes false false [] (file_state true (Some (lit "700")) (Some (lit "root")) (Some (lit "root")) false)
            (Some (lit "path '/etc/app.conf' exists but is not a directory!"))).
Proof. vm_compute. reflexivity. Qed.
