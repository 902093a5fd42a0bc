(** C83: what is said about an exception. *)
From Coq Require Import Lia.
From stdpp Require Import list.
From Verif Require Import Base Utf8 Logger Trace Spec_Trace.
Local Open Scope nat_scope.

Lemma raised_label d l e p : raised d l e p -> l ∈ labels d.
Proof. induction 1; cbn [labels]; rewrite ?elem_of_app, ?elem_of_list_singleton; auto. Qed.
Lemma raised_unique d l e p e' p' : NoDup (labels d) -> raised d l e p -> raised d l e' p' -> e = e' /\ p = p'.
Proof.
  intros H R. revert e' p' H. induction R; intros e' p' ND R'; inversion R'; subst; clear R'; cbn [labels] in ND; try (split; reflexivity);
    try (apply NoDup_app in ND as (N1 & N2 & N3)); try (apply IHR; assumption);
    try (exfalso; eapply N2; (eapply raised_label; eassumption)).
  edestruct IHR as [-> ->]; [exact ND|eassumption|]. split; reflexivity.
Qed.

(** ** The stack *)
Lemma print_once_stack e k t r t' : (forall e t r t', k e t = (r, t') -> t_stack t' = t_stack t) -> print_once e k t = (r, t') -> t_stack t' = t_stack t.
Proof.
  intros K. unfold print_once. destruct (x_exn e); try apply K. destruct (x_printed e); [apply K|]. destruct (process_error_shown out err).
  - intros H. apply K in H. exact H.
  - intros [= _ <-]. reflexivity.
Qed.
Lemma eval_stack d : forall t r t', eval d t = (r, t') -> t_stack t' = t_stack t.
Proof.
  induction d as [|l e|a IHa b IHb|f b IHb|b IHb|b IHb h IHh again]; intros t r t'; cbn [eval].
  - intros [= _ <-]. reflexivity.
  - intros [= _ <-]. reflexivity.
  - destruct (eval a t) as [[e|] t1] eqn:E; [intros [= _ <-]; exact (IHa _ _ _ E)|]. intros H. rewrite (IHb _ _ _ H). exact (IHa _ _ _ E).
  - unfold run_script. destruct (eval b _) as [r1 t1] eqn:E. apply IHb in E. cbn [t_stack] in E.
    assert (X : forall r2 t2, match r1 with Some e => if is_exception (x_exn e) then print_once e save_stack t1 else (Some e, t1) | None => (None, t1) end = (r2, t2) -> t_stack t2 = t_stack t1).
    { intros r2 t2. destruct r1 as [e|]; [|intros [= _ <-]; reflexivity]. destruct (is_exception _); [|intros [= _ <-]; reflexivity].
      apply print_once_stack. intros e' t3 r3 t4. unfold save_stack. intros [= _ <-]. reflexivity. }
    destruct (match r1 with Some e => _ | None => _ end) as [r2 t2] eqn:E2. specialize (X _ _ eq_refl). intros [= _ <-]. cbn [t_stack]. rewrite X, E. apply removelast_last.
  - unfold operation. destruct (eval b t) as [[e|] t1] eqn:E; apply IHb in E; [|intros [= _ <-]; exact E]. intros H. apply print_once_stack in H; [congruence|].
    intros e' t3 r3 t4 [= _ <-]. reflexivity.
  - destruct (eval b t) as [[e|] t1] eqn:E; apply IHb in E; [|intros [= _ <-]; exact E]. destruct (is_exception _); [|intros [= _ <-]; exact E].
    destruct (eval h t1) as [[e'|] t2] eqn:E2; apply IHh in E2; intros [= _ <-]; congruence.
Qed.

(** What the attributes of an exception say while it is on its way, [here] being the stack at the start. *)
Definition on_the_way (here : list site) (d : deed) (e : exc) : Prop := exists l path, x_from e = Some l /\ raised d l (x_exn e) path /\
  (is_exception (x_exn e) = true -> x_stack e = match path with [] => None | _ => Some (here ++ path) end).
Lemma print_once_way here d e k t r t' : captured d -> on_the_way here d e ->
  (forall e1, on_the_way here d e1 -> forall t1, k e1 t1 = (r, t') -> exists e2, r = Some e2 /\ on_the_way here d e2) -> print_once e k t = (r, t') -> exists e2, r = Some e2 /\ on_the_way here d e2.
Proof.
  intros C W K H. unfold print_once in H. destruct (x_exn e) eqn:Ee; try exact (K _ W _ H). destruct (x_printed e); [exact (K _ W _ H)|].
  destruct W as (l & path & W1 & W2 & W3). rewrite Ee in W2. destruct (C _ _ _ _ _ _ W2) as [[o ->] [o' ->]]. cbn [process_error_shown from_option mbind result_bind] in H.
  eapply K; [|exact H]. exists l, path. cbn [x_from x_exn x_stack]. rewrite Ee in *. auto.
Qed.
Lemma eval_way d : forall t e t', captured d -> eval d t = (Some e, t') -> on_the_way (t_stack t) d e.
Proof.
  induction d as [|l x|a IHa b IHb|f b IHb|b IHb|b IHb h IHh again]; intros t e t' C; cbn [eval].
  - discriminate.
  - intros [= <- _]. exists l, []. split; [reflexivity|]. split; [constructor|]. reflexivity.
  - assert (Ca : captured a) by (intros l p rc out err cmd R; eapply C, raised_first, R). assert (Cb : captured b) by (intros l p rc out err cmd R; eapply C, raised_second, R).
    destruct (eval a t) as [[e1|] t1] eqn:E.
    + intros [= <- _]. destruct (IHa _ _ _ Ca E) as (l & p & W1 & W2 & W3). exists l, p. split; [exact W1|]. split; [apply raised_first, W2|exact W3].
    + intros H. destruct (IHb _ _ _ Cb H) as (l & p & W1 & W2 & W3). exists l, p. split; [exact W1|]. split; [apply raised_second, W2|]. rewrite <- (eval_stack _ _ _ _ E). exact W3.
  - assert (Cb : captured b) by (intros l p rc out err cmd R; eapply C, raised_inside, R).
    unfold run_script. destruct (eval b _) as [r1 t1] eqn:E. pose proof (eval_stack _ _ _ _ E) as S. cbn [t_stack] in S.
    destruct r1 as [e1|]; [|discriminate]. pose proof (IHb _ _ _ Cb E) as W. cbn [t_stack] in W.
    destruct (is_exception (x_exn e1)) eqn:Ex.
    + destruct (print_once e1 save_stack t1) as [r2 t2] eqn:E2. intros [= -> _].
      unfold print_once in E2. assert (X : exists e3 t3, save_stack e3 t3 = (Some e, t2) /\ x_exn e3 = x_exn e1 /\ x_from e3 = x_from e1 /\ x_stack e3 = x_stack e1 /\ t_stack t3 = t_stack t1).
      { destruct (x_exn e1) eqn:Ee; try (exists e1, t1; rewrite Ee; auto; fail). destruct (x_printed e1); [exists e1, t1; rewrite Ee; auto|].
        destruct W as (l & path & W1 & W2 & W3). rewrite Ee in W2. destruct (Cb _ _ _ _ _ _ W2) as [[o ->] [o' ->]]. cbn [process_error_shown from_option mbind result_bind] in E2.
        eexists _, _. split; [exact E2|]. cbn. auto. }
      destruct X as (e3 & t3 & X & Y1 & Y2 & Y3 & Y4). unfold save_stack in X. injection X as X _. destruct W as (l & path & W1 & W2 & W3). exists l, (f :: path).
      rewrite Y3 in X. specialize (W3 Ex). rewrite W3 in X. destruct path as [|f' path]; subst e; cbn [x_from x_exn x_stack]; rewrite Y1, Y2.
      * split; [exact W1|]. split; [apply raised_inside, W2|]. intros _. rewrite Y4, S. reflexivity.
      * split; [exact W1|]. split; [apply raised_inside, W2|]. intros _. rewrite Y3, W3. rewrite <- app_assoc. reflexivity.
    + intros [= -> _]. destruct W as (l & path & W1 & W2 & W3). exists l, (f :: path). split; [exact W1|]. split; [apply raised_inside, W2|]. intros K. congruence.
  - assert (Cb : captured b) by (intros l p rc out err cmd R; eapply C, raised_operation, R).
    unfold operation. destruct (eval b t) as [[e1|] t1] eqn:E; [|discriminate]. pose proof (IHb _ _ _ Cb E) as W. intros H.
    apply (print_once_way (t_stack t) b e1 (fun e t => (Some e, t)) t1 _ _ Cb W) in H as (e2 & [= <-] & l & path & W1 & W2 & W3); [|intros e3 W3 t3 [= <- _]; eauto].
    exists l, path. split; [exact W1|]. split; [apply raised_operation, W2|exact W3].
  - assert (Cb : captured b) by (intros l p rc out err cmd R; eapply C, raised_tried, R). assert (Ch : captured h) by (intros l p rc out err cmd R; eapply C, raised_handler, R).
    destruct (eval b t) as [[e1|] t1] eqn:E; [|discriminate]. destruct (IHb _ _ _ Cb E) as (l & p & W1 & W2 & W3). pose proof (eval_stack _ _ _ _ E) as S.
    destruct (is_exception _) eqn:Ex.
    + destruct (eval h t1) as [[e'|] t2] eqn:E2.
      * intros [= <- _]. destruct (IHh _ _ _ Ch E2) as (l2 & p2 & V1 & V2 & V3). exists l2, p2. split; [exact V1|]. split; [apply raised_handler, V2|]. rewrite <- S. exact V3.
      * destruct again; [|discriminate]. intros [= <- _]. exists l, p. split; [exact W1|]. split; [apply raised_tried, W2|]. intros _. apply W3. reflexivity.
    + intros [= <- _]. exists l, p. split; [exact W1|]. split; [apply raised_tried, W2|]. intros K. congruence.
Qed.
(** The empty stack at the start of a deploy. *)
Definition fresh : told := Told [] [].

Lemma ordinary_exception e : ordinary e -> is_exception e = true.
Proof. intros (H1 & H2 & H3). destruct e; try reflexivity; [exfalso; eapply H1; reflexivity|congruence|congruence]. Qed.
(** Full statement (false): the same without [captured d].
    The exception that ends a deploy comes from one place, and its script stack names exactly the calls around this place. *)
Theorem C83_stack_partial : forall main d e t', captured d -> NoDup (labels d) -> eval (Call main d) fresh = (Some e, t') -> ordinary (x_exn e) ->
  exists l path, x_from e = Some l /\ raised (Call main d) l (x_exn e) path /\ x_stack e = Some path /\ forall e2 p2, raised (Call main d) l e2 p2 -> e2 = x_exn e /\ p2 = path.
Proof.
  intros main d e t' C ND H Ex%ordinary_exception. assert (C' : captured (Call main d)) by (intros l p rc out err cmd R; inversion R; subst; eapply C; eassumption).
  destruct (eval_way _ _ _ _ C' H) as (l & path & W1 & W2 & W3). exists l, path. split; [exact W1|]. split; [exact W2|]. specialize (W3 Ex). split.
  - rewrite W3. inversion W2; subst. reflexivity.
  - intros e2 p2 R. eapply raised_unique; [|exact R|exact W2]. exact ND.
Qed.
Print Assumptions C83_stack_partial.

(** ** The output of failed commands *)
Definition of_command (d : deed) (x : option nat * (pystr * pystr)) : Prop := exists l rc out err cmd p, x.1 = Some l /\
  raised d l (CalledProcessError rc (Some out) (Some err) cmd) p /\ x.2 = (utf8_decode_bsr out, utf8_decode_bsr err).
Definition failed_command (e : exn) : Prop := exists rc out err cmd, e = CalledProcessError rc out err cmd.
(** [new] is what was printed during [d]; [e] is what it raised. *)
Definition accounts (d : deed) (r : option exc) (new : list (option nat * (pystr * pystr))) : Prop :=
  NoDup (new.*1) /\ Forall (of_command d) new /\
  match r with
  | Some e => exists l path, x_from e = Some l /\ raised d l (x_exn e) path /\ (x_printed e = true -> x_from e ∈ new.*1) /\ (x_printed e = false -> x_from e ∉ new.*1) /\ (x_printed e = true -> failed_command (x_exn e))
  | None => True
  end.
Lemma of_command_label d x : of_command d x -> exists l, x.1 = Some l /\ l ∈ labels d.
Proof. intros (l & rc & out & err & cmd & p & H1 & H2 & _). exists l. split; [exact H1|]. eapply raised_label, H2. Qed.
Lemma shown_label d new l : Forall (of_command d) new -> Some l ∈ new.*1 -> l ∈ labels d.
Proof.
  intros H K. apply elem_of_list_fmap in K as (x & E & K). rewrite Forall_forall in H. destruct (of_command_label d x (H x K)) as (l' & E' & L). congruence.
Qed.
Lemma of_command_mono d d' new : (forall l e p, raised d l e p -> exists p', raised d' l e p') -> Forall (of_command d) new -> Forall (of_command d') new.
Proof.
  intros H F. eapply Forall_impl; [exact F|]. intros x (l & rc & out & err & cmd & p & H1 & H2 & H3). destruct (H _ _ _ H2) as [p' H2']. exists l, rc, out, err, cmd, p'. auto.
Qed.
Lemma two_parts a b d new1 new2 : (forall l, l ∈ labels a -> l ∉ labels b) -> (forall l e p, raised a l e p -> exists p', raised d l e p') -> (forall l e p, raised b l e p -> exists p', raised d l e p') ->
  NoDup new1.*1 -> NoDup new2.*1 -> Forall (of_command a) new1 -> Forall (of_command b) new2 ->
  NoDup (new1 ++ new2).*1 /\ Forall (of_command d) (new1 ++ new2).
Proof.
  intros D Ma Mb N1 N2 F1 F2. split.
  - rewrite fmap_app. apply NoDup_app. split; [exact N1|]. split; [|exact N2]. intros x H1 H2.
    destruct x as [l|]; [apply (D l); [exact (shown_label _ _ _ F1 H1)|exact (shown_label _ _ _ F2 H2)]|].
    apply elem_of_list_fmap in H1 as (y & E & H1). rewrite Forall_forall in F1. destruct (of_command_label _ _ (F1 y H1)) as (l & E' & _). congruence.
  - apply Forall_app. split; [exact (of_command_mono _ _ _ Ma F1)|exact (of_command_mono _ _ _ Mb F2)].
Qed.
(** printing once keeps the account, and prints what leaves a script or an operation *)
Lemma print_once_accounts d e k t r t' new t0 : captured d -> t_shown t = t_shown t0 ++ new -> accounts d (Some e) new ->
  (forall e1 t1, exists e2 t2, k e1 t1 = (Some e2, t2) /\ x_exn e2 = x_exn e1 /\ x_from e2 = x_from e1 /\ x_printed e2 = x_printed e1 /\ t_shown t2 = t_shown t1) -> print_once e k t = (r, t') ->
  exists e2 new2, r = Some e2 /\ x_exn e2 = x_exn e /\ t_shown t' = t_shown t0 ++ new2 /\ accounts d (Some e2) new2 /\ (failed_command (x_exn e2) -> x_printed e2 = true).
Proof.
  intros C Et (N & F & l & path & A1 & A2 & A3 & A4 & A5) K H.
  assert (Keep : (failed_command (x_exn e) -> x_printed e = true) -> k e t = (r, t') -> exists e2 new2, r = Some e2 /\ x_exn e2 = x_exn e /\ t_shown t' = t_shown t0 ++ new2 /\ accounts d (Some e2) new2 /\ (failed_command (x_exn e2) -> x_printed e2 = true)).
  { intros P Hk. destruct (K e t) as (e2 & t2 & Ek & K1 & K2 & K3 & K4). rewrite Ek in Hk. injection Hk as <- <-. exists e2, new. rewrite K4, Et, K3, K1.
    split; [reflexivity|]. split; [reflexivity|]. split; [reflexivity|]. split; [|exact P]. split; [exact N|]. split; [exact F|]. exists l, path. rewrite K1, K2, K3. auto 6. }
  unfold print_once in H. destruct (x_exn e) eqn:Ee; try (apply Keep; [|exact H]; intros (rc' & out' & err' & cmd' & Q); discriminate Q).
  destruct (x_printed e) eqn:Ep; [apply Keep; [reflexivity|exact H]|]. clear Keep.
  destruct (C _ _ _ _ _ _ A2) as [[o ->] [o' ->]]. cbn [process_error_shown from_option mbind result_bind] in H.
  set (e1 := Exc _ _ _ _) in H. set (t1 := Told _ _) in H. destruct (K e1 t1) as (e2 & t2 & Ek & K1 & K2 & K3 & K4). rewrite Ek in H. injection H as <- <-.
  subst e1 t1. cbn [x_exn x_from x_printed t_shown] in *. exists e2, (new ++ [(x_from e, (utf8_decode_bsr o, utf8_decode_bsr o'))]).
  split; [reflexivity|]. split; [congruence|]. split; [rewrite K4, Et, app_assoc; reflexivity|]. split; [|intros _; exact K3]. split; [|split].
  - rewrite fmap_app. apply NoDup_app. split; [exact N|]. split; [|apply NoDup_singleton]. intros x Hx Hx'. apply elem_of_list_singleton in Hx'. cbn [fst] in Hx'. subst x. exact (A4 eq_refl Hx).
  - apply Forall_app. split; [exact F|]. apply Forall_singleton. exists l, rc, o, o', cmd, path. cbn [fst snd]. auto.
  - exists l, path. rewrite K1, K2, K3. split; [exact A1|]. split; [exact A2|]. split; [|split; [discriminate|]].
    + intros _. rewrite fmap_app. apply elem_of_app. right. apply elem_of_list_singleton. reflexivity.
    + intros _. eexists _, _, _, _. reflexivity.
Qed.
Lemma eval_accounts d : forall t r t', captured d -> NoDup (labels d) -> eval d t = (r, t') -> exists new, t_shown t' = t_shown t ++ new /\ accounts d r new /\
  match d, r with (Call _ _ | Operate _), Some e => is_exception (x_exn e) = true -> failed_command (x_exn e) -> x_printed e = true | _, _ => True end.
Proof.
  induction d as [|l x|a IHa b IHb|f b IHb|b IHb|b IHb h IHh again]; intros t r t' C ND H; cbn [eval labels] in *.
  - injection H as <- <-. exists []. rewrite app_nil_r. split; [reflexivity|]. split; [|exact I]. split; [constructor|]. split; [constructor|exact I].
  - injection H as <- <-. exists []. rewrite app_nil_r. split; [reflexivity|]. split; [|exact I]. split; [constructor|]. split; [constructor|].
    exists l, []. split; [reflexivity|]. split; [constructor|]. cbn [x_printed]. split; [discriminate|]. split; [intros _; apply not_elem_of_nil|discriminate].
  - assert (Ca : captured a) by (intros l p rc out err cmd R; eapply C, raised_first, R). assert (Cb : captured b) by (intros l p rc out err cmd R; eapply C, raised_second, R).
    apply NoDup_app in ND as (Na & D & Nb). assert (Ma : forall l e p, raised a l e p -> exists p', raised (Seq a b) l e p') by (intros; eexists; apply raised_first; eassumption).
    assert (Mb : forall l e p, raised b l e p -> exists p', raised (Seq a b) l e p') by (intros; eexists; apply raised_second; eassumption).
    destruct (eval a t) as [[e1|] t1] eqn:E.
    + injection H as <- <-. destruct (IHa _ _ _ Ca Na E) as (new & S & (N & F & l & path & A1 & A2 & A3) & _). exists new. split; [exact S|]. split; [|exact I].
      split; [exact N|]. split; [exact (of_command_mono _ _ _ Ma F)|]. exists l, path. split; [exact A1|]. split; [apply raised_first, A2|exact A3].
    + destruct (IHa _ _ _ Ca Na E) as (new & S & (N & F & _) & _). destruct (IHb _ _ _ Cb Nb H) as (new2 & S2 & (N2 & F2 & A) & _).
      exists (new ++ new2). split; [rewrite S2, S, app_assoc; reflexivity|]. split; [|exact I]. destruct (two_parts a b (Seq a b) new new2 D Ma Mb N N2 F F2) as [T1 T2].
      split; [exact T1|]. split; [exact T2|]. destruct r as [e|]; [|exact I]. destruct A as (l & path & A1 & A2 & A3 & A4 & A5). exists l, path. split; [exact A1|]. split; [apply raised_second, A2|].
      split; [intros Hp; rewrite fmap_app; apply elem_of_app; right; exact (A3 Hp)|]. split; [|exact A5]. intros Hp. rewrite fmap_app, elem_of_app. intros [K|K]; [|exact (A4 Hp K)].
      rewrite A1 in K. apply (D l); [exact (shown_label _ _ _ F K)|exact (raised_label _ _ _ _ A2)].
  - assert (Cb : captured b) by (intros l p rc out err cmd R; eapply C, raised_inside, R).
    assert (Mb : forall l e p, raised b l e p -> exists p', raised (Call f b) l e p') by (intros; eexists; apply raised_inside; eassumption).
    unfold run_script in H. destruct (eval b _) as [r1 t1] eqn:E. destruct (IHb _ _ _ Cb ND E) as (new & S & A & _). cbn [t_shown] in S.
    destruct r1 as [e1|].
    + destruct (is_exception (x_exn e1)) eqn:Ex.
      * destruct (print_once e1 save_stack t1) as [r2 t2] eqn:E2. injection H as <- <-. cbn [t_shown].
        destruct (print_once_accounts b e1 save_stack t1 r2 t2 new t Cb S A) as (e2 & new2 & -> & X & S2 & (N2 & F2 & l & path & A1 & A2 & A3) & P); [|exact E2|].
        { intros e3 t3. unfold save_stack. eexists _, _. split; [reflexivity|]. destruct (x_stack e3); auto. }
        exists new2. split; [exact S2|]. split; [|intros _; exact P]. split; [exact N2|]. split; [exact (of_command_mono _ _ _ Mb F2)|]. exists l, (f :: path). split; [exact A1|]. split; [apply raised_inside, A2|exact A3].
      * injection H as <- <-. cbn [t_shown]. exists new. split; [exact S|]. split; [|congruence]. destruct A as (N2 & F2 & l & path & A1 & A2 & A3).
        split; [exact N2|]. split; [exact (of_command_mono _ _ _ Mb F2)|]. exists l, (f :: path). split; [exact A1|]. split; [apply raised_inside, A2|exact A3].
    + injection H as <- <-. cbn [t_shown]. exists new. split; [exact S|]. split; [|exact I]. destruct A as (N2 & F2 & _). split; [exact N2|]. split; [exact (of_command_mono _ _ _ Mb F2)|exact I].
  - assert (Cb : captured b) by (intros l p rc out err cmd R; eapply C, raised_operation, R).
    assert (Mb : forall l e p, raised b l e p -> exists p', raised (Operate b) l e p') by (intros; eexists; apply raised_operation; eassumption).
    unfold operation in H. destruct (eval b t) as [r1 t1] eqn:E. destruct (IHb _ _ _ Cb ND E) as (new & S & A & _). destruct r1 as [e1|].
    + destruct (print_once_accounts b e1 (fun e t => (Some e, t)) t1 r t' new t Cb S A) as (e2 & new2 & -> & X & S2 & (N2 & F2 & l & path & A1 & A2 & A3) & P); [|exact H|].
      { intros e3 t3. eexists _, _. split; [reflexivity|]. auto. }
      exists new2. split; [exact S2|]. split; [|intros _; exact P]. split; [exact N2|]. split; [exact (of_command_mono _ _ _ Mb F2)|]. exists l, path. split; [exact A1|]. split; [apply raised_operation, A2|exact A3].
    + injection H as <- <-. exists new. split; [exact S|]. split; [|exact I]. destruct A as (N2 & F2 & _). split; [exact N2|]. split; [exact (of_command_mono _ _ _ Mb F2)|exact I].
  - assert (Cb : captured b) by (intros l p rc out err cmd R; eapply C, raised_tried, R). assert (Ch : captured h) by (intros l p rc out err cmd R; eapply C, raised_handler, R).
    apply NoDup_app in ND as (Na & D & Nb). assert (Ma : forall l e p, raised b l e p -> exists p', raised (Try b h again) l e p') by (intros; eexists; apply raised_tried; eassumption).
    assert (Mb : forall l e p, raised h l e p -> exists p', raised (Try b h again) l e p') by (intros; eexists; apply raised_handler; eassumption).
    destruct (eval b t) as [[e1|] t1] eqn:E.
    + destruct (IHb _ _ _ Cb Na E) as (new & S & (N & F & l & path & A1 & A2 & A3 & A4 & A5) & _). destruct (is_exception (x_exn e1)).
      * destruct (eval h t1) as [r2 t2] eqn:E2. destruct (IHh _ _ _ Ch Nb E2) as (new2 & S2 & (N2 & F2 & B) & _). destruct (two_parts b h (Try b h again) new new2 D Ma Mb N N2 F F2) as [T1 T2].
        exists (new ++ new2). destruct r2 as [e2|].
        -- injection H as <- <-. split; [rewrite S2, S, app_assoc; reflexivity|]. split; [|exact I]. split; [exact T1|]. split; [exact T2|]. destruct B as (l2 & path2 & B1 & B2 & B3 & B4 & B5).
           exists l2, path2. split; [exact B1|]. split; [apply raised_handler, B2|]. split; [intros Hp; rewrite fmap_app; apply elem_of_app; right; exact (B3 Hp)|]. split; [|exact B5].
           intros Hp. rewrite fmap_app, elem_of_app. intros [K|K]; [|exact (B4 Hp K)]. rewrite B1 in K. apply (D l2); [exact (shown_label _ _ _ F K)|exact (raised_label _ _ _ _ B2)].
        -- injection H as <- <-. split; [rewrite S2, S, app_assoc; reflexivity|]. split; [|destruct again; exact I]. split; [exact T1|]. split; [exact T2|]. destruct again; [|exact I].
           exists l, path. split; [exact A1|]. split; [apply raised_tried, A2|]. split; [intros Hp; rewrite fmap_app; apply elem_of_app; left; exact (A3 Hp)|]. split; [|exact A5].
           intros Hp. rewrite fmap_app, elem_of_app. intros [K|K]; [exact (A4 Hp K)|]. rewrite A1 in K. apply (D l); [exact (raised_label _ _ _ _ A2)|exact (shown_label _ _ _ F2 K)].
      * injection H as <- <-. exists new. split; [exact S|]. split; [|exact I]. split; [exact N|]. split; [exact (of_command_mono _ _ _ Ma F)|]. exists l, path. split; [exact A1|]. split; [apply raised_tried, A2|]. auto.
    + injection H as <- <-. destruct (IHb _ _ _ Cb Na E) as (new & S & (N & F & _) & _). exists new. split; [exact S|]. split; [|exact I]. split; [exact N|]. split; [exact (of_command_mono _ _ _ Ma F)|exact I].
Qed.

(** The output of a failed command is printed at most once, and once if its failure ends the deploy; what is printed is the
    output of a command that failed. *)
Theorem C83_output_partial : forall main d r t', captured d -> NoDup (labels d) -> eval (Call main d) fresh = (r, t') ->
  NoDup ((t_shown t').*1) /\ Forall (of_command d) (t_shown t') /\
  forall e, r = Some e -> failed_command (x_exn e) -> exists x, x ∈ t_shown t' /\ x.1 = x_from e.
Proof.
  intros main d r t' C ND H. assert (C' : captured (Call main d)) by (intros l p rc out err cmd R; inversion R; subst; eapply C; eassumption).
  destruct (eval_accounts (Call main d) _ _ _ C' ND H) as (new & S & (N & F & A) & P). cbn [fresh t_shown app] in S. rewrite S. split; [exact N|]. split.
  - apply (of_command_mono (Call main d) d); [|exact F]. intros l e p R. inversion R; subst. eauto.
  - intros e -> Hf. destruct A as (l & path & A1 & A2 & A3 & _). assert (Hp : x_printed e = true).
    { apply P; [|exact Hf]. destruct Hf as (rc & out & err & cmd & ->). reflexivity. }
    specialize (A3 Hp). apply elem_of_list_fmap in A3 as (x & E & K). exists x. auto.
Qed.
Print Assumptions C83_output_partial.

(** A command without captured output that fails in a script called by another: the exception that arrives is another one, its
    stack lacks the inner script, and no script stack is printed. *)
Definition here (f : string) (n : N) : site := Site (lit f) n (lit "<module>") None.
Theorem C83_stack_refuted : exists main d e t' l path, NoDup (labels d) /\ eval (Call main d) fresh = (Some e, t') /\ ordinary (x_exn e) /\
  labels d = [l] /\ (exists e0, raised (Call main d) l e0 path) /\ length path = 2 /\ x_from e <> Some l /\ x_stack e = Some [main] /\
  forall (dynamic : site -> bool) tb, (print_exception dynamic e tb).1 = None.
Proof.
  exists (here "main.py" 1), (Call (here "deploy.py" 3) (Fail 0 (CalledProcessError 1 None None [lit "false"]))).
  eexists _, _, 0, [here "main.py" 1; here "deploy.py" 3]. split; [apply NoDup_singleton|]. split; [reflexivity|]. split; [split; [intros n; discriminate|split; discriminate]|]. split; [reflexivity|].
  split; [eexists; repeat constructor|]. split; [reflexivity|]. split; [discriminate|]. split; reflexivity.
Qed.
Print Assumptions C83_stack_refuted.

(** A script that ends with [sys.exit] ends the deploy without a script stack, and no output is printed for it; no [except Exception]
    of a script on the way stops it. *)
Lemma print_once_exit e k t e' t' n : (forall e1 t1 e2 t2, k e1 t1 = (Some e2, t2) -> x_exn e2 = SystemExit n -> x_exn e1 = SystemExit n) ->
  print_once e k t = (Some e', t') -> x_exn e' = SystemExit n -> x_exn e = SystemExit n \/ x_stack e' = None.
Proof.
  intros K H Hx. unfold print_once in H. destruct (x_exn e) eqn:E; try (left; rewrite <- E; exact (K _ _ _ _ H Hx)).
  destruct (x_printed e).
  - left. rewrite <- E. exact (K _ _ _ _ H Hx).
  - destruct (process_error_shown _ _) as [o|e3]; [left; exact (K _ _ _ _ H Hx)|]. right. injection H as <- <-. reflexivity.
Qed.
Theorem C83_exit : forall d t e t' n, eval d t = (Some e, t') -> x_exn e = SystemExit n -> x_stack e = None.
Proof.
  induction d as [|l x|a IHa b IHb|f b IHb|b IHb|b IHb h IHh again]; intros t e t' n H Hx; cbn [eval] in H.
  - discriminate.
  - injection H as <- <-. reflexivity.
  - destruct (eval a t) as [[e1|] t1] eqn:E; [injection H as <- <-; eauto|eauto].
  - unfold run_script in H. destruct (eval b _) as [[e1|] t1] eqn:E; [|discriminate]. destruct (is_exception (x_exn e1)) eqn:Ex.
    + destruct (print_once e1 save_stack t1) as [[e2|] t2] eqn:E2; [|discriminate]. injection H as <- <-.
      destruct (print_once_exit e1 save_stack t1 e2 t2 n) as [K|K]; [|exact E2|exact Hx| |exact K].
      * intros e3 t3 e4 t4 K. unfold save_stack in K. injection K as <- <-. destruct (x_stack e3); auto.
      * rewrite K in Ex. discriminate.
    + injection H as <- <-. eauto.
  - unfold operation in H. destruct (eval b t) as [[e1|] t1] eqn:E; [|discriminate].
    destruct (print_once_exit e1 (fun e t => (Some e, t)) t1 e t' n) as [K|K]; [|exact H|exact Hx| |exact K].
    + intros e3 t3 e4 t4 K. injection K as <- <-. auto.
    + unfold print_once in H. rewrite K in H. injection H as <- <-. eauto.
  - destruct (eval b t) as [[e1|] t1] eqn:E; [|discriminate]. destruct (is_exception (x_exn e1)) eqn:Ex; [|injection H as <- <-; eauto].
    destruct (eval h t1) as [[e2|] t2] eqn:E2; [injection H as <- <-; eauto|]. destruct again; [|discriminate]. injection H as <- <-. eauto.
Qed.
Print Assumptions C83_exit.
Theorem C83_exit_through : forall f b h again l n t, eval (Try (Call f (Operate (Seq (Fail l (SystemExit n)) b))) h again) t =
  (Some (Exc (SystemExit n) (Some l) false None), Told (removelast (t_stack t ++ [f])) (t_shown t)).
Proof. reflexivity. Qed.
Print Assumptions C83_exit_through.

(** ** What is printed *)
Definition site_line (f : site) : pystr := lit "  File """ ++ s_file f ++ lit """, line " ++ str_of_N (s_line f) ++ lit ", in " ++ s_function f.
Definition at_line_start (pre : pystr) : Prop := pre = [] \/ exists p, pre = p ++ [10%N].
Lemma frames_in_order l : forall pre, at_line_start pre -> in_order (List.map site_line l) (removelast (pre ++ List.concat (List.map format_frame l))).
Proof.
  induction l as [|f l IH]; intros pre Hp; [constructor|]. cbn [List.map List.concat].
  set (ctx := match s_context f with Some c => List.concat (List.map (fun x => lit "    " ++ strip x ++ [10%N]) c) | None => [] end).
  assert (Hc : at_line_start ctx).
  { subst ctx. destruct (s_context f) as [c|]; [|left; reflexivity]. induction c as [|x c IHc] using rev_ind; [left; reflexivity|]. right.
    rewrite List.map_app, List.concat_app. cbn [List.map List.concat]. rewrite app_nil_r. exists (List.concat (List.map (fun x => lit "    " ++ strip x ++ [10%N]) c) ++ lit "    " ++ strip x). rewrite <- !app_assoc. reflexivity. }
  assert (E : format_frame f = site_line f ++ 10%N :: ctx). { unfold format_frame, site_line. fold ctx. rewrite <- !app_assoc. reflexivity. }
  rewrite E. clearbody ctx. specialize (IH ctx Hc). rewrite <- app_assoc. cbn [app].
  destruct (ctx ++ List.concat (List.map format_frame l)) as [|c r] eqn:Er.
  - apply app_eq_nil in Er as [-> Er]. destruct l as [|g l]; [|exfalso; cbn in Er; discriminate Er].
    rewrite app_assoc, removelast_last. apply order_last. exact Hp.
  - replace (removelast (pre ++ site_line f ++ 10%N :: c :: r)) with (pre ++ site_line f ++ 10%N :: removelast (c :: r)).
    + apply order_next; [exact Hp|exact IH].
    + rewrite !app_assoc. rewrite removelast_app by discriminate. reflexivity.
Qed.
(** All calls but the first, which is that of the main program, are listed, the outermost first. *)
Theorem C83_trace : forall {F} (dynamic : F -> bool) e tb main f path, x_stack e = Some (main :: f :: path) ->
  exists t, (print_exception dynamic e tb).1 = Some t /\ in_order (lit "Script stack (most recent call last):" :: List.map site_line (f :: path)) t.
Proof.
  intros F dynamic e tb main f path H. unfold print_exception. rewrite H. cbn [fst length Nat.ltb Nat.leb]. eexists. split; [reflexivity|].
  unfold script_trace. cbn [tail]. rewrite removelast_app by discriminate.
  replace (removelast ([10%N] ++ List.concat (List.map format_frame (f :: path)))) with (10%N :: removelast (List.concat (List.map format_frame (f :: path)))).
  - apply (order_next _ _ [] _); [left; reflexivity|]. apply (frames_in_order (f :: path) []). left. reflexivity.
  - rewrite removelast_app; [reflexivity|]. cbn. discriminate.
Qed.
Print Assumptions C83_trace.
Lemma last_dynamic_spec {F} (dynamic : F -> bool) tb found :
  (exists pre f rest, tb = pre ++ f :: rest /\ dynamic f = true /\ Forall (fun g => dynamic g = false) rest /\ last_dynamic dynamic tb found = Some (f :: rest)) \/
  (Forall (fun g => dynamic g = false) tb /\ last_dynamic dynamic tb found = found).
Proof.
  revert found. induction tb as [|f tb IH]; intros found; [right; split; [constructor|reflexivity]|]. cbn [last_dynamic].
  destruct (IH (if dynamic f then Some (f :: tb) else found)) as [(pre & g & rest & -> & H1 & H2 & H3)|[H1 H2]].
  - left. exists (f :: pre), g, rest. auto.
  - rewrite H2. destruct (dynamic f) eqn:E; [left; exists [], f, tb; auto|right]. split; [constructor; assumption|reflexivity].
Qed.
(** Of the traceback the part is printed that starts at the last frame of a user's module; all of it if there is none. *)
Theorem C83_traceback : forall {F} (dynamic : F -> bool) e tb, exists pre, tb = pre ++ (print_exception dynamic e tb).2 /\
  (Forall (fun f => dynamic f = false) tb -> pre = []) /\
  forall f, f ∈ tb -> dynamic f = true -> exists g rest, (print_exception dynamic e tb).2 = g :: rest /\ dynamic g = true /\ Forall (fun f => dynamic f = false) rest.
Proof.
  intros F dynamic e tb. unfold print_exception. cbn [snd]. destruct (last_dynamic_spec dynamic tb None) as [(pre & g & rest & E & H1 & H2 & ->)|[H1 ->]].
  - exists pre. split; [exact E|]. split; [|eauto]. intros H. exfalso. rewrite E, Forall_app, Forall_cons in H. destruct H as (_ & H & _). congruence.
  - exists []. split; [reflexivity|]. split; [reflexivity|]. intros f Hf Hd. rewrite Forall_forall in H1. specialize (H1 f Hf). congruence.
Qed.
Print Assumptions C83_traceback.

(** ** A case: a command fails in an operation in a script that is called by a script; the first failure is handled. *)
Definition failed (out : string) : exn := CalledProcessError 1 (Some (blit out)) (Some (blit "oops")) [lit "false"].
Definition nested_case : deed := Seq (Try (Call (here "deploy.py" 2) (Operate (Fail 0 (failed "a")))) Done false) (Call (here "deploy.py" 3) (Seq Done (Try (Operate (Fail 1 (failed "b"))) Done true))).
Example C83_case : captured nested_case /\ NoDup (labels nested_case) /\
  exists t, eval (Call (here "main.py" 55) nested_case) fresh = (Some (Exc (failed "b") (Some 1) true (Some [here "main.py" 55; here "deploy.py" 3])), t) /\
    t_shown t = [(Some 0, (lit "a", lit "oops")); (Some 1, (lit "b", lit "oops"))] /\
    script_trace [here "main.py" 55; here "deploy.py" 3] = lit "Script stack (most recent call last):" ++ [10%N] ++ lit "  File ""deploy.py"", line 3, in <module>".
Proof.
  split; [|split].
  - intros l p rc out err cmd R. unfold nested_case in R. repeat match goal with R : raised _ _ _ _ |- _ => inversion R; subst; clear R end; split; eexists; reflexivity.
  - apply (bool_decide_unpack _). vm_compute. exact I.
  - eexists. split; [vm_compute; reflexivity|]. split; vm_compute; reflexivity.
Qed.
