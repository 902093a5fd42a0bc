(** C17, C18: opening and closing connections. *)
From Coq Require Import Lia.
From stdpp Require Import list.
From Verif Require Import Base Codec Lifecycle.
Local Open Scope nat_scope.

(** ** Specification *)
(** not left running behind: it ended, or was told to end by a signal *)
Definition gone (p : proc_state) : Prop := pr_ended p = true \/ pr_signaled p = true.
(** ended in an orderly way, and collected *)
Definition dismissed (p : proc_state) : Prop := pr_told p = true /\ pr_reaped p = true /\ pr_ended p = true.
(** code that uses an open connection, but does not open or close it *)
Definition uses {A} (body : K A) : Prop := forall k r k', body k = (r, k') ->
  k_process k' = k_process k /\ k_open k' = k_open k /\ length (k_procs k') = length (k_procs k) /\
  (forall i p, k_procs k !! i = Some p -> pr_ended p = true -> exists p', k_procs k' !! i = Some p' /\ pr_ended p' = true) /\
  exists l, k_io k = l ++ k_io k'.

(** ** Lemmas *)
Lemma kbind {A B} (m : K A) (f : A -> K B) k : (m ≫= f) k = match m k with (Ok a, k') => f a k' | (Err e, k') => (Err e, k') end.
Proof. reflexivity. Qed.
Lemma kmod f k : modK f k = (Ok tt, f k). Proof. reflexivity. Qed.
Lemma kmod_bind {B} f (g : unit -> K B) k : (modK f ≫= g) k = g tt (f k). Proof. reflexivity. Qed.
Lemma kget_bind {B} (g : life -> K B) k : (getK ≫= g) k = g k k. Proof. reflexivity. Qed.

(** processes only move forward *)
Definition later (p p' : proc_state) : Prop :=
  (pr_ended p = true -> pr_ended p' = true) /\ (pr_told p = true -> pr_told p' = true) /\
  (pr_signaled p = true -> pr_signaled p' = true) /\ (pr_reaped p = true -> pr_reaped p' = true).
Lemma later_refl p : later p p. Proof. unfold later. tauto. Qed.
Lemma alter_id_like (f : proc_state -> proc_state) (i : nat) (l : list proc_state) : (forall p, f p = p) -> alter f i l = l.
Proof. intros H. apply list_alter_id. exact H. Qed.
Lemma passes_spec i k : exists f d, passes i k = (Ok tt, set_dies d (set_procs (alter f i (k_procs k)) k)) /\ (f = ends \/ f = id).
Proof.
  unfold passes. destruct k as [pr op ho ps sp re io di]. cbn. destruct di as [|[|] di]; cbn.
  - exists id, []. rewrite alter_id_like by reflexivity. auto.
  - exists ends, di. auto.
  - exists id, di. rewrite alter_id_like by reflexivity. auto.
Qed.
Lemma life_of_procs k l : k_procs (set_procs l k) = l. Proof. reflexivity. Qed.
Lemma lookup_snoc {A} (l : list A) x : (l ++ [x]) !! length l = Some x.
Proof. rewrite lookup_app_r, Nat.sub_diag by lia. reflexivity. Qed.
Lemma alter_snoc {A} (f : A -> A) (l : list A) x : alter f (length l) (l ++ [x]) = l ++ [f x].
Proof. induction l as [|a l IH]; [reflexivity|]. cbn. f_equal. exact IH. Qed.

(** ** C17. Opening *)
(** The full claim: whenever [open] fails, the process it started is terminated (or has ended).  It holds for a connector
    that was not open before: *)
Theorem C17_open_fails_clean_partial : forall k r k', k_open k = false -> k_open_connector k = (r, k') ->
  (exists e, r = Err e /\ k_open k' = false /\
     ((k_procs k' = k_procs k /\ k_process k' = k_process k) \/
      (exists p, k_procs k' = k_procs k ++ [p] /\ gone p /\ k_process k' = None))) \/
  (r = Ok tt /\ k_open k' = true /\ k_process k' = Some (length (k_procs k)) /\
   exists p, k_procs k' = k_procs k ++ [p] /\ pr_signaled p = false).
Proof.
  intros k r k' Ho E. unfold k_open_connector in E. rewrite kbind in E. unfold popen in E.
  set (x := match k_spawn k with [] => (Ok tt, k) | x :: r => (x, set_spawn r k) end) in E.
  assert (Hx : k_procs (snd x) = k_procs k /\ k_process (snd x) = k_process k /\ k_open (snd x) = false).
  { unfold x. destruct (k_spawn k); auto. }
  destruct x as [[[]|e] k1]; cbn in Hx; destruct Hx as (H1 & H2 & H3).
  2: { injection E as <- <-. left. exists e. auto. }
  rewrite kmod_bind, kbind in E. unfold kfinally, krequest in E. rewrite !kbind in E.
  set (n := length (k_procs k1)) in *. assert (Hn : n = length (k_procs k)) by (unfold n; rewrite H1; reflexivity).
  set (k2 := set_process _ _) in E.
  destruct (passes_spec n k2) as (f & d & Hp & Hf). rewrite Hp in E. cbn [fst snd] in E.
  unfold k2 in E. cbn [k_procs set_process set_procs] in E. 
  set (p1 := f (Proc' false false false false)) in E.
  assert (Hal : alter f n (k_procs k1 ++ [Proc' false false false false]) = k_procs k1 ++ [p1]) by (unfold n; apply alter_snoc).
  rewrite Hal in E.
  assert (Hp1 : pr_signaled p1 = false) by (unfold p1; destruct Hf as [-> | ->]; reflexivity).
  set (k3 := set_dies _ _) in E.
  assert (K3 : k_procs k3 = k_procs k ++ [p1] /\ k_process k3 = Some n /\ k_open k3 = false) by (unfold k3; cbn; rewrite H1; auto).
  destruct (next_reply k3) as [rr k4] eqn:Er.
  assert (K4 : k_procs k4 = k_procs k ++ [p1] /\ k_process k4 = Some n /\ k_open k4 = false).
  { unfold next_reply in Er. destruct (k_reply k3) as [|y l]; injection Er as _ <-; exact K3. }
  clearbody k3. clear Er Hp K3. destruct K4 as (A1 & A2 & A3).
  assert (Hfail : forall e q, (forall x, k_procs x = k_procs k ++ [q] -> k_open x = false ->
    (match (k0 ← getK; if k_open k0 then mret tt else _ ← terminate n; modK (set_process None)) x with
     | (Ok _, k2) => (Err e, k2) | (Err e, k2) => (Err e, k2) end : result unit * life) =
     (Err e, set_process None (set_procs (k_procs k ++ [if pr_ended q then reaps q else signals q]) x)))).
  { intros e q y Y1 Y2. rewrite kget_bind, Y2. unfold terminate, on_proc. rewrite kmod_bind. cbn. unfold modK, set_process, set_procs. cbn.
    rewrite Y1, Hn, alter_snoc. reflexivity. }
  assert (Hgone : forall q, gone (if pr_ended q then reaps q else signals q)).
  { intros q. unfold gone. destruct (pr_ended q) eqn:Eq; cbn; auto. }
  assert (Hpoll : forall q x, k_procs x = k_procs k ++ [q] ->
    exists q', snd (poll n x) = set_procs (k_procs k ++ [q']) x /\ fst (poll n x) = Ok tt).
  { intros q y Y1. unfold poll, on_proc, modK. cbn. rewrite Y1, Hn, alter_snoc. eauto. }
  assert (Hraise : forall e, is_IOError e = true -> exists q, (_ ← poll n; kraise e : K unit) k4 = (Err e, set_procs (k_procs k ++ [q]) k4)).
  { intros e _. rewrite kbind. destruct (Hpoll p1 k4 A1) as (q & Q1 & Q2). destruct (poll n k4) as [u k5]. cbn in Q1, Q2. subst. exists q. reflexivity. }
  destruct rr as [rp|e].
  - destruct rp; try (rewrite (kbind (kraise _)) in E || idtac; cbn [is_IOError] in E;
      unfold kraise at 1 in E; cbn [is_IOError] in E;
      destruct (Hraise (IOErr (lit "Invalid response from remote dispatcher. This is a bug.")) eq_refl) as [q Hq];
      rewrite Hq in E; rewrite (Hfail _ q) in E by (cbn; auto); injection E as <- <-; left; eexists; split; [reflexivity|];
      cbn; split; [exact A3|]; right; eexists; split; [reflexivity|]; split; [apply Hgone|reflexivity]).
    unfold modK at 1 in E. rewrite kget_bind in E. cbn in E. injection E as <- <-. right. cbn.
    rewrite <- Hn. split_and!; auto. exists p1. auto.
  - destruct (is_IOError e) eqn:Ee.
    + destruct (Hraise e Ee) as [q Hq]. rewrite Hq in E. rewrite (Hfail _ q) in E by (cbn; auto). injection E as <- <-.
      left. eexists. split; [reflexivity|]. cbn. split; [exact A3|]. right. eexists. split; [reflexivity|]. split; [apply Hgone|reflexivity].
    + rewrite (Hfail _ p1) in E by auto. injection E as <- <-.
      left. eexists. split; [reflexivity|]. cbn. split; [exact A3|]. right. eexists. split; [reflexivity|]. split; [apply Hgone|reflexivity].
Qed.
Print Assumptions C17_open_fails_clean_partial.
(** The exception that made it fail is the one the caller sees, and an answer other than PacketAck is an IOError. *)
Theorem C17_open_propagates : forall k x l, k_spawn k = [] -> k_reply k = x :: l ->
  fst (k_open_connector k) = match x with Err e => Err e | Ok PAck => Ok tt | Ok _ => Err (IOErr (lit "Invalid response from remote dispatcher. This is a bug.")) end.
Proof.
  intros k x l Hs Hr. unfold k_open_connector. rewrite kbind. unfold popen. rewrite Hs. rewrite kmod_bind, kbind.
  unfold kfinally, krequest. rewrite !kbind. set (n := length (k_procs k)).
  match goal with |- context [passes n ?y] => set (k2 := y) end.
  destruct (passes_spec n k2) as (f & d & Hp & _). rewrite Hp. unfold next_reply. cbn [k_reply set_dies set_procs].
  replace (k_reply k2) with (x :: l) by (unfold k2; cbn; symmetry; exact Hr).
  clear Hp. assert (Hend : forall y, fst ((k0 ← getK; if k_open k0 then mret tt else _ ← terminate n; modK (set_process None)) y) = Ok tt).
  { intros y. rewrite kget_bind. destruct (k_open y); reflexivity. }
  match goal with |- fst (match (let '(r, k1) := ?m in _) with _ => _ end) = _ => set (mm := m) end.
  assert (Hmm : fst mm = match x with Err e => Err e | Ok PAck => Ok tt | Ok _ => Err (IOErr (lit "Invalid response from remote dispatcher. This is a bug.")) end).
  { unfold mm. destruct x as [p|e]; [destruct p; reflexivity|]. destruct (is_IOError e); reflexivity. }
  clearbody mm. destruct mm as [r k3]. cbn in Hmm. subst r. specialize (Hend k3).
  destruct ((k0 ← getK; if k_open k0 then mret tt else _ ← terminate n; modK (set_process None)) k3) as [[u|e] k4]; [|discriminate].
  destruct x as [p|e]; [destruct p; reflexivity|reflexivity].
Qed.
Print Assumptions C17_open_propagates.
(** A connector that is used a second time still counts as open: its process is left behind.
    [forall k r k', k_open_connector k = (Err e, k') -> every new process is gone] is false. *)
Definition second_attempt : life := Life None false false [] [] [Ok PAck; Err (IOErr (lit "Unexpected EOF in data stream"))] [] [].
Theorem C17_open_fails_clean_refuted : exists k1 e k',
  snd ((_ ← k_open_connector; k_close) second_attempt) = k1 /\ fst ((_ ← k_open_connector; k_close) second_attempt) = Ok tt /\ fresh second_attempt /\
  k_open_connector k1 = (Err e, k') /\ exists p, k_procs k' = k_procs k1 ++ [p] /\ ~ gone p.
Proof.
  eexists _, _, _. split; [reflexivity|]. split; [vm_compute; reflexivity|]. split; [split_and!; reflexivity|]. split; [vm_compute; reflexivity|].
  exists (Proc' false false false false). split; [reflexivity|]. intros [H|H]; discriminate.
Qed.
Print Assumptions C17_open_fails_clean_refuted.
(** Closing: the process is told to exit and waited for. *)
Lemma io_spec i k r k' : io i k = (r, k') -> exists f, (f = ends \/ f = id) /\ k_procs k' = alter f i (k_procs k) /\
  k_process k' = k_process k /\ k_open k' = k_open k /\ k_host k' = k_host k /\
  (k_io k = [] /\ r = Ok tt /\ k_io k' = [] \/ exists l, k_io k = r :: l /\ k_io k' = l).
Proof.
  unfold io. rewrite kbind. destruct (passes_spec i k) as (f & d & -> & Hf). unfold next_io. cbn [k_io set_dies set_procs].
  destruct (k_io k) as [|x l] eqn:E; intros [= <- <-]; exists f; cbn; split_and!; eauto; right; eauto.
Qed.
Lemma later_of f : f = ends \/ f = id -> forall p, later p (f p).
Proof. intros [-> | ->] [a b c d]; unfold later; cbn; tauto. Qed.
Theorem C17_close : forall k k' i p, k_open k = true -> k_process k = Some i -> k_procs k !! i = Some p ->
  k_close k = (Ok tt, k') ->
  k_process k' = None /\ exists p', k_procs k' = <[i := p']> (k_procs k) /\ dismissed p'.
Proof.
  intros k k' i p Ho Hi Hp E. unfold k_close in E. rewrite kget_bind, Ho, Hi in E.
  rewrite !kbind in E. destruct (io i k) as [[[]|e] k1] eqn:E1; [|discriminate].
  apply io_spec in E1 as (f1 & F1 & P1 & Q1 & _).
  unfold on_proc at 1 in E. rewrite kmod in E. rewrite kbind in E. set (k2 := set_procs _ k1) in E.
  destruct (io i k2) as [[[]|e] k3] eqn:E2; [|discriminate]. apply io_spec in E2 as (f2 & F2 & P2 & Q2 & _).
  rewrite !kbind in E. destruct (io i k3) as [[[]|e] k4] eqn:E3; [|discriminate]. apply io_spec in E3 as (f3 & F3 & P3 & Q3 & _).
  unfold on_proc in E. rewrite kmod in E. rewrite kbind in E. set (k5 := set_procs _ k4) in E.
  destruct (io i k5) as [[[]|e] k6] eqn:E4; [|discriminate]. apply io_spec in E4 as (f4 & F4 & P4 & Q4 & _).
  injection E as <-. split; [reflexivity|]. cbn [k_procs set_process].
  exists (f4 (reaps (f3 (f2 (tells_exit (f1 p)))))). split.
  - rewrite P4. unfold k5. cbn. rewrite P3, P2. unfold k2. cbn. rewrite P1. rewrite <- !list_alter_compose.
    apply list_eq. intros j. destruct (decide (j = i)) as [-> |Hne].
    + rewrite list_lookup_alter, list_lookup_insert by (apply lookup_lt_Some in Hp; exact Hp). rewrite Hp. reflexivity.
    + rewrite list_lookup_alter_ne, list_lookup_insert_ne by congruence. reflexivity.
  - destruct (later_of _ F4 (reaps (f3 (f2 (tells_exit (f1 p)))))) as (L1 & L2 & _ & L4). split; [|split; [apply L4|apply L1]; reflexivity].
    apply L2. cbn. destruct (later_of _ F3 (f2 (tells_exit (f1 p)))) as (_ & M2 & _). apply M2.
    destruct (later_of _ F2 (tells_exit (f1 p))) as (_ & N2 & _). apply N2. reflexivity.
Qed.
Print Assumptions C17_close.
Definition good_life : life := Life None false false [] [] [Ok PAck; Ok (PResolveResult []); Ok (PResolveResult [])] [] [].
Example C17_example :
  k_open_connector good_life = (Ok tt, Life (Some 0) true false [Proc' false false false false] [] [Ok (PResolveResult []); Ok (PResolveResult [])] [] []) /\
  k_procs (snd ((_ ← k_open_connector; k_close) good_life)) = [Proc' true true false true].
Proof. split; reflexivity. Qed.
Example C17_example_fails :
  k_open_connector (Life None false false [] [] [Err (IOErr [])] [] []) = (Err (IOErr []), Life None false false [Proc' false false true false] [] [] [] []).
Proof. reflexivity. Qed.

(** ** C18. with open_connection(host) *)
(** Full claim: whatever fails, afterwards [host.connection] is unset and the process is ended or terminated.  Not so if
    asking for the identity fails. *)
Theorem C18_cleanup_refuted : exists k, fresh k /\ forall A (body : K A), exists e k',
  with_connection body k = (Err e, k') /\ k_host k' = true /\ exists p, p ∈ k_procs k' /\ ~ gone p.
Proof.
  exists (Life None false false [] [] [Ok PAck; Err (ValueError (lit "The user does not exist"))] [] []). split; [split_and!; reflexivity|].
  intros A body. eexists _, _. split; [reflexivity|]. split; [reflexivity|]. exists (Proc' false false false false). split; [left|].
  intros [H|H]; discriminate.
Qed.
Print Assumptions C18_cleanup_refuted.

Lemma ended_alter (f : proc_state -> proc_state) i (l : list proc_state) j p : (forall p, later p (f p)) -> l !! j = Some p ->
  exists p', alter f i l !! j = Some p' /\ later p p'.
Proof.
  intros Hf Hp. destruct (decide (j = i)) as [-> |Hne].
  - rewrite list_lookup_alter, Hp. cbn. eauto.
  - rewrite list_lookup_alter_ne, Hp by congruence. exists p. split; [reflexivity|apply later_refl].
Qed.
Lemma later_trans a b c : later a b -> later b c -> later a c.
Proof. unfold later. tauto. Qed.
Lemma close_later k r k' j p : k_close k = (r, k') -> k_procs k !! j = Some p -> exists p', k_procs k' !! j = Some p' /\ later p p'.
Proof.
  intros E Hp. unfold k_close in E. rewrite kget_bind in E.
  assert (Hio : forall i x r x' q, io i x = (r, x') -> k_procs x !! j = Some q -> exists q', k_procs x' !! j = Some q' /\ later q q').
  { intros i x r0 x' q Ex Hq. apply io_spec in Ex as (f & Hf & -> & _). apply ended_alter; [apply later_of; exact Hf|exact Hq]. }
  assert (Hon : forall i f x q, (forall p, later p (f p)) -> k_procs x !! j = Some q ->
     exists q', k_procs (set_procs (alter f i (k_procs x)) x) !! j = Some q' /\ later q q').
  { intros i f x q Hf Hq. cbn. apply ended_alter; assumption. }
  assert (Ht : forall p, later p (tells_exit p)) by (intros [? ? ? ?]; unfold later; cbn; tauto).
  assert (Hr : forall p, later p (reaps p)) by (intros [? ? ? ?]; unfold later; cbn; tauto).
  rewrite kbind in E.
  set (m := if k_open k then _ else mret tt) in E.
  assert (Hm : exists q, k_procs (snd (m k)) !! j = Some q /\ later p q).
  { unfold m. destruct (k_open k); [|exists p; split; [exact Hp|apply later_refl]]. destruct (k_process k) as [i|].
    - rewrite kbind. destruct (io i k) as [[[]|e] k1] eqn:E1; destruct (Hio _ _ _ _ _ E1 Hp) as (q & Q1 & Q2); [|exists q; auto].
      unfold on_proc. rewrite kmod. destruct (Hon i tells_exit k1 q Ht Q1) as (q2 & Q3 & Q4). exists q2. split; [exact Q3|eapply later_trans; eassumption].
    - unfold next_io. destruct (k_io k); exists p; (split; [exact Hp|apply later_refl]). }
  destruct (m k) as [[[]|e] k1]; cbn in Hm; destruct Hm as (q1 & Q1 & L1); [|injection E as _ <-; eauto].
  destruct (k_process k) as [i|]; [|injection E as _ <-; eauto].
  rewrite kbind in E. destruct (io i k1) as [[[]|e] k2] eqn:E2; destruct (Hio _ _ _ _ _ E2 Q1) as (q2 & Q2 & L2);
    [|injection E as _ <-; exists q2; split; [exact Q2|eapply later_trans; eassumption]].
  rewrite !kbind in E. destruct (io i k2) as [[[]|e] k3] eqn:E3; destruct (Hio _ _ _ _ _ E3 Q2) as (q3 & Q3 & L3);
    [|injection E as _ <-; exists q3; split; [exact Q3|eapply later_trans; [exact L1|eapply later_trans; eassumption]]].
  unfold on_proc in E. rewrite kmod in E. destruct (Hon i reaps k3 q3 Hr Q3) as (q4 & Q4 & L4).
  rewrite kbind in E. destruct (io i (set_procs (alter reaps i (k_procs k3)) k3)) as [[[]|e] k5] eqn:E5; destruct (Hio _ _ _ _ _ E5 Q4) as (q5 & Q5 & L5);
    injection E as _ <-; exists q5; (split; [exact Q5|]); do 4 (eapply later_trans; [eassumption|]); assumption.
Qed.
Lemma close_host k r k' : k_close k = (r, k') -> k_host k' = k_host k.
Proof.
  intros E. unfold k_close in E. rewrite kget_bind in E.
  rewrite kbind in E. set (m := if k_open k then _ else mret tt) in E.
  assert (Hm : k_host (snd (m k)) = k_host k).
  { unfold m. destruct (k_open k); [|reflexivity]. destruct (k_process k) as [i|].
    - rewrite kbind. destruct (io i k) as [[[]|e] k1] eqn:E1; apply io_spec in E1 as (f & _ & _ & _ & _ & H & _); exact H.
    - unfold next_io. destruct (k_io k); reflexivity. }
  destruct (m k) as [[[]|e] k1]; cbn in Hm; [|injection E as _ <-; exact Hm].
  destruct (k_process k) as [i|]; [|injection E as _ <-; exact Hm].
  rewrite kbind in E. destruct (io i k1) as [[[]|e] k2] eqn:E2; apply io_spec in E2 as (f2 & _ & _ & _ & _ & H2 & _); [|injection E as _ <-; congruence].
  rewrite !kbind in E. destruct (io i k2) as [[[]|e] k3] eqn:E3; apply io_spec in E3 as (f3 & _ & _ & _ & _ & H3 & _); [|injection E as _ <-; congruence].
  unfold on_proc in E. rewrite kmod in E.
  rewrite kbind in E. destruct (io i (set_procs _ k3)) as [[[]|e] k5] eqn:E5; apply io_spec in E5 as (f5 & _ & _ & _ & _ & H5 & _); cbn in H5;
    injection E as _ <-; cbn; congruence.
Qed.
(** if writing to the process and waiting for it work, [close] succeeds *)
Lemma close_ok k r k' : k_close k = (r, k') -> Forall (fun x => x = Ok tt) (k_io k) -> r = Ok tt.
Proof.
  intros E Hio. unfold k_close in E. rewrite kget_bind in E.
  assert (Hx : forall i x r x', io i x = (r, x') -> Forall (fun x => x = Ok tt) (k_io x) -> r = Ok tt /\ Forall (fun x => x = Ok tt) (k_io x')).
  { intros i x r0 x' Ex Hf. apply io_spec in Ex as (f & _ & _ & _ & _ & _ & [(H1 & -> & H3)|(l & H1 & H2)]).
    - rewrite H3. auto.
    - rewrite H1 in Hf. inversion Hf; subst. auto. }
  rewrite kbind in E. set (m := if k_open k then _ else mret tt) in E.
  assert (Hm : fst (m k) = Ok tt /\ Forall (fun x => x = Ok tt) (k_io (snd (m k)))).
  { unfold m. destruct (k_open k); [|auto]. destruct (k_process k) as [i|].
    - rewrite kbind. destruct (io i k) as [[[]|e] k1] eqn:E1; destruct (Hx _ _ _ _ E1 Hio) as [[=] H]. auto.
    - unfold next_io. destruct (k_io k) as [|x l] eqn:El; cbn; [rewrite El; auto|]. inversion Hio; subst. auto. }
  destruct (m k) as [u k1]; cbn in Hm; destruct Hm as [-> Hm]. destruct (k_process k) as [i|]; [|injection E as <- _; reflexivity].
  rewrite kbind in E. destruct (io i k1) as [[[]|e] k2] eqn:E2; destruct (Hx _ _ _ _ E2 Hm) as [[=] H2].
  rewrite !kbind in E. destruct (io i k2) as [[[]|e] k3] eqn:E3; destruct (Hx _ _ _ _ E3 H2) as [[=] H3].
  unfold on_proc in E. rewrite kmod in E. rewrite kbind in E.
  destruct (io i (set_procs _ k3)) as [[[]|e] k5] eqn:E5; destruct (Hx _ _ _ _ E5 H3) as [[=] H5]. injection E as <- _. reflexivity.
Qed.

Lemma krequest_spec n q x r x' : krequest n q x = (r, x') ->
  k_process x' = k_process x /\ k_open x' = k_open x /\ k_host x' = k_host x /\ length (k_procs x') = length (k_procs x).
Proof.
  intros Ex. unfold krequest in Ex. rewrite kbind in Ex. destruct (passes_spec n x) as (f & d & Hp & _). rewrite Hp in Ex.
  unfold next_reply in Ex. cbn [k_reply set_dies set_procs] in Ex. destruct (k_reply x); injection Ex as _ <-; cbn; rewrite alter_length; auto.
Qed.
(** Proved: if [open] fails nothing is left behind; once the block is entered, however it is left, [host.connection] is unset;
    the process is told to exit and waited for if writing to it and waiting for it raise nothing, and if it ended by itself
    during the block it stays so.  Missing: failures of [_resolve_identity] (refuted above). *)
Theorem C18_cleanup_partial : forall A (body : K A) k r k', uses body -> fresh k -> with_connection body k = (r, k') ->
  (* not entered *)
  (exists e, r = Err e /\ k_enter k = (Err e, k') /\
     (k_host k' = false -> k_process k' = None /\ forall p j, k_procs k' !! j = Some p -> length (k_procs k) <= j -> gone p)) \/
  (* entered *)
  exists k1 rb k2, k_enter k = (Ok tt, k1) /\ k_host k1 = true /\ body k1 = (rb, k2) /\ k_host k' = false /\
    (Forall (fun x => x = Ok tt) (k_io k2) -> r = rb /\ k_process k' = None /\
       exists p, k_procs k' !! length (k_procs k) = Some p /\ dismissed p) /\
    (forall p, k_procs k2 !! length (k_procs k) = Some p -> pr_ended p = true ->
       exists p', k_procs k' !! length (k_procs k) = Some p' /\ pr_ended p' = true).
Proof.
  intros A body k r k' Hb (F1 & F2 & F3) E. unfold with_connection in E. rewrite kbind in E.
  destruct (k_enter k) as [[[]|e] k1] eqn:En.
  2: { injection E as <- <-. left. exists e. split; [reflexivity|]. split; [reflexivity|]. intros Hh.
       unfold k_enter in En. rewrite kbind in En. destruct (k_open_connector k) as [ro ko] eqn:Eo.
       pose proof (C17_open_fails_clean_partial k ro ko F2 Eo) as [(e' & -> & H1 & H2)|(-> & H1 & H2 & H3)].
       - injection En as <- <-. destruct H2 as [[H2 H3]|(p & H2 & H3 & H4)].
         + split; [congruence|]. intros p j Hp Hj. rewrite H2 in Hp. apply lookup_lt_Some in Hp. lia.
         + split; [assumption|]. intros q j Hq Hj. rewrite H2 in Hq. rewrite lookup_app_r in Hq by exact Hj.
           destruct (j - length (k_procs k)) as [|x]; [|destruct x; discriminate]. injection Hq as <-. exact H3.
       - exfalso. rewrite kmod_bind in En. unfold k_identity in En. cbn [k_process set_host] in En. rewrite H2 in En.
         rewrite kbind in En. destruct (krequest _ _ (set_host true ko)) as [[pk|e1] kq] eqn:Eq; apply krequest_spec in Eq as (_ & _ & Hq & _);
           [|injection En as _ <-; cbn in Hq; congruence].
         rewrite kbind in En. destruct (krequest _ _ kq) as [[pk2|e1] kq2] eqn:Eq2; apply krequest_spec in Eq2 as (_ & _ & Hq2 & _);
           injection En as _ <-; cbn in Hq; congruence. }
  right. unfold kfinally in E. destruct (body k1) as [rb k2] eqn:Eb.
  assert (Hk1 : k_process k1 = Some (length (k_procs k)) /\ k_open k1 = true /\ k_host k1 = true /\ length (k_procs k1) = S (length (k_procs k))).
  { unfold k_enter in En. rewrite kbind in En. destruct (k_open_connector k) as [ro ko] eqn:Eo.
    pose proof (C17_open_fails_clean_partial k ro ko F2 Eo) as [(e' & -> & _)|(-> & H1 & H2 & p & H3 & _)]; [discriminate|].
    rewrite kmod_bind in En. unfold k_identity in En. cbn [k_process set_host] in En. rewrite H2 in En.
    set (n := length (k_procs k)) in *.
    rewrite kbind in En. destruct (krequest n (PResolveUser None) (set_host true ko)) as [[pk|e1] kq] eqn:Eq; [|discriminate].
    rewrite kbind in En. destruct (krequest n (PResolveGroup None) kq) as [[pk2|e1] kq2] eqn:Eq2; [|discriminate]. injection En as <-.
    destruct (krequest_spec _ _ _ _ _ Eq) as (A1 & A2 & A3 & A4), (krequest_spec _ _ _ _ _ Eq2) as (B1 & B2 & B3 & B4). cbn in *.
    split_and!; try congruence. rewrite B4, A4, H3, app_length. cbn. lia. }
  destruct Hk1 as (A1 & A2 & A3 & A4). destruct (Hb _ _ _ Eb) as (B1 & B2 & B3 & B4 & _).
  exists k1, rb, k2. split; [reflexivity|]. split; [exact A3|]. split; [exact Eb|].
  unfold k_exit in E. rewrite kmod_bind in E. destruct (k_close (set_host false k2)) as [rc k3] eqn:Ec.
  assert (k' = k3) as -> by (destruct rc; injection E as _ <-; reflexivity).
  split; [rewrite (close_host _ _ _ Ec); reflexivity|].
  set (n := length (k_procs k)) in *.
  assert (Hn : n < length (k_procs k2)) by lia. apply lookup_lt_is_Some in Hn as [p Hp]. split.
  - intros Hio. assert (rc = Ok tt) as -> by (eapply close_ok; [exact Ec|exact Hio]). injection E as <-.
    destruct (C17_close (set_host false k2) k3 n p) as (C1 & p' & C2 & C3); cbn; try congruence; auto.
    split; [reflexivity|]. split; [exact C1|]. exists p'. split; [|exact C3]. rewrite C2. cbn. apply list_lookup_insert. lia.
  - intros q Hq He. destruct (close_later _ _ _ _ _ Ec Hq) as (p' & P1 & P2). exists p'. split; [exact P1|]. apply P2. exact He.
Qed.
Print Assumptions C18_cleanup_partial.
Example C18_example : forall e, with_connection (kraise e : K unit) good_life =
  (Err e, Life None true false [Proc' true true false true] [] [] [] []).
Proof. reflexivity. Qed.
Example C18_uses : uses (kraise (UserExn 1) : K unit).
Proof. intros k r k' [= _ <-]. split_and!; auto; [|exists []; reflexivity]. intros i p Hp He. eauto. Qed.
