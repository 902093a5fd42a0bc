(** C87: what the exit status of a deploy says. *)
From Coq Require Import Lia ZArith.
From stdpp Require Import list.
From Verif Require Import Base Codec Dict_proofs Lifecycle Prop_Lifecycle Main Prop_Main.
Local Open Scope nat_scope.

(** ** Specification *)
(** The status that the system sees: python ends with 0 after the last statement, with the low byte of the argument of
    [sys.exit], and with 1 after any other exception. *)
Definition exit_status (r : result unit) : Z := match r with Ok _ => 0 | Err (SystemExit n) => n mod 256 | Err _ => 1 end.
(** On [h] a connection was opened, the script ran to its end, and the connection was closed. *)
Definition finished (script : pystr -> K unit) (d d' : deploy) (h : pystr) : Prop :=
  exists k1 k2, k_enter (d_lives d h) = (Ok tt, k1) /\ script h k1 = (Ok tt, k2) /\ k_exit k2 = (Ok tt, d_lives d' h).
(** Everything that was asked for was done. *)
Definition complete (script : pystr -> K unit) (load : result (list pystr)) (hosts : option pystr) (d d' : deploy) : Prop :=
  exists loaded names sel, load = Ok loaded /\ asked loaded hosts names /\ Forall (fun x => x ∈ loaded) names /\ once_each names sel /\ ran_on d d' sel /\
    Forall (finished script d d') sel.

Lemma run_hosts_finish script sel : forall d d', NoDup sel -> run_hosts script sel d = (Ok tt, d') -> Forall (finished script d d') sel /\ forall x, x ∉ sel -> d_lives d' x = d_lives d x.
Proof.
  induction sel as [|h sel IH]; intros d d' Hn E; [injection E as <-; split; [constructor|auto]|].
  cbn [run_hosts] in E. unfold mbind, D_bind in E. destruct (run_host script h d) as [[[]|e] d1] eqn:Eh; [|discriminate].
  inversion Hn as [|? ? Hh Hn']; subst. destruct (IH d1 d' Hn' E) as [I1 I2].
  destruct (run_host_spec script _ _ _ _ Eh) as [Ho [(e & k & _ & [=] & _)|(k1 & rb & k2 & rx & k3 & En & Es & Ex & Hk & Er & _)]].
  destruct rx as [[]|]; [|discriminate]. subst rb. split.
  - constructor.
    + exists k1, k2. split; [exact En|]. split; [exact Es|]. rewrite I2 by exact Hh. rewrite Hk. exact Ex.
    + rewrite Forall_forall in I1 |- *. intros x Hx. destruct (I1 x Hx) as (q1 & q2 & Q). exists q1, q2. rewrite <- (Ho x) by (intros ->; contradiction). exact Q.
  - intros x Hx. rewrite not_elem_of_cons in Hx. rewrite I2 by tauto. apply Ho. tauto.
Qed.

Lemma split_of_join l : l <> [] -> Forall (fun n => 44%N ∉ n) l -> split_char 44 (join_str [44%N] l) = l.
Proof.
  intros A1 A2. induction A2 as [|x l Hx Hl IH]; [congruence|].
  assert (Hx' : forall t, split_char 44 (x ++ t) = match split_char 44 t with w :: ws => (x ++ w) :: ws | [] => [x] end).
  { clear -Hx. intros t. pose proof (split_ne 44 t). induction x as [|a x IH]; cbn; [destruct (split_char 44 t); [congruence|reflexivity]|]. rewrite not_elem_of_cons in Hx. destruct Hx as [Ha Hx].
    destruct (N.eqb_spec a 44); [congruence|]. rewrite (IH Hx). destruct (split_char 44 t); [congruence|reflexivity]. }
  destruct l as [|y l]; [cbn; specialize (Hx' []); rewrite app_nil_r in Hx'; rewrite Hx'; cbn; rewrite app_nil_r; reflexivity|].
  change (join_str [44%N] (x :: y :: l)) with (x ++ 44%N :: join_str [44%N] (y :: l)). rewrite Hx'. cbn [split_char]. rewrite N.eqb_refl. rewrite app_nil_r, IH by discriminate. reflexivity.
Qed.
Lemma asked_unique loaded hosts a b : asked loaded hosts a -> asked loaded hosts b -> a = b.
Proof.
  destruct hosts as [s|]; cbn [asked]; [|congruence]. intros (A1 & A2 & A3) (B1 & B2 & B3). rewrite <- (split_of_join a A1 A3), <- (split_of_join b B1 B3). congruence.
Qed.

(** Full statement (false): [exit_status r = 0 -> complete script load hosts d d']. *)
Theorem C87_status_partial : forall script load hosts d r d', (forall h, fresh (d_lives d h)) -> main_run script load hosts d = (r, d') -> exit_status r = 0%Z ->
  complete script load hosts d d' \/ exists n, r = Err (SystemExit n) /\ (n mod 256 = 0)%Z.
Proof.
  intros script load hosts d r d' Hf E S. destruct r as [[]|e]; [|right; destruct e; try discriminate S; eauto]. left.
  destruct load as [loaded|e]; [|destruct e; discriminate E]. exists loaded, (match hosts with Some s => split_char 44 s | None => loaded end).
  destruct (C62_selection _ _ _ _ _ _ Hf E) as (names & A & C). unfold main_run in E.
  pose proof (select_spec loaded (match hosts with Some s => split_char 44 s | None => loaded end) [] [] once_nil) as H. destruct (select _ _ []) as [sel|e]; [|discriminate].
  destruct H as (H1 & _ & H3). exists sel. split; [reflexivity|]. split; [apply asked_iff|].
  split; [eapply Forall_impl; [exact H3|]; intros x [Hx|Hx]; [exact Hx|inversion Hx]|]. split; [exact H1|].
  destruct (run_hosts_spec script sel d (Ok tt) d') as (_ & done & rest & evs & -> & R3 & _ & R5); auto; [apply H1|intros h Hh; unfold connected in Hh; destruct (Hf h) as (_ & _ & F); congruence|].
  destruct R5 as [(_ & -> & R5 & _)|(e & h & rest' & [=] & _)]. split; [exists evs; rewrite app_nil_r; auto|].
  apply (run_hosts_finish script (done ++ []) d d'); [apply H1|exact E].
Qed.
Print Assumptions C87_status_partial.

(** An inventory that cannot be loaded, a name that is not known, and an exception that a script raises are failures. *)
Theorem C87_failure : forall script load hosts d r d', (forall h, fresh (d_lives d h)) -> main_run script load hosts d = (r, d') ->
  (forall m, load = Err (FatalError m) -> exit_status r = 1%Z /\ d' = d) /\
  (forall loaded names x, load = Ok loaded -> asked loaded hosts names -> x ∈ names -> x ∉ loaded -> exit_status r = 1%Z /\ d' = d) /\
  (forall loaded names h k1 e k2, load = Ok loaded -> asked loaded hosts names -> h ∈ names -> k_enter (d_lives d h) = (Ok tt, k1) -> script h k1 = (Err e, k2) ->
    exit_status r = 0%Z -> exists n, r = Err (SystemExit n)).
Proof.
  intros script load hosts d r d' Hf E. split; [|split].
  - intros m ->. cbn in E. injection E as <- <-. auto.
  - intros loaded names x -> A Hx Hl. destruct (C62_selection _ _ _ _ _ _ Hf E) as (names' & A' & C).
    assert (names' = names) as -> by exact (asked_unique _ _ _ _ A' A).
    destruct C as [(y & _ & _ & -> & ->)|(sel & F & _)]; [auto|]. rewrite Forall_forall in F. destruct (Hl (F x Hx)).
  - intros loaded names h k1 e k2 -> A Hh En Es S. destruct (C87_status_partial _ _ _ _ _ _ Hf E S) as [C|(n & -> & _)]; [|eauto]. exfalso.
    destruct C as (loaded' & names' & sel & [= <-] & A' & _ & O & _ & F).
    assert (names' = names) as -> by exact (asked_unique _ _ _ _ A' A).
    assert (Hs : h ∈ sel) by (apply O; exact Hh). rewrite Forall_forall in F. destruct (F h Hs) as (q1 & q2 & Q1 & Q2 & _). congruence.
Qed.
Print Assumptions C87_failure.

(** A script that calls [sys.exit(0)] ends the whole deploy with status 0; the other hosts are left out without a word. *)
Definition exits_on_a (h : pystr) : K unit := if str_eqb h (lit "a") then kraise (SystemExit 0) else mret tt.
Theorem C87_status_refuted : exists script load hosts d r d', (forall h, fresh (d_lives d h)) /\ main_run script load hosts d = (r, d') /\ exit_status r = 0%Z /\
  load = Ok [lit "a"; lit "b"] /\ hosts = None /\ ran_on d d' [lit "a"] /\ ~ complete script load hosts d d'.
Proof.
  exists exits_on_a, (Ok [lit "a"; lit "b"]), None, two_hosts. eexists _, _. split; [intros h; split_and!; reflexivity|]. split; [vm_compute; reflexivity|].
  split; [reflexivity|]. split; [reflexivity|]. split; [reflexivity|]. split; [eexists; split; reflexivity|].
  intros (loaded & names & sel & [= <-] & A & _ & O & (evs & T & R) & _). cbn in A. subst names. cbn [d_trace two_hosts app] in T. subst evs. cbn in R. subst sel.
  destruct O as (_ & O & _). specialize (proj2 (O (lit "b")) ltac:(right; left)) as B. apply elem_of_list_singleton in B. discriminate B.
Qed.
Print Assumptions C87_status_refuted.

(** Cases: a run on two hosts that is complete, and one that fails on the second *)
Example C87_case : (let x := main_run (fun _ => mret tt) (Ok [lit "a"; lit "b"]) (Some (lit "b,a,b")) two_hosts in exit_status (fst x) = 0%Z /\ ev_host <$> d_trace (snd x) = [lit "b"; lit "a"]) /\
  exit_status (fst (main_run fails_on_b (Ok [lit "a"; lit "b"]) None two_hosts)) = 1%Z.
Proof. vm_compute. split; [split|]; reflexivity. Qed.
