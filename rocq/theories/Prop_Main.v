(** C62, C63: host selection and the connections of a run. *)
From Coq Require Import Lia.
From stdpp Require Import list.
From Verif Require Import Base Codec Dict_proofs Lifecycle Prop_Lifecycle Main.
Local Open Scope nat_scope.

(** ** Specification *)
(** the names on the command line: separated by commas, or all hosts *)
Definition asked (loaded : list pystr) (hosts : option pystr) (names : list pystr) : Prop :=
  match hosts with
  | None => names = loaded
  | Some s => names <> [] /\ s = join_str [44%N] names /\ Forall (fun n => 44%N ∉ n) names
  end.
(** [sel] is [names] without repetitions, in the order of first occurrence *)
Definition once_each (names sel : list pystr) : Prop :=
  NoDup sel /\ (forall x, x ∈ sel <-> x ∈ names) /\
  forall p, p `prefix_of` names -> exists q, q `prefix_of` sel /\ forall x, x ∈ q <-> x ∈ p.
Definition connected (l : pystr -> life) (h : pystr) : Prop := k_host (l h) = true.
Definition ran_on (d d' : deploy) (hs : list pystr) : Prop := exists evs, d_trace d' = d_trace d ++ evs /\ ev_host <$> evs = hs.

(** ** Selection *)
Lemma split_ne c s : split_char c s <> [].
Proof. induction s as [|d s IH]; cbn; [discriminate|]. destruct (d =? c)%N; [discriminate|]. destruct (split_char c s); [congruence|discriminate]. Qed.
Lemma split_join c s : join_str [c] (split_char c s) = s /\ Forall (fun n => c ∉ n) (split_char c s).
Proof.
  induction s as [|d s IH]; cbn; [split; [reflexivity|repeat constructor; apply not_elem_of_nil]|]. destruct IH as [IH1 IH2]. pose proof (split_ne c s) as Hn.
  destruct (N.eqb_spec d c) as [-> |Hd].
  - split; [|constructor; [apply not_elem_of_nil|exact IH2]]. destruct (split_char c s) as [|w ws] eqn:E; [congruence|]. cbn. cbn in IH1. rewrite IH1. reflexivity.
  - destruct (split_char c s) as [|w ws]; [congruence|]. inversion IH2; subst. split; [destruct ws; reflexivity|].
    constructor; [|assumption]. rewrite not_elem_of_cons. split; [congruence|assumption].
Qed.
Lemma asked_iff loaded hosts : asked loaded hosts (match hosts with Some s => split_char 44 s | None => loaded end).
Proof. destruct hosts as [s|]; [|reflexivity]. destruct (split_join 44 s) as [H1 H2]. split; [apply split_ne|]. split; [symmetry; exact H1|exact H2]. Qed.
Lemma select_spec loaded names : forall done sel0, once_each done sel0 ->
  match select loaded names sel0 with
  | Ok sel => once_each (done ++ names) sel /\ sel0 `prefix_of` sel /\ Forall (fun x => x ∈ loaded \/ x ∈ sel0) names
  | Err e => e = die /\ exists x, x ∈ names /\ x ∉ loaded
  end.
Proof.
  induction names as [|h names IH]; intros done sel0 (N1 & N2 & N3); cbn [select].
  - rewrite app_nil_r. split; [split_and!; assumption|]. split; [reflexivity|constructor].
  - destruct (str_in h sel0) eqn:Hs; [|destruct (str_in h loaded) eqn:Hl; cbn [negb]].
    + apply str_in_true in Hs. assert (H : once_each (done ++ [h]) sel0).
      { split_and!; [exact N1|intros x; rewrite elem_of_app, elem_of_list_singleton, N2; split; [tauto|intros [?| ->]; [assumption|apply N2; exact Hs]]|].
        intros p [t Ht]. destruct t as [|a t _] using rev_ind.
        - rewrite app_nil_r in Ht. subst p. exists sel0. split; [reflexivity|]. intros x. rewrite elem_of_app, elem_of_list_singleton, N2. split; [tauto|intros [?| ->]; [assumption|apply N2; exact Hs]].
        - rewrite app_assoc in Ht. apply app_inj_tail in Ht as [-> ->]. apply N3. eexists; reflexivity. }
      specialize (IH _ _ H). destruct (select loaded names sel0) as [sel|e].
      * destruct IH as (I1 & I2 & I3). rewrite <- app_assoc in I1. split; [exact I1|]. split; [exact I2|]. constructor; [right; exact Hs|exact I3].
      * destruct IH as (-> & x & X1 & X2). split; [reflexivity|]. exists x. split; [right; exact X1|exact X2].
    + apply str_in_false in Hs. apply str_in_true in Hl. assert (H : once_each (done ++ [h]) (sel0 ++ [h])).
      { split_and!.
        - apply NoDup_app. split_and!; [exact N1|intros x Hx ->%elem_of_list_singleton; contradiction|apply NoDup_singleton].
        - intros x. rewrite !elem_of_app, N2. reflexivity.
        - intros p [t Ht]. destruct t as [|a t _] using rev_ind.
          + rewrite app_nil_r in Ht. subst p. exists (sel0 ++ [h]). split; [reflexivity|]. intros x. rewrite !elem_of_app, N2. reflexivity.
          + rewrite app_assoc in Ht. apply app_inj_tail in Ht as [-> ->]. destruct (N3 p ltac:(eexists; reflexivity)) as (q & Q1 & Q2). exists q. split; [apply prefix_app_r; exact Q1|exact Q2]. }
      specialize (IH _ _ H). destruct (select loaded names (sel0 ++ [h])) as [sel|e].
      * destruct IH as (I1 & I2 & I3). rewrite <- app_assoc in I1. split; [exact I1|]. split; [etransitivity; [|exact I2]; eexists; reflexivity|].
        constructor; [left; exact Hl|]. eapply Forall_impl; [exact I3|]. intros x [Hx|Hx]; [left; exact Hx|]. apply elem_of_app in Hx as [Hx| ->%elem_of_list_singleton]; [right; exact Hx|left; exact Hl].
      * destruct IH as (-> & x & X1 & X2). split; [reflexivity|]. exists x. split; [right; exact X1|exact X2].
    + apply str_in_false in Hl. split; [reflexivity|]. exists h. split; [left|exact Hl].
Qed.
Lemma once_nil : once_each [] [].
Proof. split_and!; [constructor|reflexivity|]. intros p Hp. exists []. split; [apply prefix_nil|]. apply prefix_nil_inv in Hp as ->. reflexivity. Qed.

(** ** One host *)
Lemma dbind {A B} (m : D A) (f : A -> D B) d : (m ≫= f) d = match m d with (Ok a, d') => f a d' | (Err e, d') => (Err e, d') end.
Proof. reflexivity. Qed.
Lemma enter_host k r k' : fresh k -> k_enter k = (r, k') -> r = Ok tt -> k_host k' = true.
Proof.
  intros (F1 & F2 & F3) En ->. unfold k_enter in En. rewrite kbind in En. destruct (k_open_connector k) as [ro ko] eqn:Eo.
  pose proof (C17_open_fails_clean_partial k ro ko F2 Eo) as [(e' & -> & _)|(-> & H1 & H2 & p & H3 & _)]; [discriminate|].
  rewrite kmod_bind in En. unfold k_identity in En. cbn [k_process set_host] in En. rewrite H2 in En.
  rewrite kbind in En. destruct (krequest _ (PResolveUser None) (set_host true ko)) as [[pk|e1] kq] eqn:Eq; [|discriminate].
  rewrite kbind in En. destruct (krequest _ (PResolveGroup None) kq) as [[pk2|e1] kq2] eqn:Eq2; [|discriminate]. injection En as <-.
  destruct (krequest_spec _ _ _ _ _ Eq) as (A1 & A2 & A3 & A4), (krequest_spec _ _ _ _ _ Eq2) as (B1 & B2 & B3 & B4). cbn in *. congruence.
Qed.
Lemma exit_host k r k' : k_exit k = (r, k') -> k_host k' = false.
Proof. unfold k_exit. rewrite kmod_bind. intros E. rewrite (close_host _ _ _ E). reflexivity. Qed.
Lemma set_life_same h k l : set_life h k l h = k. Proof. unfold set_life. rewrite str_eqb_refl. reflexivity. Qed.
Lemma set_life_other h k l x : x <> h -> set_life h k l x = l x. Proof. intros H. unfold set_life. rewrite (proj2 (str_eqb_false _ _) H). reflexivity. Qed.
Section runs.
  Variable script : pystr -> K unit.
  Lemma body_eq h d : (_ ← set_global (Some h); _ ← record h; _ ← on_host h (script h); set_global None) d =
    let t := d_trace d ++ [Starts h (Some h) (d_lives d)] in
    match script h (d_lives d h) with
    | (Ok _, k) => (Ok tt, Deploy (set_life h k (d_lives d)) None t)
    | (Err e, k) => (Err e, Deploy (set_life h k (d_lives d)) (Some h) t)
    end.
  Proof. cbv zeta. unfold mbind, D_bind, set_global, record, on_host. cbn [d_lives d_global d_trace]. destruct (script h (d_lives d h)) as [[[]|e] k]; reflexivity. Qed.
  (** how [run_host] relates to connections *)
  Lemma run_host_spec h d r d' : run_host script h d = (r, d') ->
    (forall x, x <> h -> d_lives d' x = d_lives d x) /\
    ((exists e k, k_enter (d_lives d h) = (Err e, k) /\ r = Err e /\ d_lives d' h = k /\ d_trace d' = d_trace d) \/
     exists k1 rb k2 rx k3, k_enter (d_lives d h) = (Ok tt, k1) /\ script h k1 = (rb, k2) /\ k_exit k2 = (rx, k3) /\ d_lives d' h = k3 /\
       r = (match rx with Ok _ => rb | Err e => Err e end) /\
       d_trace d' = d_trace d ++ [Starts h (Some h) (set_life h k1 (d_lives d))]).
  Proof.
    unfold run_host. rewrite dbind. unfold on_host at 1. destruct (k_enter (d_lives d h)) as [[[]|e] k1] eqn:En.
    - unfold dfinally. rewrite body_eq. cbn [d_lives d_global d_trace]. cbv zeta. rewrite set_life_same. destruct (script h k1) as [[[]|e] k2] eqn:Es;
        unfold on_host; cbn [d_lives d_global d_trace]; rewrite set_life_same; destruct (k_exit k2) as [rx k3] eqn:Ex; intros E.
      all: assert (Hd : d_lives d' = set_life h k3 (set_life h k2 (set_life h k1 (d_lives d))) /\ d_trace d' = d_trace d ++ [Starts h (Some h) (set_life h k1 (d_lives d))])
             by (destruct rx; injection E as _ <-; split; reflexivity); destruct Hd as [Hd1 Hd2].
      all: split; [intros x Hx; rewrite Hd1, !set_life_other by exact Hx; reflexivity|right].
      all: eexists _, _, _, _, _; split; [reflexivity|]; split; [exact Es|]; split; [exact Ex|]; split; [rewrite Hd1; apply set_life_same|]; split; [|exact Hd2].
      all: destruct rx as [[]|]; injection E as <- _; reflexivity.
    - intros [= <- <-]. split; [intros x Hx; cbn [d_lives]; apply set_life_other; exact Hx|]. left. eexists _, _. split; [reflexivity|]. split; [reflexivity|]. split; [apply set_life_same|reflexivity].
  Qed.
  Lemma run_hosts_spec sel : forall d r d', NoDup sel -> (forall h, h ∈ sel -> fresh (d_lives d h)) -> (forall h, ~ connected (d_lives d) h) ->
    run_hosts script sel d = (r, d') ->
    (forall x, x ∉ sel -> d_lives d' x = d_lives d x) /\
    exists done rest evs, sel = done ++ rest /\ d_trace d' = d_trace d ++ evs /\
      (forall ev, ev ∈ evs -> ev_global ev = Some (ev_host ev) /\ forall x, connected (ev_lives ev) x <-> x = ev_host ev) /\
      ((r = Ok tt /\ rest = [] /\ ev_host <$> evs = done /\ (forall h, ~ connected (d_lives d') h)) \/
       exists e h rest', r = Err e /\ rest = h :: rest' /\ (forall x, x <> h -> ~ connected (d_lives d') x) /\
         (forall x, x ∈ rest' -> d_lives d' x = d_lives d x) /\
         ((ev_host <$> evs = done /\ exists k, k_enter (d_lives d h) = (Err e, k) /\ d_lives d' h = k) \/
          (ev_host <$> evs = done ++ [h] /\ ~ connected (d_lives d') h))).
  Proof.
    induction sel as [|h sel IH]; intros d r d' Hn Hf Hc E.
    - injection E as <- <-. split; [reflexivity|]. exists [], [], []. split; [reflexivity|]. split; [rewrite app_nil_r; reflexivity|]. split; [intros ev Hev; inversion Hev|]. left. split_and!; auto.
    - cbn [run_hosts] in E. rewrite dbind in E. destruct (run_host script h d) as [rh d1] eqn:Eh. destruct (run_host_spec _ _ _ _ Eh) as [Ho Hcase].
      inversion Hn as [|? ? Hh Hn']; subst. assert (Hfh : fresh (d_lives d h)) by (apply Hf; left).
      destruct Hcase as [(e & k & En & -> & Hk & Ht)|(k1 & rb & k2 & rx & k3 & En & Es & Ex & Hk & -> & Ht)].
      + injection E as <- <-. split; [intros x Hx; apply Ho; intros ->; apply Hx; left|].
        exists [], (h :: sel), []. split; [reflexivity|]. split; [rewrite app_nil_r; exact Ht|]. split; [intros ev Hev; inversion Hev|]. right.
        exists e, h, sel. split_and!; auto; [intros x Hx; unfold connected; rewrite Ho by exact Hx; apply Hc|intros x Hx; apply Ho; intros ->; contradiction|]. left. split; [reflexivity|]. eauto.
      + pose proof (exit_host _ _ _ Ex) as Hoff. pose proof (enter_host _ _ _ Hfh En eq_refl) as Hon.
        assert (Hev : forall x, connected (set_life h k1 (d_lives d)) x <-> x = h).
        { intros x. unfold connected. destruct (decide (x = h)) as [-> |Hx]; [rewrite set_life_same; tauto|]. rewrite set_life_other by exact Hx. split; [intros Hx'; destruct (Hc x Hx')|contradiction]. }
        assert (Hc1 : forall x, ~ connected (d_lives d1) x).
        { intros x. unfold connected. destruct (decide (x = h)) as [-> |Hx]; [rewrite Hk, Hoff; discriminate|]. rewrite Ho by exact Hx. apply Hc. }
        destruct (match rx with Ok _ => rb | Err e => Err e end) as [[]|e] eqn:Er.
        * destruct (IH d1 r d' Hn') as (I1 & done & rest & evs & I2 & I3 & I4 & I5); auto.
          { intros x Hx. rewrite Ho; [apply Hf; right; exact Hx|]. intros ->. contradiction. }
          split. { intros x Hx. rewrite not_elem_of_cons in Hx. rewrite I1 by tauto. apply Ho. tauto. }
          exists (h :: done), rest, (Starts h (Some h) (set_life h k1 (d_lives d)) :: evs). split; [rewrite I2; reflexivity|]. split; [rewrite I3, Ht, <- app_assoc; reflexivity|].
          split. { intros ev [-> |Hv]%elem_of_cons; [split; [reflexivity|exact Hev]|apply I4; exact Hv]. }
          destruct I5 as [(-> & -> & I5 & I6)|(e & h' & rest' & -> & -> & I5 & I6 & I7)].
          -- left. split_and!; auto. cbn. rewrite I5. reflexivity.
          -- right. assert (Hne : forall x, x ∈ h' :: rest' -> x <> h) by (intros x Hx ->; apply Hh; rewrite I2, elem_of_app; tauto).
             exists e, h', rest'. split_and!; auto; [intros x Hx; rewrite I6 by exact Hx; apply Ho, Hne; right; exact Hx|].
             destruct I7 as [[I7 (k & I8 & I9)]|[I7 I8]]; [left|right]; (split; [cbn; rewrite I7; reflexivity|]); [|exact I8].
             exists k. split; [|exact I9]. rewrite <- I8, Ho; [reflexivity|]. apply Hne. left.
        * injection E as <- <-. split; [intros x Hx; apply Ho; intros ->; apply Hx; left|].
          exists [], (h :: sel), [Starts h (Some h) (set_life h k1 (d_lives d))]. split; [reflexivity|]. split; [exact Ht|].
          split. { intros ev ->%elem_of_list_singleton. split; [reflexivity|exact Hev]. }
          right. exists e, h, sel. split; [reflexivity|]. split; [reflexivity|]. split; [auto|]. split; [intros x Hx; apply Ho; intros ->; contradiction|]. right. split; [reflexivity|apply Hc1].
  Qed.
End runs.

(** C62.  Hosts that are selected, once each and in order; a name that is unknown stops everything before the first connection. *)
Theorem C62_selection : forall script loaded hosts d r d', (forall h, fresh (d_lives d h)) ->
  main_run script (Ok loaded) hosts d = (r, d') ->
  exists names, asked loaded hosts names /\
    ((exists x, x ∈ names /\ x ∉ loaded /\ r = Err (SystemExit 1) /\ d' = d) \/
     exists sel, Forall (fun x => x ∈ loaded) names /\ once_each names sel /\
       (forall x, x ∉ sel -> d_lives d' x = d_lives d x) /\
       exists done, done `prefix_of` sel /\ ran_on d d' done /\ (r = Ok tt -> done = sel)).
Proof.
  intros script loaded hosts d r d' Hf E. exists (match hosts with Some s => split_char 44 s | None => loaded end). split; [apply asked_iff|].
  unfold main_run in E. pose proof (select_spec loaded (match hosts with Some s => split_char 44 s | None => loaded end) [] [] once_nil) as H.
  destruct (select _ _ []) as [sel|e].
  - destruct H as (H1 & _ & H3). right. exists sel. split; [eapply Forall_impl; [exact H3|]; intros x [Hx|Hx]; [exact Hx|inversion Hx]|]. split; [exact H1|].
    destruct (run_hosts_spec script sel d r d') as (R1 & done & rest & evs & -> & R3 & _ & R5); auto; [apply H1|intros h Hh; unfold connected in Hh; destruct (Hf h) as (_ & _ & F); congruence|].
    split; [exact R1|]. destruct R5 as [(-> & -> & R5 & _)|(e & h & rest' & -> & -> & _ & _ & R5)].
    + exists done. split; [eexists; reflexivity|]. split; [exists evs; auto|]. intros _. rewrite app_nil_r. reflexivity.
    + destruct R5 as [[R5 _]|[R5 _]]; [exists done|exists (done ++ [h])]; (split; [|split; [exists evs; auto|discriminate]]); [eexists; reflexivity|]. exists rest'. rewrite <- app_assoc. reflexivity.
  - destruct H as (-> & x & X1 & X2). injection E as <- <-. left. eauto.
Qed.
Print Assumptions C62_selection.

(** C63.  While a script runs its host is [fora.host] and the only one connected.  When it has ended or raised, the host is not
    connected any more, and after a failure later hosts are left alone.  The exception is a failure while connecting. *)
Theorem C63_connections_partial : forall script loaded hosts d r d', (forall h, fresh (d_lives d h)) ->
  main_run script (Ok loaded) hosts d = (r, d') ->
  exists evs, d_trace d' = d_trace d ++ evs /\
    (forall ev, ev ∈ evs -> ev_global ev = Some (ev_host ev) /\ forall x, connected (ev_lives ev) x <-> x = ev_host ev) /\
    ((forall x, ~ connected (d_lives d') x) \/
     exists e h k, r = Err e /\ k_enter (d_lives d h) = (Err e, k) /\ d_lives d' h = k /\ (forall x, x <> h -> ~ connected (d_lives d') x) /\ h ∉ ev_host <$> evs).
Proof.
  intros script loaded hosts d r d' Hf E. unfold main_run in E. assert (Hc : forall h, ~ connected (d_lives d) h) by (intros h Hh; unfold connected in Hh; destruct (Hf h) as (_ & _ & F); congruence).
  pose proof (select_spec loaded (match hosts with Some s => split_char 44 s | None => loaded end) [] [] once_nil) as H. destruct (select _ _ []) as [sel|e].
  - destruct H as ((Hnd & _) & _). destruct (run_hosts_spec script sel d r d') as (R1 & done & rest & evs & -> & R3 & R4 & R5); auto.
    exists evs. split; [exact R3|]. split; [exact R4|]. destruct R5 as [(-> & -> & _ & R6)|(e & h & rest' & -> & -> & R6 & _ & [[R7 (k & K1 & K2)]|[_ R7]])].
    + left. exact R6.
    + right. exists e, h, k. split_and!; auto. rewrite R7. intros Hin. apply NoDup_app in Hnd as (_ & Hd & _). apply (Hd h Hin). left.
    + left. intros x. destruct (decide (x = h)) as [-> |Hx]; [exact R7|apply R6; exact Hx].
  - injection E as _ <-. exists []. split; [rewrite app_nil_r; reflexivity|]. split; [intros ev Hev; inversion Hev|]. left. exact Hc.
Qed.
Print Assumptions C63_connections_partial.
(** After a failure the hosts that come later are as before, whatever failed. *)
Theorem C63_later_hosts : forall script loaded hosts d e d' names, (forall h, fresh (d_lives d h)) ->
  main_run script (Ok loaded) hosts d = (Err e, d') -> asked loaded hosts names -> Forall (fun x => x ∈ loaded) names ->
  exists sel done h rest, once_each names sel /\ sel = done ++ h :: rest /\ (forall x, x ∈ rest -> d_lives d' x = d_lives d x) /\ (ran_on d d' done \/ ran_on d d' (done ++ [h])).
Proof.
  intros script loaded hosts d e d' names Hf E Ha Hl. unfold main_run in E. set (names' := match hosts with Some s => split_char 44 s | None => loaded end) in *.
  assert (Hn : names' = names).
  { unfold names'. destruct hosts as [s|]; cbn in Ha; [|symmetry; exact Ha]. destruct Ha as (A1 & -> & A2). clear -A1 A2. revert A1. induction A2 as [|x l Hx Hl IH]; intros Hne; [congruence|].
    assert (Hx' : forall t, split_char 44 (x ++ t) = match split_char 44 t with w :: ws => (x ++ w) :: ws | [] => [x] end).
    { clear -Hx. intros t. pose proof (split_ne 44 t). induction x as [|a x IH]; cbn; [destruct (split_char 44 t); [congruence|reflexivity]|]. rewrite not_elem_of_cons in Hx. destruct Hx as [Ha Hx].
      destruct (N.eqb_spec a 44); [congruence|]. rewrite (IH Hx). destruct (split_char 44 t); [congruence|reflexivity]. }
    destruct l as [|y l]; [cbn; specialize (Hx' []); rewrite app_nil_r in Hx'; rewrite Hx'; cbn; rewrite app_nil_r; reflexivity|].
    change (join_str [44%N] (x :: y :: l)) with (x ++ 44%N :: join_str [44%N] (y :: l)). rewrite Hx'. cbn [split_char]. rewrite N.eqb_refl. rewrite app_nil_r, IH by discriminate. reflexivity. }
  rewrite Hn in E. pose proof (select_spec loaded names [] [] once_nil) as H. destruct (select loaded names []) as [s|e'].
  - destruct H as (H1 & _). destruct (run_hosts_spec script s d (Err e) d') as (R1 & done & rest & evs & -> & R3 & _ & R5); auto; [apply H1|intros h Hh; unfold connected in Hh; destruct (Hf h) as (_ & _ & F); congruence|].
    destruct R5 as [([=] & _)|(e' & h & rest' & _ & -> & _ & R6 & R7)]. exists (done ++ h :: rest'), done, h, rest'. split_and!; auto.
    destruct R7 as [[R7 _]|[R7 _]]; [left|right]; exists evs; auto.
  - destruct H as (_ & x & X1 & X2). rewrite Forall_forall in Hl. destruct (X2 (Hl x X1)).
Qed.
Print Assumptions C63_later_hosts.
(** Full statement (false): afterwards no host is connected.  The identity cannot be resolved after the connection was opened. *)
Theorem C63_connections_refuted : exists d d' e, (forall h, fresh (d_lives d h)) /\
  main_run (fun _ => mret tt) (Ok [lit "a"]) None d = (Err e, d') /\ connected (d_lives d' ) (lit "a") /\ exists p, p ∈ k_procs (d_lives d' (lit "a")) /\ ~ gone p.
Proof.
  exists (Deploy (fun _ => Life None false false [] [] [Ok PAck; Err (ValueError (lit "The user does not exist"))] [] []) None []). eexists _, _.
  split; [intros h; split_and!; reflexivity|]. split; [reflexivity|]. split; [reflexivity|]. exists (Proc' false false false false). split; [left|]. intros [H|H]; discriminate.
Qed.
Print Assumptions C63_connections_refuted.

(** a script that fails on the second host *)
Definition two_hosts : deploy := Deploy (fun _ => good_life) None [].
Definition fails_on_b (h : pystr) : K unit := if str_eqb h (lit "b") then kraise (UserExn 1) else mret tt.
Example C62_example : (let x := main_run fails_on_b (Ok [lit "a"; lit "b"; lit "c"]) (Some (lit "c,b,c,a")) two_hosts in
   (fst x, ev_host <$> d_trace (snd x), List.map (fun h => (k_host (d_lives (snd x) h), length (k_procs (d_lives (snd x) h)))) [lit "a"; lit "b"; lit "c"]))
  = (Err (UserExn 1), [lit "c"; lit "b"], [(false, 0); (false, 1); (false, 1)]).
Proof. vm_compute. reflexivity. Qed.
Example C62_example_unknown : main_run fails_on_b (Ok [lit "a"; lit "b"]) (Some (lit "a,x")) two_hosts = (Err (SystemExit 1), two_hosts).
Proof. reflexivity. Qed.
