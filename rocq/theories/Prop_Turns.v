(** C89: operations act on the host whose turn it is. *)
From stdpp Require Import list.
From Verif Require Import Base Dict_proofs Main Prop_Main Turns.
Local Open Scope nat_scope.

(** ** Specification *)
(** whose script is running, after what happened so far *)
Fixpoint turn_from (cur : option pystr) (t : list event) : option pystr :=
  match t with
  | [] => cur
  | Turn h :: t => turn_from (Some h) t
  | Closing _ true :: t => turn_from None t
  | _ :: t => turn_from cur t
  end.
Definition turn := turn_from None.
(** whom [main_run] is connected to *)
Fixpoint served_from (cur : option pystr) (t : list event) : option pystr :=
  match t with
  | [] => cur
  | Opening h true :: t => served_from (Some h) t
  | Closing _ true :: t => served_from None t
  | _ :: t => served_from cur t
  end.
Definition served := served_from None.
(** user code that opens no connections itself *)
Fixpoint connects_not (d : deed) : Prop :=
  match d with
  | Finish _ => True
  | Request k | Direct _ k => forall r, connects_not (k r)
  | Operate b k | Script b k => connects_not b /\ forall r, connects_not (k r)
  | Connect _ _ _ => False
  end.
Definition decl_connects_not (h : host_decl) : Prop := Forall connects_not (hd_groups h) /\ connects_not (hd_module h).
(** every event is fine, given what happened before *)
Definition always (fine : list event -> event -> Prop) (t : list event) : Prop := forall pre e post, t = pre ++ e :: post -> fine pre e.
(** operations are accepted in scripts and only there; they act on the host whose script it is *)
Definition rightly (pre : list event) (e : event) : Prop :=
  match e with
  | Asked h true => turn pre = Some h
  | Accepted => turn pre <> None
  | Refused => turn pre = None
  | _ => True
  end.
(** all requests go to the host that [main_run] is connected to; there is one such host at a time *)
Definition singly (pre : list event) (e : event) : Prop :=
  match e with
  | Asked h _ | Turn h => served pre = Some h
  | Opening _ main => main = true /\ served pre = None
  | Closing h main => main = true /\ served pre = Some h
  | _ => True
  end.

(** ** Proofs *)
Lemma always_nil fine : always fine []. Proof. intros [|x pre] e post H; discriminate. Qed.
Lemma always_snoc fine t e : always fine t -> fine t e -> always fine (t ++ [e]).
Proof.
  intros H1 H2 pre e' post E. destruct post as [|x post _] using rev_ind.
  - apply app_inj_tail in E as [<- <-]. exact H2.
  - rewrite app_comm_cons, app_assoc in E. apply app_inj_tail in E as [-> _]. eapply H1. reflexivity.
Qed.
Lemma turn_from_snoc t e : forall c, turn_from c (t ++ [e]) = match e with Turn h => Some h | Closing _ true => None | _ => turn_from c t end.
Proof. induction t as [|x t IH]; intros c; [destruct e as [| | |? []| |]; reflexivity|]. destruct x as [| | |? []| |]; cbn; apply IH. Qed.
Lemma turn_snoc t e : turn (t ++ [e]) = match e with Turn h => Some h | Closing _ true => None | _ => turn t end.
Proof. apply turn_from_snoc. Qed.
Lemma served_from_snoc t e : forall c, served_from c (t ++ [e]) = match e with Opening h true => Some h | Closing _ true => None | _ => served_from c t end.
Proof. induction t as [|x t IH]; intros c; [destruct e as [? []| | |? []| |]; reflexivity|]. destruct x as [? []| | |? []| |]; cbn; apply IH. Qed.
Lemma served_snoc t e : served (t ++ [e]) = match e with Opening h true => Some h | Closing _ true => None | _ => served t end.
Proof. apply served_from_snoc. Qed.

Section proofs.
  Variable answer : list event -> result unit.
  Notation eval := (eval answer).

  (** *** What user code does in between *)
  Definition fits (i : inv) (o : option pystr) (e : event) : Prop :=
    match e with
    | Asked h true => i = Ready /\ o = Some h
    | Asked h false => True
    | Opening _ main | Closing _ main => main = false
    | Turn _ => False
    | Accepted => i = Ready /\ o <> None
    | Refused => i <> Ready \/ o = None
    end.
  Definition step (w w' : world) : Prop := w_inv w' = w_inv w /\ w_host w' = w_host w /\ exists l, w_trace w' = w_trace w ++ l /\ Forall (fits (w_inv w) (w_host w)) l.
  Definition within (op : bool) (m : M unit) : Prop := forall w r w', m w = (r, w') -> (op = true -> w_inv w = Ready) -> step w w'.
  Lemma step_refl w : step w w.
  Proof. split; [reflexivity|]. split; [reflexivity|]. exists []. rewrite app_nil_r. split; [reflexivity|constructor]. Qed.
  Lemma step_trans w w1 w2 : step w w1 -> step w1 w2 -> step w w2.
  Proof.
    intros (A1 & A2 & l & A3 & A4) (B1 & B2 & m & B3 & B4). rewrite A1 in *. rewrite A2 in *. split; [exact B1|]. split; [exact B2|]. exists (l ++ m). split; [rewrite B3, A3, app_assoc; reflexivity|apply Forall_app; auto].
  Qed.
  Lemma step_inv w w' (op : bool) : step w w' -> (op = true -> w_inv w = Ready) -> op = true -> w_inv w' = Ready. Proof. intros (H & _) H1 H2. rewrite H. auto. Qed.
  Lemma within_ask op e : (forall i o, fits i o e) -> within op (ask answer e).
  Proof. intros H w r w' [= <- <-] _. split; [reflexivity|]. split; [reflexivity|]. exists [e]. split; [reflexivity|]. constructor; [apply H|constructor]. Qed.
  Lemma within_bind op (m : M unit) (f : unit -> M unit) : within op m -> (forall a, within op (f a)) -> within op (m ≫= f).
  Proof.
    intros Hm Hf w r w' E Hw. unfold mbind, T_bind in E. destruct (m w) as [[a|e] w1] eqn:E1.
    - pose proof (Hm _ _ _ E1 Hw) as H. eapply step_trans; [exact H|eapply Hf; [exact E|eapply step_inv; eassumption]].
    - injection E as <- <-. eapply Hm; eassumption.
  Qed.
  Lemma within_finally op m f : within op m -> within op f -> within op (tfinally m f).
  Proof.
    intros Hm Hf w r w' E Hw. unfold tfinally in E. destruct (m w) as [x w1] eqn:E1. destruct (f w1) as [y w2] eqn:E2. assert (w' = w2) as -> by (destruct y; injection E; congruence).
    pose proof (Hm _ _ _ E1 Hw) as H. eapply step_trans; [exact H|eapply Hf; [exact E2|eapply step_inv; eassumption]].
  Qed.
  Lemma within_then op (m : M unit) (k : result unit -> M unit) : within op m -> (forall r, within op (k r)) -> within op (fun w => let '(r, w) := m w in k r w).
  Proof. intros Hm Hk w r w' E Hw. destruct (m w) as [x w1] eqn:E1. pose proof (Hm _ _ _ E1 Hw) as H. eapply step_trans; [exact H|eapply Hk; [exact E|eapply step_inv; eassumption]]. Qed.
  Lemma within_conn op h b : within op (set_conn h b).
  Proof. intros w r w' [= <- <-] _. split; [reflexivity|]. split; [reflexivity|]. exists []. rewrite app_nil_r. split; [reflexivity|constructor]. Qed.
  Lemma within_use op h : within op (use answer h false).
  Proof. intros w r w' E Hw. unfold use in E. destruct (w_conn w h); [eapply (within_ask op (Asked h false)); [intros; exact I|exact E|exact Hw]|]. injection E as <- <-. apply step_refl. Qed.
  Lemma within_active op : within op (use_active answer op).
  Proof.
    intros w r w' E Hw. unfold use_active in E. destruct (w_host w) as [h|] eqn:Eh; [|injection E as <- <-; apply step_refl].
    unfold use in E. destruct (w_conn w h); [|injection E as <- <-; apply step_refl]. injection E as <- <-. split; [reflexivity|]. split; [reflexivity|].
    exists [Asked h op]. split; [reflexivity|]. constructor; [|constructor]. destruct op; cbn; auto.
  Qed.
  Lemma check_spec w r w' : check_host_active w = (r, w') -> step w w' /\ (r = Ok tt -> w_inv w = Ready).
  Proof.
    intros E. unfold check_host_active, note in E. destruct (w_inv w) eqn:Ei; [| |destruct (w_host w) as [h|] eqn:Eh]; injection E as <- <-; (split; [|discriminate || reflexivity]);
      (split; [cbn; congruence|]; split; [cbn; congruence|]); eexists; (split; [reflexivity|]); (constructor; [|constructor]); cbn.
    - left. congruence.
    - left. congruence.
    - split; congruence.
    - right. exact Eh.
  Qed.
  Lemma checked op op' (m : M unit) : within op' m -> (op' = false \/ op' = true) -> within op (_ ← check_host_active; m).
  Proof.
    intros Hm _ w r w' E Hw. unfold mbind, T_bind in E. destruct (check_host_active w) as [[[]|e] w1] eqn:E1; apply check_spec in E1 as [H1 H2].
    - eapply step_trans; [exact H1|]. eapply Hm; [exact E|]. intros _. destruct H1 as (H1 & _). rewrite H1. auto.
    - injection E as <- <-. exact H1.
  Qed.
  Lemma within_run op m : within op m -> within op (run_script m).
  Proof. intros H w r w' E Hw. unfold run_script in E. destruct (w_host w) as [h|]; [destruct (w_conn w h)|]; [eapply H; eassumption| |]; injection E as <- <-; apply step_refl. Qed.
  Lemma within_eval d : forall op, within op (eval op d).
  Proof.
    induction d as [r|k IH|h k IH|b IHb k IH|b IHb k IH|h b IHb k IH]; intros op; cbn [Turns.eval].
    - intros w r' w' [= <- <-] _. apply step_refl.
    - apply within_then; [apply within_active|intros r; apply IH].
    - apply within_then; [apply within_use|intros r; apply IH].
    - apply within_then; [|intros r; apply IH]. apply (checked op true); [apply IHb|auto].
    - apply within_then; [|intros r; apply IH]. apply (checked op false); [apply within_run, IHb|auto].
    - apply within_then; [|intros r; apply IH]. apply within_bind.
      + apply within_bind; [apply within_ask; reflexivity|]. intros _. apply within_bind; [apply within_conn|]. intros _. apply within_ask. intros; exact I.
      + intros _. apply within_finally; [apply IHb|]. apply within_bind; [apply within_conn|]. intros _. apply within_ask. reflexivity.
  Qed.

  (** *** The whole run *)
  Definition well (t : list event) (o : option pystr) : Prop := always rightly t /\ turn t = o.
  Lemma well_snoc t o e : well t o -> rightly t e -> well (t ++ [e]) (match e with Turn h => Some h | Closing _ true => None | _ => o end).
  Proof. intros [H1 H2] H3. split; [apply always_snoc; assumption|]. rewrite turn_snoc, H2. reflexivity. Qed.
  Lemma well_app i o o' l : Forall (fits i o) l -> (i = Ready -> o' = o) -> (i <> Ready -> o' = None) -> forall t, well t o' -> well (t ++ l) o'.
  Proof.
    intros H Ho Hn. induction H as [|e l He H IH]; intros t Ht; [rewrite app_nil_r; auto|]. replace (t ++ e :: l) with ((t ++ [e]) ++ l) by (rewrite <- app_assoc; reflexivity). apply IH.
    assert (Hr : rightly t e).
    { destruct Ht as [_ Ht]. destruct e as [| |? []|? ?| |]; cbn in *; try exact I; rewrite Ht.
      - destruct He as [-> He]. rewrite Ho by reflexivity. exact He.
      - destruct He as [He|He]; [apply Hn; exact He|]. destruct i; [apply Hn; discriminate|apply Hn; discriminate|rewrite Ho by reflexivity; exact He].
      - destruct He as [-> He]. rewrite Ho by reflexivity. exact He. }
    pose proof (well_snoc _ _ _ Ht Hr) as W. destruct e as [| | |? []| |]; try exact W; [destruct He|discriminate].
  Qed.
  (** while the inventory is loaded; afterwards *)
  Definition loading (w : world) : Prop := w_inv w <> Ready /\ well (w_trace w) None.
  Definition loaded (w : world) : Prop := w_inv w = Ready /\ well (w_trace w) None.
  Definition keeps {A} (P : world -> Prop) (m : M A) : Prop := forall w r w', m w = (r, w') -> P w -> P w'.
  Lemma keeps_bind {A B} P (m : M A) (f : A -> M B) : keeps P m -> (forall a, keeps P (f a)) -> keeps P (m ≫= f).
  Proof.
    intros Hm Hf w r w' E Hw. unfold mbind, T_bind in E. destruct (m w) as [[a|e] w1] eqn:E1.
    - eapply Hf; [exact E|eapply Hm; eassumption].
    - injection E as <- <-. eapply Hm; eassumption.
  Qed.
  Lemma keeps_eval d : keeps loading (eval false d).
  Proof.
    intros w r w' E [H1 H2]. destruct (within_eval d false _ _ _ E ltac:(intros [=])) as (K1 & K2 & l & K3 & K4). split; [rewrite K1; exact H1|]. rewrite K3. eapply well_app; [exact K4|contradiction|reflexivity|exact H2].
  Qed.
  Lemma keeps_host o : keeps loading (set_host o). Proof. intros w r w' [= <- <-] H. exact H. Qed.
  Lemma keeps_just {A} P (x : result A) : keeps P (just x). Proof. intros w r w' [= <- <-] H. exact H. Qed.
  Lemma keeps_ret {A} P (x : A) : keeps P (mret x : M A). Proof. intros w r w' [= <- <-] H. exact H. Qed.
  Lemma keeps_groups l : keeps loading (load_groups answer l).
  Proof. induction l as [|d l IH]; cbn [load_groups]; [apply keeps_ret|]. apply keeps_bind; [apply keeps_eval|intros _; exact IH]. Qed.
  Lemma keeps_all l : keeps loading (instanciate_all answer l).
  Proof.
    induction l as [|d l IH]; cbn [instanciate_all]; [apply keeps_ret|]. apply keeps_bind; [|intros _; exact IH]. unfold instanciate.
    apply keeps_bind; [apply keeps_groups|]. intros _. apply keeps_bind; [apply keeps_just|]. intros _. apply keeps_bind; [|intros _; apply keeps_just]. unfold load_host.
    apply keeps_bind; [apply keeps_host|]. intros _. apply keeps_bind; [apply keeps_eval|intros _; apply keeps_host].
  Qed.
  Lemma load_spec module decls w r w' : load_inventory answer module decls w = (r, w') -> well (w_trace w) None ->
    well (w_trace w') None /\ forall x, r = Ok x -> w_inv w' = Ready.
  Proof.
    intros E H. unfold load_inventory in E. unfold mbind at 1, T_bind at 1 in E. cbn [set_inv] in E. set (w0 := World _ _ _ _) in E. assert (L0 : loading w0) by (split; [discriminate|exact H]). clearbody w0.
    unfold mbind at 1, T_bind at 1 in E. destruct (eval false module w0) as [[a|e] w1] eqn:E1; apply keeps_eval in E1; specialize (E1 L0); [|injection E as <- <-; split; [apply E1|discriminate]].
    unfold mbind at 1, T_bind at 1, just in E. destruct decls as [l|e]; [|injection E as <- <-; split; [apply E1|discriminate]].
    unfold mbind at 1, T_bind at 1 in E. destruct (instanciate_all answer l w1) as [[a'|e] w2] eqn:E2; apply keeps_all in E2; specialize (E2 E1); [|injection E as <- <-; split; [apply E2|discriminate]].
    injection E as <- <-. split; [apply E2|]. intros x _. reflexivity.
  Qed.
  Lemma keeps_ask_loaded e : (forall t, turn t = None -> rightly t e) -> (forall h, e <> Turn h) -> keeps loaded (ask answer e).
  Proof.
    intros He Hn w r w' [= <- <-] [H1 H2]. split; [exact H1|]. cbn. pose proof (well_snoc _ _ e H2 (He _ (proj2 H2))) as W. destruct e as [|h| |? []| |]; try exact W. destruct (Hn h); reflexivity.
  Qed.
  Lemma keeps_conn (P : world -> Prop) h b : (forall w, P w -> P (snd (set_conn h b w))) -> keeps P (set_conn h b). Proof. intros H w r w' [= <- <-] Hw. apply (H w Hw). Qed.
  Lemma run_host_spec h d : keeps loaded (run_host answer h d).
  Proof.
    unfold run_host. apply keeps_bind.
    - unfold enter. apply keeps_bind; [apply keeps_ask_loaded; [intros; exact I|discriminate]|]. intros _. apply keeps_bind; [apply keeps_conn; intros w Hw; exact Hw|]. intros _. apply keeps_ask_loaded; [intros; exact I|discriminate].
    - intros _ w r w' E [H1 H2]. unfold tfinally in E.
      destruct ((_ ← set_host (Some h); _ ← note (Turn h); _ ← run_script (eval false d); set_host None) w) as [x w1] eqn:Eb.
      assert (K : w_inv w1 = Ready /\ well (w_trace w1) (Some h)).
      { unfold mbind at 1, T_bind at 1 in Eb. cbn [set_host] in Eb. unfold mbind at 1, T_bind at 1 in Eb. cbn [note w_inv w_host w_conn w_trace] in Eb. set (w2 := World _ _ _ _) in Eb.
        assert (L : w_inv w2 = Ready /\ well (w_trace w2) (Some h)) by (split; [exact H1|exact (well_snoc _ _ (Turn h) H2 I)]). assert (Lh : w_host w2 = Some h) by reflexivity. clearbody w2.
        unfold mbind, T_bind in Eb. destruct (run_script (eval false d) w2) as [y w3] eqn:E3. destruct (within_run false _ (within_eval d false) _ _ _ E3 ltac:(intros [=])) as (K1 & K2 & l & K3 & K4).
        assert (L3 : w_inv w3 = Ready /\ well (w_trace w3) (Some h)).
        { destruct L as [L1 L2]. rewrite L1, Lh in K4. split; [congruence|]. rewrite K3. eapply well_app; [exact K4|reflexivity|congruence|exact L2]. }
        destruct y as [[]|e]; injection Eb as <- <-; exact L3. }
      destruct (leave answer h true w1) as [y w2] eqn:E2. assert (w' = w2) as -> by (destruct y; injection E; congruence).
      unfold leave, mbind, T_bind in E2. cbn [set_conn] in E2. injection E2 as <- <-. destruct K as [K1 K2]. split; [exact K1|]. exact (well_snoc _ _ (Closing h true) K2 I).
  Qed.
  Lemma run_hosts_spec script l : keeps loaded (run_hosts answer script l).
  Proof. induction l as [|h l IH]; cbn [run_hosts]; [apply keeps_ret|]. apply keeps_bind; [apply run_host_spec|intros _; exact IH]. Qed.

  Theorem C89_operations module decls hosts script r w : main_run answer module decls hosts script start = (r, w) -> always rightly (w_trace w).
  Proof.
    unfold main_run. intros E. destruct (load_inventory answer module decls start) as [x w1] eqn:E1. apply load_spec in E1 as [L1 L2]; [|split; [apply always_nil|reflexivity]].
    destruct x as [names|e].
    - destruct (select _ _ _) as [sel|e]; [|injection E as <- <-; apply L1]. destruct (run_hosts_spec _ _ _ _ _ E) as [_ [H _]]; [|exact H]. split; [eapply L2; reflexivity|exact L1].
    - assert (w = w1) as -> by (destruct e; injection E; congruence). apply L1.
  Qed.

  (** *** Requests of all kinds *)
  (** the connections are those of [main_run]; with what is asked in the meantime *)
  Definition asks_open (c : pystr -> bool) (e : event) : Prop := match e with Asked h _ => c h = true | Refused | Accepted => True | _ => False end.
  Definition calm (m : M unit) : Prop := forall w r w', m w = (r, w') -> w_conn w' = w_conn w /\ exists l, w_trace w' = w_trace w ++ l /\ Forall (asks_open (w_conn w)) l.
  Lemma calm_same w : w_conn w = w_conn w /\ exists l, w_trace w = w_trace w ++ l /\ Forall (asks_open (w_conn w)) l.
  Proof. split; [reflexivity|]. exists []. rewrite app_nil_r. split; [reflexivity|constructor]. Qed.
  Lemma calm_trans w w1 w2 : (w_conn w1 = w_conn w /\ exists l, w_trace w1 = w_trace w ++ l /\ Forall (asks_open (w_conn w)) l) ->
    (w_conn w2 = w_conn w1 /\ exists l, w_trace w2 = w_trace w1 ++ l /\ Forall (asks_open (w_conn w1)) l) -> w_conn w2 = w_conn w /\ exists l, w_trace w2 = w_trace w ++ l /\ Forall (asks_open (w_conn w)) l.
  Proof. intros (A1 & l & A2 & A3) (B1 & m & B2 & B3). rewrite A1 in *. split; [exact B1|]. exists (l ++ m). split; [rewrite B2, A2, app_assoc; reflexivity|apply Forall_app; auto]. Qed.
  Lemma calm_bind (m : M unit) (f : unit -> M unit) : calm m -> (forall a, calm (f a)) -> calm (m ≫= f).
  Proof.
    intros Hm Hf w r w' E. unfold mbind, T_bind in E. destruct (m w) as [[a|e] w1] eqn:E1; [eapply calm_trans; [eapply Hm; exact E1|eapply Hf; exact E]|]. injection E as <- <-. eapply Hm. exact E1.
  Qed.
  Lemma calm_then (m : M unit) (k : result unit -> M unit) : calm m -> (forall r, calm (k r)) -> calm (fun w => let '(r, w) := m w in k r w).
  Proof. intros Hm Hk w r w' E. destruct (m w) as [x w1] eqn:E1. eapply calm_trans; [eapply Hm; exact E1|eapply Hk; exact E]. Qed.
  Lemma calm_use h op : calm (use answer h op).
  Proof. intros w r w' E. unfold use in E. destruct (w_conn w h) eqn:Ec; injection E as <- <-; [|apply calm_same]. split; [reflexivity|]. exists [Asked h op]. split; [reflexivity|]. constructor; [exact Ec|constructor]. Qed.
  Lemma calm_active op : calm (use_active answer op).
  Proof. intros w r w' E. unfold use_active in E. destruct (w_host w) as [h|]; [eapply calm_use; exact E|]. injection E as <- <-. apply calm_same. Qed.
  Lemma calm_check : calm check_host_active.
  Proof.
    intros w r w' E. unfold check_host_active, note in E. destruct (w_inv w); [| |destruct (w_host w)]; injection E as <- <-; (split; [reflexivity|]); eexists; (split; [reflexivity|]); (constructor; [exact I|constructor]).
  Qed.
  Lemma calm_run m : calm m -> calm (run_script m).
  Proof. intros H w r w' E. unfold run_script in E. destruct (w_host w) as [h|]; [destruct (w_conn w h)|]; [eapply H; exact E| |]; injection E as <- <-; apply calm_same. Qed.
  Lemma calm_eval d : connects_not d -> forall op, calm (eval op d).
  Proof.
    induction d as [r|k IH|h k IH|b IHb k IH|b IHb k IH|h b IHb k IH]; intros Hd op; cbn [Turns.eval]; cbn [connects_not] in Hd.
    - intros w r' w' [= <- <-]. apply calm_same.
    - apply calm_then; [apply calm_active|intros r; apply IH; apply Hd].
    - apply calm_then; [apply calm_use|intros r; apply IH; apply Hd].
    - destruct Hd as [Hb Hk]. apply calm_then; [|intros r; apply IH; apply Hk]. apply calm_bind; [apply calm_check|intros _; apply IHb; exact Hb].
    - destruct Hd as [Hb Hk]. apply calm_then; [|intros r; apply IH; apply Hk]. apply calm_bind; [apply calm_check|intros _; apply calm_run, IHb; exact Hb].
    - destruct Hd.
  Qed.
  Definition serving (w : world) (o : option pystr) : Prop := always singly (w_trace w) /\ served (w_trace w) = o /\ forall x, w_conn w x = true -> o = Some x.
  Lemma serving_app w w' o : w_conn w' = w_conn w -> (exists l, w_trace w' = w_trace w ++ l /\ Forall (asks_open (w_conn w)) l) -> serving w o -> serving w' o.
  Proof.
    intros Hc (l & Ht & Hl) (S1 & S2 & S3). assert (K : forall t, always singly t -> served t = o -> always singly (t ++ l) /\ served (t ++ l) = o).
    { clear Ht S1 S2. induction Hl as [|e l He Hl IH]; intros t H1 H2; [rewrite app_nil_r; auto|]. replace (t ++ e :: l) with ((t ++ [e]) ++ l) by (rewrite <- app_assoc; reflexivity). apply IH.
      - apply always_snoc; [exact H1|]. destruct e; cbn in He |- *; try exact I; try (destruct He; fail). rewrite H2. apply S3. exact He.
      - rewrite served_snoc. destruct e; try exact H2; destruct He. }
    destruct (K _ S1 S2) as [K1 K2]. split; [rewrite Ht; exact K1|]. split; [rewrite Ht; exact K2|]. rewrite Hc. exact S3.
  Qed.
  (** nobody is connected, nothing was asked *)
  Definition silent (w : world) : Prop := (forall x, w_conn w x = false) /\ Forall (fun e => e = Refused \/ e = Accepted) (w_trace w).
  Lemma keeps_calm m : calm m -> keeps silent m.
  Proof.
    intros H w r w' E [H1 H2]. apply H in E as (E1 & l & E2 & E3). split; [rewrite E1; exact H1|]. rewrite E2. apply Forall_app. split; [exact H2|]. eapply Forall_impl; [exact E3|].
    intros [| |h op| | |] He; cbn in He; auto; try (destruct He; fail). rewrite H1 in He. discriminate.
  Qed.
  Lemma silent_serving w : silent w -> serving w None.
  Proof.
    intros [H1 H2]. split; [|split; [|intros x Hx; rewrite H1 in Hx; discriminate]].
    - intros pre e post E. rewrite E in H2. apply Forall_app in H2 as [_ H2]. inversion H2 as [|? ? [-> | ->] _]; exact I.
    - unfold served. induction H2 as [|e l [-> | ->] H2 IH]; [reflexivity|exact IH..].
  Qed.
  Lemma load_calm module decls : connects_not module -> (forall l, decls = Ok l -> Forall decl_connects_not l) -> keeps silent (load_inventory answer module decls).
  Proof.
    intros Hm Hd. unfold load_inventory. apply keeps_bind; [intros w r w' [= <- <-] H; exact H|]. intros _. apply keeps_bind; [apply keeps_calm, calm_eval; exact Hm|]. intros _.
    intros w r w' E Hw. unfold mbind at 1, T_bind at 1, just in E. destruct decls as [l|e]; [|injection E as <- <-; exact Hw]. revert w r w' E Hw. change (keeps silent (_ ← instanciate_all answer l; _ ← set_inv Ready; mret (map hd_name l))).
    apply keeps_bind; [|intros _ w r w' [= <- <-] H; exact H]. specialize (Hd l eq_refl). clear Hm. induction Hd as [|h l [H1 H2] Hd IH]; cbn [instanciate_all]; [apply keeps_ret|].
    apply keeps_bind; [|intros _; exact IH]. unfold instanciate. apply keeps_bind.
    - induction H1 as [|d ds Hd1 Hds IHd]; cbn [load_groups]; [apply keeps_ret|]. apply keeps_bind; [apply keeps_calm, calm_eval; exact Hd1|intros _; exact IHd].
    - intros _. apply keeps_bind; [apply keeps_just|]. intros _. apply keeps_bind; [|intros _; apply keeps_just]. unfold load_host. apply keeps_bind; [intros w r w' [= <- <-] H; exact H|]. intros _.
      apply keeps_bind; [apply keeps_calm, calm_eval; exact H2|]. intros _ w r w' [= <- <-] H. exact H.
  Qed.
  Lemma serving_asked w e o : serving w o -> singly (w_trace w) e -> match e with Opening _ true | Closing _ true => False | _ => True end ->
    serving (World (w_inv w) (w_host w) (w_conn w) (w_trace w ++ [e])) o.
  Proof.
    intros (S1 & S2 & S3) H He. split; [apply always_snoc; assumption|]. split; [|exact S3]. cbn [w_trace]. rewrite served_snoc, S2. destruct e as [? []| | |? []| |]; reflexivity || destruct He.
  Qed.
  Lemma enter_calm h w r w' : enter answer h true w = (r, w') -> serving w None -> always singly (w_trace w') /\ (r = Ok tt -> serving w' (Some h)) /\ exists l, w_trace w' = w_trace w ++ l /\ forall g op, Asked g op ∈ l -> g = h.
  Proof.
    intros E (S1 & S2 & S3). unfold enter, ask in E. unfold mbind at 1, T_bind at 1 in E. assert (A1 : always singly (w_trace w ++ [Opening h true])) by (apply always_snoc; [exact S1|split; [reflexivity|exact S2]]).
    destruct (answer (w_trace w ++ [Opening h true])) as [[]|e].
    2:{ injection E as <- <-. split; [exact A1|]. split; [discriminate|]. eexists. split; [reflexivity|]. intros g op Hg. apply elem_of_list_singleton in Hg. discriminate. }
    unfold mbind, T_bind in E. cbn [set_conn w_inv w_host w_conn w_trace] in E. injection E as <- <-. cbn [w_trace].
    assert (A2 : served (w_trace w ++ [Opening h true]) = Some h) by (rewrite served_snoc; reflexivity).
    assert (A3 : always singly ((w_trace w ++ [Opening h true]) ++ [Asked h false])) by (apply always_snoc; [exact A1|exact A2]). split; [exact A3|]. split.
    - intros _. split; [exact A3|]. split; [cbn [w_trace]; rewrite served_snoc; exact A2|]. cbn [w_conn]. intros x. destruct (str_eqb_spec x h) as [-> |]; [reflexivity|]. intros Hx. discriminate (S3 x Hx).
    - exists [Opening h true; Asked h false]. split; [rewrite <- app_assoc; reflexivity|]. intros g op Hg. apply elem_of_cons in Hg as [Hg|Hg]; [discriminate|]. apply elem_of_list_singleton in Hg. congruence.
  Qed.
  Lemma run_calm h d w r w' : connects_not d -> run_host answer h d w = (r, w') -> serving w None ->
    always singly (w_trace w') /\ (r = Ok tt -> serving w' None) /\ exists l, w_trace w' = w_trace w ++ l /\ forall g op, Asked g op ∈ l -> g = h.
  Proof.
    intros Hd E Hw. unfold run_host in E. unfold mbind at 1, T_bind at 1 in E. destruct (enter answer h true w) as [[[]|e] w1] eqn:E1; apply enter_calm in E1 as (A1 & A2 & l1 & A3 & A4); try exact Hw.
    2:{ injection E as <- <-. split; [exact A1|]. split; [discriminate|]. eauto. }
    specialize (A2 eq_refl). unfold tfinally in E. destruct ((_ ← set_host (Some h); _ ← note (Turn h); _ ← run_script (eval false d); set_host None) w1) as [x w2] eqn:E2.
    assert (K : serving w2 (Some h) /\ exists l, w_trace w2 = w_trace w1 ++ l /\ forall g op, Asked g op ∈ l -> g = h).
    { unfold mbind at 1, T_bind at 1 in E2. cbn [set_host] in E2. unfold mbind at 1, T_bind at 1 in E2. cbn [note w_inv w_host w_conn w_trace] in E2. set (w3 := World _ _ _ _) in E2.
      assert (L : serving w3 (Some h)) by (apply (serving_asked (World (w_inv w1) (Some h) (w_conn w1) (w_trace w1)) (Turn h) (Some h)); [exact A2|apply A2|exact I]).
      assert (Lt : w_trace w3 = w_trace w1 ++ [Turn h]) by reflexivity. clearbody w3. unfold mbind, T_bind in E2. destruct (run_script (eval false d) w3) as [y w4] eqn:E3. apply (calm_run _ (calm_eval d Hd false)) in E3 as (B1 & l & B2 & B3).
      assert (L4 : serving w4 (Some h)) by (eapply serving_app; [exact B1|eauto|exact L]).
      assert (G : serving w4 (Some h) /\ exists l, w_trace w4 = w_trace w1 ++ l /\ forall g op, Asked g op ∈ l -> g = h).
      { split; [exact L4|]. exists (Turn h :: l). split; [rewrite B2, Lt, <- app_assoc; reflexivity|]. intros g op Hg. apply elem_of_cons in Hg as [Hg|Hg]; [discriminate|]. rewrite Forall_forall in B3. apply B3 in Hg. cbn in Hg. apply L in Hg. congruence. }
      destruct y as [[]|e]; injection E2 as <- <-; exact G. }
    destruct K as [(K1 & K2 & K3) (l2 & K4 & K5)]. destruct (leave answer h true w2) as [y w3] eqn:E3. assert (w' = w3) as -> by (destruct y; injection E; congruence).
    unfold leave, mbind, T_bind in E3. cbn [set_conn] in E3. injection E3 as <- <-. cbn [w_trace w_conn]. assert (A5 : always singly (w_trace w2 ++ [Closing h true])) by (apply always_snoc; [exact K1|split; [reflexivity|exact K2]]).
    split; [exact A5|]. split.
    - intros _. split; [exact A5|]. split; [cbn [w_trace]; rewrite served_snoc; reflexivity|]. cbn [w_conn]. intros z. destruct (str_eqb_spec z h) as [-> |]; [discriminate|]. intros Hz. apply K3 in Hz. congruence.
    - exists (l1 ++ l2 ++ [Closing h true]). split; [rewrite K4, A3, <- !app_assoc; reflexivity|]. intros g op Hg. rewrite !elem_of_app in Hg. destruct Hg as [Hg|[Hg|Hg]]; [eauto|eauto|]. apply elem_of_list_singleton in Hg. discriminate.
  Qed.
  Lemma runs_calm script l : (forall h, connects_not (script h)) -> forall w r w', run_hosts answer script l w = (r, w') -> serving w None ->
    always singly (w_trace w') /\ exists t, w_trace w' = w_trace w ++ t /\ forall g op, Asked g op ∈ t -> g ∈ l.
  Proof.
    intros Hs. induction l as [|h l IH]; intros w r w' E Hw; cbn [run_hosts] in E.
    - injection E as <- <-. split; [apply Hw|]. exists []. rewrite app_nil_r. split; [reflexivity|]. intros g op Hg. inversion Hg.
    - unfold mbind, T_bind in E. destruct (run_host answer h (script h) w) as [[[]|e] w1] eqn:E1; apply run_calm in E1 as (A1 & A2 & t & A3 & A4); try exact Hw; try apply Hs.
      + apply IH in E as (B1 & t' & B2 & B3); [|exact (A2 eq_refl)]. split; [exact B1|]. exists (t ++ t'). split; [rewrite B2, A3, app_assoc; reflexivity|]. intros g op Hg. apply elem_of_app in Hg as [Hg|Hg]; [rewrite (A4 _ _ Hg); left|right; eauto].
      + injection E as <- <-. split; [exact A1|]. exists t. split; [exact A3|]. intros g op Hg. rewrite (A4 _ _ Hg). left.
  Qed.

  (** If user code opens no connections itself: at any time one host at most is connected, all requests go to it, and it is one of the hosts asked for. *)
  Theorem C89_requests module decls hosts script r w : connects_not module -> (forall l, decls = Ok l -> Forall decl_connects_not l) -> (forall h, connects_not (script h)) ->
    main_run answer module decls hosts script start = (r, w) ->
    always singly (w_trace w) /\ forall g op, Asked g op ∈ w_trace w -> exists l names, decls = Ok l /\ asked (map hd_name l) hosts names /\ g ∈ names.
  Proof.
    intros H1 H2 H3 E. unfold main_run in E. destruct (load_inventory answer module decls start) as [x w1] eqn:E1.
    assert (S : silent w1) by (apply (load_calm _ _ H1 H2 _ _ _ E1); split; [reflexivity|constructor]).
    assert (S0 : forall g op, Asked g op ∉ w_trace w1) by (intros g op Hg; destruct S as [_ S]; rewrite Forall_forall in S; destruct (S _ Hg) as [[=]|[=]]).
    assert (Hl : forall names, x = Ok names -> exists l, decls = Ok l /\ names = map hd_name l).
    { intros names ->. unfold load_inventory in E1. unfold mbind at 1, T_bind at 1 in E1. cbn [set_inv] in E1. unfold mbind at 1, T_bind at 1 in E1. destruct (eval false module _) as [[a|e] w2]; [|discriminate].
      unfold mbind at 1, T_bind at 1, just in E1. destruct decls as [l|e]; [|discriminate]. unfold mbind at 1, T_bind at 1 in E1. destruct (instanciate_all answer l w2) as [[a'|e] w3]; [|discriminate]. injection E1 as <- <-. eauto. }
    destruct x as [names|e].
    - destruct (Hl names eq_refl) as (l & Hl1 & ->). pose proof (select_spec (map hd_name l) (match hosts with Some s => split_char 44 s | None => map hd_name l end) [] []) as Hs.
      assert (O : once_each [] []) by (split; [constructor|]; split; [intros z; reflexivity|]; intros p Hp; exists []; split; [reflexivity|]; apply prefix_nil_inv in Hp; subst p; reflexivity).
      destruct (select _ _ _) as [sel|e] eqn:Es.
      + apply (runs_calm script sel H3) in E as (A1 & t & A2 & A3); [|apply silent_serving; exact S]. split; [exact A1|]. intros g op Hg. rewrite A2 in Hg. apply elem_of_app in Hg as [Hg|Hg]; [destruct (S0 _ _ Hg)|].
        apply A3 in Hg. exists l. eexists. split; [exact Hl1|]. split; [apply asked_iff|]. destruct (Hs O) as [(_ & Hs' & _) _]. apply Hs'. exact Hg.
      + injection E as <- <-. split; [apply silent_serving; exact S|]. intros g op Hg. destruct (S0 _ _ Hg).
    - assert (w = w1) as -> by (destruct e; injection E; congruence). split; [apply silent_serving; exact S|]. intros g op Hg. destruct (S0 _ _ Hg).
  Qed.

  (** A deploy script in place of the inventory: its first operation ends the program; nothing was asked of any host. *)
  Theorem C89_swapped b k decls hosts script : (forall m, k (Err (FatalError m)) = Finish (Err (FatalError m))) ->
    exists w, main_run answer (Operate b k) decls hosts script start = (Err die, w) /\ w_trace w = [Refused].
  Proof. intros H. unfold main_run, load_inventory. cbv [mbind T_bind]. cbn [set_inv Turns.eval]. cbv [mbind T_bind]. cbn [check_host_active note w_inv w_host w_conn w_trace start]. rewrite H. eexists. split; reflexivity. Qed.
End proofs.
Print Assumptions C89_operations.
Print Assumptions C89_requests.
Print Assumptions C89_swapped.

(** ** Examples *)
(** The inventory has two hosts.  The module of the first calls an operation and goes on when it is refused; the script makes an operation, calls
    another script, and tries to reach the other host; the second host fails on its first request. *)
Definition ha := lit "a". Definition hb := lit "b".
Definition stop : deed := Finish (Ok tt).
Definition through (r : result unit) : deed := Finish r.
Definition ex_decls : list host_decl :=
  [HostDecl ha [stop; stop] (Ok tt) (Operate (Request through) (fun _ => stop)) (Ok tt); HostDecl hb [stop] (Ok tt) stop (Ok tt)].
Definition ex_script (h : pystr) : deed :=
  Operate (Request through) (fun r => match r with Err e => Finish (Err e) | Ok _ =>
    Script (Operate (Request through) through) (fun r => match r with Err e => Finish (Err e) | Ok _ =>
      Direct (if str_eqb h ha then hb else ha) (fun r => match r with Err AttributeError => Operate (Request through) through | _ => stop end) end) end).
Definition ex_answer (t : list event) : result unit :=
  match List.rev t with Asked h true :: _ => if str_eqb h hb then Err (RemoteOSError 5 [] []) else Ok tt | _ => Ok tt end.
Example C89_case :
  connects_not stop /\ Forall decl_connects_not ex_decls /\ (forall h, connects_not (ex_script h)) /\
  (exists w, main_run ex_answer stop (Ok ex_decls) None ex_script start = (Err (RemoteOSError 5 [] []), w)) /\
  w_trace (snd (main_run ex_answer stop (Ok ex_decls) None ex_script start)) =
    [Refused; Opening ha true; Asked ha false; Turn ha; Accepted; Asked ha true; Accepted; Accepted; Asked ha true; Accepted; Asked ha true; Closing ha true;
     Opening hb true; Asked hb false; Turn hb; Accepted; Asked hb true; Closing hb true].
Proof.
  split; [exact I|]. split.
  { constructor; [split; [repeat constructor|]|constructor; [split; [repeat constructor|exact I]|constructor]]. cbn. split; [intros r; exact I|intros r; exact I]. }
  split.
  { intros h. cbn. split; [intros r; exact I|]. intros [[]|e]; cbn; [|exact I]. split; [split; [intros r; exact I|intros r; exact I]|]. intros [[]|e]; cbn; [|exact I]. intros [[]|[]]; cbn; try exact I. split; intros r; exact I. }
  split; [eexists; vm_compute; reflexivity|]. vm_compute. reflexivity.
Qed.
(** A script that opens a connection to the other host itself: operations act on the host of the script all the same. *)
Definition ex_other (h : pystr) : deed := Connect hb (Operate (Request through) (fun _ => Direct hb through)) (fun _ => Operate (Request through) through).
Example C89_case_connect :
  w_trace (snd (main_run (fun _ => Ok tt) stop (Ok ex_decls) (Some ha) ex_other start)) =
    [Refused; Opening ha true; Asked ha false; Turn ha; Opening hb false; Asked hb false; Accepted; Asked ha true; Asked hb false; Closing hb false; Accepted; Asked ha true; Closing ha true].
Proof. vm_compute. reflexivity. Qed.
(** ** False: "in a script, operations reach the host unless the connection fails".  A script that opens a second connection to its own
    host takes the first one away: after the block the host has none, and every operation fails, although all requests are answered. *)
Theorem C89_reconnect_refuted : exists h decls script w, Forall decl_connects_not decls /\
  main_run (fun _ => Ok tt) stop (Ok decls) None script start = (Err AttributeError, w) /\
  script h = Connect h stop (fun _ => Operate (Request through) through) /\ turn (removelast (w_trace w)) = Some h /\ last (removelast (w_trace w)) = Some Accepted.
Proof.
  exists ha, [HostDecl ha [] (Ok tt) stop (Ok tt)], (fun h => Connect h stop (fun _ => Operate (Request through) through)). eexists. split; [constructor; [split; [constructor|exact I]|constructor]|].
  split; [vm_compute; reflexivity|]. split; [reflexivity|]. split; vm_compute; reflexivity.
Qed.
Print Assumptions C89_reconnect_refuted.
