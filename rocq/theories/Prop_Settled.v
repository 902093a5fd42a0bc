(** C98: giving the same command line again changes nothing on any host, for scripts that set up groups, accounts, packages and units. *)
From Coq Require Import Lia ZifyBool ZifyN ZifyNat.
From stdpp Require Import gmap.
From Verif Require Import Base Utf8 Dict_proofs Codec Spec_Codec Paths Sys Spec_Sys Sys_proofs Dispatcher Client Spec_Session Spec_Remote Remote_run Digits Control Spec_Control Control_proofs
  Walk_proofs Quiet Prop_Control Op Op_proofs Files Files_plain Spec_Files Shell_proofs Steps Dir_proofs Remote_examples Files_examples Prop_Files System Spec_Commands Commands_proofs Package_proofs Prop_Package
  Spec_Account Query_proofs Account_proofs Account_run Shadow Prop_Account Spec_Service Prop_Service Prop_Tried Options Fleet Spec_Again Prop_Fleet Prop_Again Spec_Script Spec_Tasks Prop_Tasks.
From Verif Require Main Prop_Main Prop_Status Prop_Line.
Local Open Scope nat_scope.

(** ** Running a script: something harmless, then the code of the file, then something harmless *)
Section around.
  Variable exec : proc -> M xres.
  Variable sha512 : bytes -> bytes.
  Variable realpath : pystr -> pystr -> pystr.
  Variable isdir : pystr -> bool.
  Variable f0 : pystr.
  Definition around (K : (pystr -> W unit) -> W unit) (c : ctl) : Prop := exists (st : result unit * ctl + ctl) (fin : result unit * ctl -> result unit * ctl),
    (forall load, K load c = match st with inl z => z | inr c1 => fin (load f0 c1) end) /\
    match st with inl z => fst z <> Ok tt /\ unaffected (sysof c) (sysof (snd z)) | inr c1 => unaffected (sysof c) (sysof c1) end /\
    forall z, unaffected (sysof (snd z)) (sysof (snd (fin z))) /\ (fst (fin z) = Ok tt -> fst z = Ok tt).
  Lemma around_bind {A} (m : W A) (K : A -> (pystr -> W unit) -> W unit) c : quiet m -> (forall x c1, m c = (Ok x, c1) -> around (K x) c1) -> around (fun load => x ← m; K x load) c.
  Proof.
    intros Hm Hk. destruct (m c) as [[x|e] c1] eqn:E; pose proof (Hm _ _ _ E) as Hu.
    - destruct (Hk x c1 eq_refl) as (st & fin & H1 & H2 & H3). exists st, fin. split; [intros load; unfold mbind, W_bind; rewrite E; apply H1|]. split; [|exact H3].
      destruct st as [z|c2]; [destruct H2 as [H2 H4]; split; [exact H2|]|]; eapply unaffected_trans; eassumption.
    - exists (inl (Err e, c1)), (fun z => z). split; [intros load; unfold mbind, W_bind; rewrite E; reflexivity|]. split; [split; [discriminate|exact Hu]|]. intros z. split; [apply unaffected_refl|auto].
  Qed.
  Definition then_do (f : W unit) (z : result unit * ctl) : result unit * ctl := match f (snd z) with (Ok _, c2) => (fst z, c2) | (Err e, c2) => (Err e, c2) end.
  Lemma then_do_fine f z : quiet f -> unaffected (sysof (snd z)) (sysof (snd (then_do f z))) /\ (fst (then_do f z) = Ok tt -> fst z = Ok tt).
  Proof. intros Hf. unfold then_do. destruct (f (snd z)) as [[[]|e] c2] eqn:E; (split; [exact (Hf _ _ _ E)|]); [auto|discriminate]. Qed.
  Lemma around_finally (K : (pystr -> W unit) -> W unit) f c : around K c -> quiet f -> around (fun load => wfinally (K load) f) c.
  Proof.
    intros (st & fin & H1 & H2 & H3) Hf.
    exists (match st with inl z => inl (then_do f z) | inr c1 => inr c1 end), (fun z => then_do f (fin z)). split; [|split].
    - intros load. unfold wfinally. rewrite H1. destruct st as [z|c1]; [destruct z; reflexivity|]. unfold then_do. destruct (fin (load f0 c1)). reflexivity.
    - destruct st as [z|c1]; [|exact H2]. destruct H2 as [H2 H4]. destruct (then_do_fine f z Hf) as [K1 K2]. split; [auto|]. eapply unaffected_trans; eassumption.
    - intros z. destruct (H3 z) as [K1 K2]. destruct (then_do_fine f (fin z) Hf) as [K3 K4]. split; [eapply unaffected_trans; eassumption|auto].
  Qed.
  Lemma around_load c : around (fun load => load f0) c.
  Proof. exists (inr c), (fun z => z). split; [reflexivity|]. split; [apply unaffected_refl|]. intros z. split; [apply unaffected_refl|auto]. Qed.
End around.

Section scripts.
  Variable exec : proc -> M xres.
  Variable sha512 : bytes -> bytes.
  Variable realpath : pystr -> pystr -> pystr.
  Variable isdir : pystr -> bool.
  Notation run_script := (run_script exec sha512 realpath isdir).
  Lemma mod_state f c x c1 : modW f c = (Ok x, c1) -> c1 = f c. Proof. intros [= _ <-]. reflexivity. Qed.
  Lemma around_script p c : around (realpath (c_cwd c) p) (fun load => run_script load p) c.
  Proof.
    unfold Control.run_script. apply around_bind; [apply quiet_mod; reflexivity|]. intros [] c1 E1. apply mod_state in E1. apply around_finally; [|apply quiet_mod; reflexivity].
    apply around_bind; [apply quiet_get|]. intros c2 c2' E2. injection E2 as <- <-. cbv zeta. apply around_bind; [apply quiet_mod; reflexivity|]. intros [] c3 E3. apply mod_state in E3.
    apply around_finally; [|apply quiet_mod; reflexivity]. apply around_bind; [apply quiet_get|]. intros c4 c4' E4. injection E4 as <- <-. cbv zeta.
    replace (c_cwd c3) with (c_cwd c) by (subst c3 c1; reflexivity).
    apply around_bind; [apply quiet_chdir|]. intros [] c5 _.
    apply (around_finally _ (fun load => _ ← modW _; with_defaults _ _ _ _ _)); [|apply quiet_bind; [apply quiet_chdir|intros; apply quiet_mod; reflexivity]].
    apply around_bind; [apply quiet_mod; reflexivity|]. intros [] c6 _. unfold with_defaults.
    apply around_bind; [apply quiet_defaults|]. intros new c7 _. apply around_bind; [apply quiet_enter|]. intros d c8 _. apply around_finally; [|apply quiet_mod; reflexivity].
    apply around_bind; [apply quiet_get|]. intros c9 c10 _. apply around_bind; [apply quiet_mod; reflexivity|]. intros [] c11 _. apply around_load.
  Qed.
  Lemma script_cwd load p c c' : run_script load p c = (Ok tt, c') -> c_cwd c' = c_cwd c.
  Proof.
    unfold Control.run_script, wfinally, mbind, W_bind, modW, getW. cbn. unfold chdir at 1. cbn. destruct (_ && _); [|discriminate].
    match goal with |- (let '(_, _) := (let '(_, _) := (let '(_, _) := ?m in _) in _) in _) = _ -> _ => destruct m as [r c1] end.
    unfold chdir. destruct (_ && _); cbn; intros [= _ <-]; reflexivity.
  Qed.
End scripts.

(** ** The command line *)
(** the steps of Prop_Tasks.v as calls of operations *)
Definition as_call (t : task) : call :=
  match t with
  | Group g gid system => Prop_Tried.Group g true gid system
  | User u uid group groups append system hash home shell comment => Prop_Tried.User u true uid group groups append system hash home shell comment
  | Packages packages present opts => Pacman packages present opts
  | Service unit state en => Unit unit state en false
  end.
(** what is expected of the programs of a host *)
Record trustworthy (exec : proc -> M xres) (has : os -> pystr -> Prop) (value : properties) (units : list pystr) : Prop := {
  trust_bounded : bounded exec; trust_accounts : shadow_utils exec; trust_asks : answers exec has pacman_ask by_code; trust_shows : shows exec value; trust_obeys : obeys exec value;
  trust_separate : separate exec has value units; trust_has : stable has; trust_value : value_stable value }.

Section settled.
  Variable exec : pystr -> proc -> M xres.
  Variable sha512 : bytes -> bytes.
  Variable search : bool -> pystr -> pystr -> result bool.
  Variable date : pystr.
  Variable set_order : list pystr -> list pystr.
  Hypothesis Horder : forall l, set_order l ≡ₚ l.
  Variable realpath : pystr -> pystr -> pystr.
  Variable isdir : pystr -> bool.
  Variable inode : pystr -> option N.
  Variable depth : nat.
  Variable digit : N -> bool.
  Variable inventory : option pystr -> result (list pystr).
  Variable base : settings.
  Variable opens : pystr -> result Client.link.
  Variable closes : pystr -> result unit.
  Variable args : opts.
  Variable has : pystr -> os -> pystr -> Prop.
  Variable value : pystr -> properties.
  Variable units : pystr -> list pystr.
  (** for every host its own script *)
  Variable tasks : pystr -> list task.
  Hypothesis Hdry : n_dry args = false.
  Notation fora code := (fora exec sha512 search date set_order realpath isdir inode code depth digit inventory base opens closes).
  Notation session code := (session exec sha512 search date set_order realpath isdir inode code depth).
  Notation run_host code := (run_host exec sha512 search date set_order realpath isdir inode code depth base opens closes).
  Notation run_hosts code := (run_hosts exec sha512 search date set_order realpath isdir inode code depth base opens closes).
  Notation play h := (play task (carry_out (exec h) sha512 set_order NotGiven) (tasks h)).
  Definition script_of (h : pystr) (k : list opres -> tale unit) : option (params -> tale unit) := Some (fun _ => Bind (in_order (as_call <$> tasks h)) k).
  Definition prepared (h : pystr) (s : os) : Prop :=
    trustworthy (exec h) (has h) (value h) (units h) /\ Forall (sound (exec h) (has h) (units h)) (tasks h) /\ ForallOrdPairs independent (tasks h) /\
    forall c, unaffected s (sysof c) -> in_turn task (carry_out (exec h) sha512 set_order NotGiven) turn (tasks h) c.
  (** The script finds nothing to do. *)
  Definition settled (h : pystr) (s : os) : Prop := forall c r c', unaffected s (sysof c) -> play h c = (r, c') ->
    unaffected (sysof c) (sysof c') /\ forall rs, r = Ok rs -> Forall (fun x => or_success x = true /\ or_changed x = false) rs.
  Lemma settled_still h s s' : unaffected s s' -> settled h s -> settled h s'.
  Proof. intros Hu H c r c' Hc. apply H. eapply unaffected_trans; eassumption. Qed.

  Lemma tell_tasks local l h c : tell (exec h) sha512 search date set_order isdir args local (in_order (as_call <$> l)) c = Spec_Script.play task (carry_out (exec h) sha512 set_order NotGiven) l c.
  Proof.
    revert c. induction l as [|t l IH]; intros c; [reflexivity|]. cbn [fmap list_fmap in_order tell Spec_Script.play].
    assert (Ht : call_op (exec h) sha512 (n_diff args) search date set_order (n_dry args) NotGiven (as_call t) = carry_out (exec h) sha512 set_order NotGiven t) by (rewrite Hdry; destruct t; reflexivity).
    rewrite Ht. unfold mbind, W_bind. destruct (carry_out _ _ _ _ t c) as [[r|e] c1]; [|reflexivity]. cbn [tell]. unfold mbind, W_bind. unfold fmap in IH. rewrite IH. reflexivity.
  Qed.
  Definition ends (x : exn + unit) (z : result (list opres) * ctl) : result unit * ctl :=
    match z with
    | (Ok rs, c) => match x with inl e => if existsb or_changed rs then (Err e, c) else (Ok tt, c) | inr _ => (Ok tt, c) end
    | (Err e, c) => (Err e, c)
    end.
  Definition ending (x : exn + unit) : list opres -> tale unit := match x with inl e => complain e | inr _ => silent end.
  Lemma load_tasks code h x f c : code f = script_of h (ending x) ->
    load_tale code (narrate (exec h) sha512 search date set_order realpath isdir inode code args depth unit) [] f c = ends x (play h c).
  Proof.
    intros Hc. unfold load_tale. rewrite Hc. unfold script_of. destruct depth as [|d]; cbn [narrate tell]; unfold mbind, W_bind; rewrite tell_tasks;
      (destruct (play h c) as [[rs|e] c1]; [|reflexivity]); destruct x as [e|[]]; cbn [ending ends]; unfold complain, silent; try reflexivity; destruct (existsb or_changed rs); reflexivity.
  Qed.

  Lemma identity_cwd h c r c' : resolve_identity (exec h) sha512 c = (r, c') -> c_cwd c' = c_cwd c.
  Proof.
    unfold resolve_identity, resolve_user, resolve_group, via, mbind, W_bind, modW. destruct (conn_resolve_user _ _ _ _) as [[u|e] v]; [|intros [= _ <-]; reflexivity].
    destruct (conn_resolve_group _ _ _ _) as [[g|e] v']; intros [= _ <-]; reflexivity.
  Qed.
  Definition loads_in (h : pystr) (p : pystr) (load : pystr -> W unit) : W unit := _ ← resolve_identity (exec h) sha512; run_script (exec h) sha512 realpath isdir load p.
  Lemma around_session h p c : around (realpath (c_cwd c) p) (loads_in h p) c.
  Proof. unfold loads_in. apply around_bind; [apply quiet_identity|]. intros [] c1 E. apply identity_cwd in E. rewrite <- E. apply around_script. Qed.
  Definition start (s : os) (l : Client.link) (c : ctl) : ctl := set_base base (set_remote (Remote s l) c).
  Lemma session_cwd h p load c c' : loads_in h p load c = (Ok tt, c') -> c_cwd c' = c_cwd c.
  Proof. intros E. apply bind_spec in E as [([] & c1 & E1 & E)|(e & _ & [=])]. apply script_cwd in E. apply identity_cwd in E1. congruence. Qed.

  (** One host, the first time. *)
  Lemma host_first code p h fl c fl' c' : code h (realpath (c_cwd c) p) = script_of h silent -> prepared h (fl h) ->
    run_host code args (Some p) h (fl, c) = (Ok tt, (fl', c')) -> tidy (fl' h) ->
    c_cwd c' = c_cwd c /\ (forall t, t ∈ tasks h -> holds (has h) (value h) t (fl' h)) /\ settled h (fl' h).
  Proof using Horder Hdry.
    intros Hcode (Htr & Hs & Hi & Hin) E. unfold Fleet.run_host in E. cbn [fst snd] in E. destruct (opens h) as [l|] eqn:Eo; [|discriminate]. fold (start (fl h) l c) in E.
    destruct (session code args (Some p) h (start (fl h) l c)) as [x c1] eqn:Es. injection E as Ex <- <-. destruct (closes h); [|discriminate]. subst x. rewrite put_same.
    change (session code args (Some p) h (start (fl h) l c)) with (loads_in h p (load_tale (code h) (narrate (exec h) sha512 search date set_order realpath isdir inode (code h) args depth unit) []) (start (fl h) l c)) in Es.
    pose proof (session_cwd _ _ _ _ _ Es) as Hcwd. destruct (around_session h p (start (fl h) l c)) as (st & fin & A1 & A2 & A3). rewrite A1 in Es.
    change (c_cwd (start (fl h) l c)) with (c_cwd c) in *. change (sysof (start (fl h) l c)) with (fl h) in *. change (r_os (c_remote c1)) with (sysof c1). intros Htidy. split; [exact Hcwd|].
    destruct st as [z|c2]; [destruct A2 as [A2 _]; subst z; destruct A2; reflexivity|].
    rewrite (load_tasks (code h) h (inr tt) _ c2 Hcode) in Es. destruct (play h c2) as [[rs|e] c3] eqn:Ep; cbn [ends] in Es.
    2:{ destruct (A3 (Err e, c3)) as [_ A4]. rewrite Es in A4. discriminate (A4 eq_refl). }
    destruct (A3 (Ok tt, c3)) as [A4 _]. rewrite Es in A4. cbn [snd] in A4. destruct Htr.
    assert (Ht3 : tidy (sysof c3)) by (eapply tidy_still; [apply unaffected_flip; exact A4|exact Htidy]).
    destruct (C90_partial (exec h) sha512 set_order Horder (has h) (value h) (units h) trust_has0 trust_value0 trust_bounded0 trust_accounts0 trust_asks0 trust_shows0 trust_obeys0 trust_separate0 NotGiven
      (tasks h) c2 rs c3 Hs Hi (Hin c2 A2) Ep Ht3) as (_ & K2 & K3).
    split; [intros t Ht; eapply holds_still; [exact trust_has0|exact trust_value0|exact A4|apply K2, Ht]|].
    intros d r d' Hd Ed. destruct (K3 d r d') as [K4 K5]; [eapply unaffected_trans; eassumption|exact Ed|]. split; [exact K4|]. intros rs2 Hrs. apply K5, Hrs.
  Qed.
  (** One host that is settled. *)
  Lemma host_settled code x p h fl c r fl' c' : code h (realpath (c_cwd c) p) = script_of h (ending x) -> settled h (fl h) ->
    run_host code args (Some p) h (fl, c) = (r, (fl', c')) -> unaffected (fl h) (fl' h) /\ (r = Ok tt -> c_cwd c' = c_cwd c).
  Proof using Hdry.
    intros Hcode Hset E. unfold Fleet.run_host in E. cbn [fst snd] in E. destruct (opens h) as [l|] eqn:Eo; [|injection E as <- <- <-; split; [apply unaffected_refl|discriminate]]. fold (start (fl h) l c) in E.
    destruct (session code args (Some p) h (start (fl h) l c)) as [y c1] eqn:Es. injection E as Ex <- <-. rewrite put_same. change (r_os (c_remote c1)) with (sysof c1).
    change (session code args (Some p) h (start (fl h) l c)) with (loads_in h p (load_tale (code h) (narrate (exec h) sha512 search date set_order realpath isdir inode (code h) args depth unit) []) (start (fl h) l c)) in Es.
    split; [|intros ->; destruct (closes h); [subst y; exact (session_cwd _ _ _ _ _ Es)|discriminate]].
    destruct (around_session h p (start (fl h) l c)) as (st & fin & A1 & A2 & A3). rewrite A1 in Es.
    change (c_cwd (start (fl h) l c)) with (c_cwd c) in *. change (sysof (start (fl h) l c)) with (fl h) in *.
    destruct st as [z|c2]; [destruct A2 as [_ A2]; subst z; exact A2|]. rewrite (load_tasks (code h) h x _ c2 Hcode) in Es.
    destruct (play h c2) as [q c3] eqn:Ep. destruct (Hset c2 q c3 A2 Ep) as [K1 _]. set (z := ends x (q, c3)) in *.
    assert (Hz : snd z = c3) by (unfold z, ends; destruct q; [destruct x; [destruct (existsb _ _)|]|]; reflexivity).
    destruct (A3 z) as [A4 _]. rewrite Es, Hz in A4. cbn [snd] in A4. eapply unaffected_trans; [exact A2|]. eapply unaffected_trans; eassumption.
  Qed.
  Lemma host_same code code2 x y p h fl c : code h (realpath (c_cwd c) p) = script_of h (ending x) -> code2 h (realpath (c_cwd c) p) = script_of h (ending y) -> settled h (fl h) ->
    run_host code args (Some p) h (fl, c) = run_host code2 args (Some p) h (fl, c).
  Proof using Hdry.
    intros H1 H2 Hset. unfold Fleet.run_host. cbn [fst snd]. destruct (opens h) as [l|] eqn:Eo; [|reflexivity]. fold (start (fl h) l c).
    set (ld := fun cd : pystr -> pystr -> option (params -> tale unit) => load_tale (cd h) (narrate (exec h) sha512 search date set_order realpath isdir inode (cd h) args depth unit) []).
    assert (Hse : forall cd, session cd args (Some p) h (start (fl h) l c) = loads_in h p (ld cd) (start (fl h) l c)) by reflexivity. rewrite !Hse.
    assert (loads_in h p (ld code) (start (fl h) l c) = loads_in h p (ld code2) (start (fl h) l c)) as ->; [|reflexivity].
    destruct (around_session h p (start (fl h) l c)) as (st & fin & A1 & A2 & _). rewrite !A1. change (c_cwd (start (fl h) l c)) with (c_cwd c) in *. change (sysof (start (fl h) l c)) with (fl h) in *.
    destruct st as [z|c2]; [reflexivity|]. f_equal. unfold ld. rewrite (load_tasks (code h) h x _ c2 H1), (load_tasks (code2 h) h y _ c2 H2).
    destruct (play h c2) as [[rs|e] c3] eqn:Ep; [|reflexivity]. destruct (Hset c2 _ c3 A2 Ep) as [_ K]. specialize (K rs eq_refl). cbn [ends].
    assert (Hn : existsb or_changed rs = false) by (clear Ep; induction K as [|q rs [_ Hq] _ IH]; [reflexivity|]; cbn; rewrite Hq; exact IH). rewrite Hn. destruct x, y; reflexivity.
  Qed.

  Lemma hosts_first code p c0 : forall sel, NoDup sel -> (forall h, h ∈ sel -> code h (realpath (c_cwd c0) p) = script_of h silent) ->
    forall fl c fl' c', c_cwd c = c_cwd c0 -> (forall h, h ∈ sel -> prepared h (fl h)) -> run_hosts code args (Some p) sel (fl, c) = (Ok tt, (fl', c')) -> (forall h, h ∈ sel -> tidy (fl' h)) ->
    forall h, h ∈ sel -> (forall t, t ∈ tasks h -> holds (has h) (value h) t (fl' h)) /\ settled h (fl' h).
  Proof using Horder Hdry.
    intros sel. induction sel as [|h sel IH]; intros Hnd Hcode fl c fl' c' W Hp E Ht x Hx; [inversion Hx|].
    apply NoDup_cons in Hnd as [Hh Hnd]. cbn [Fleet.run_hosts] in E.
    destruct (Fleet.run_host _ _ _ _ _ _ _ _ _ _ _ _ _ _ _ _ (fl, c)) as [[[]|ex] [fl1 c1]] eqn:E1; [|discriminate].
    assert (Hkeep : fl' h = fl1 h).
    { destruct (run_hosts_spec _ _ _ _ _ _ _ _ _ _ _ _ _ _ _ _ _ _ _ _ _ Hnd E) as (done & r & Hs & D1 & _). apply D1. intros Hd. apply Hh. rewrite Hs. apply elem_of_app. auto. }
    assert (Hother : forall x, x <> h -> fl1 x = fl x) by (apply run_host_spec in E1 as [O1 _]; exact O1).
    pose proof (Hcode h (elem_of_list_here _ _)) as Hc. rewrite <- W in Hc.
    pose proof (Ht h (elem_of_list_here _ _)) as Ht1. rewrite Hkeep in Ht1.
    destruct (host_first code p h fl c fl1 c1 Hc (Hp h (elem_of_list_here _ _)) E1 Ht1) as (K1 & K2 & K3).
    apply elem_of_cons in Hx as [-> |Hx]; [rewrite Hkeep; auto|].
    apply (IH Hnd (fun x Hx => Hcode x (elem_of_list_further _ _ _ Hx)) fl1 c1 fl' c'); [congruence| |exact E|intros y Hy; apply Ht; right; exact Hy|exact Hx].
    intros y Hy. rewrite Hother; [apply Hp; right; exact Hy|]. intros ->. contradiction.
  Qed.
  Lemma hosts_settled code code2 x y p c0 : forall sel, NoDup sel ->
    (forall h, h ∈ sel -> code h (realpath (c_cwd c0) p) = script_of h (ending x) /\ code2 h (realpath (c_cwd c0) p) = script_of h (ending y)) ->
    forall fl c r fl' c', c_cwd c = c_cwd c0 -> (forall h, h ∈ sel -> settled h (fl h)) -> run_hosts code args (Some p) sel (fl, c) = (r, (fl', c')) ->
    (forall h, unaffected (fl h) (fl' h)) /\ run_hosts code2 args (Some p) sel (fl, c) = (r, (fl', c')).
  Proof using Hdry.
    intros sel. induction sel as [|h sel IH]; intros Hnd Hcode fl c r fl' c' W Hset E.
    - cbn [Fleet.run_hosts] in E |- *. injection E as <- <- <-. split; [intros; apply unaffected_refl|reflexivity].
    - apply NoDup_cons in Hnd as [Hh Hnd]. cbn [Fleet.run_hosts] in E |- *. destruct (Hcode h (elem_of_list_here _ _)) as [H1 H2]. rewrite <- W in H1, H2.
      rewrite <- (host_same code code2 x y p h fl c H1 H2 (Hset h (elem_of_list_here _ _))).
      destruct (Fleet.run_host _ _ _ _ _ _ _ _ _ _ _ _ _ _ _ _ (fl, c)) as [q [fl1 c1]] eqn:E1.
      destruct (host_settled code x p h fl c q fl1 c1 H1 (Hset h (elem_of_list_here _ _)) E1) as [K1 K2].
      assert (Hother : forall x, x <> h -> fl1 x = fl x) by (apply run_host_spec in E1 as [O1 _]; exact O1).
      assert (Hall : forall z, unaffected (fl z) (fl1 z)) by (intros z; destruct (decide (z = h)) as [-> |Hz]; [exact K1|rewrite (Hother z Hz); apply unaffected_refl]).
      destruct q as [[]|e]; [|injection E as <- <- <-; split; [exact Hall|reflexivity]].
      destruct (IH Hnd (fun x Hx => Hcode x (elem_of_list_further _ _ _ Hx)) fl1 c1 r fl' c') as [T1 T2]; [rewrite K2 by reflexivity; exact W| |exact E|].
      + intros z Hz. eapply settled_still; [apply Hall|apply Hset; right; exact Hz].
      + split; [|exact T2]. intros z. eapply unaffected_trans; [apply Hall|apply T1].
  Qed.

  (** Full statement: for all scripts of such steps whose requests do not contradict one another (false, see below); and the second run is carried out as well (which
      depends on the connection and on programs that find what there is).
      If a command line has been carried out, everything the script of a host asks for holds there.  If it is given again, in a process that starts in the same
      directory, then, however that ends, nothing is changed on any host; and no operation reports a change: a script that ends with an exception in this case
      does exactly the same. *)
  Theorem C98_partial code code2 e argv p fl c fl' c' : parse_args digit argv = Runs args -> n_words args !! 1 = Some (Some p) ->
    (forall h, asked_for inventory args h -> prepared h (fl h) /\ code h (realpath (c_cwd c) p) = script_of h silent /\ code2 h (realpath (c_cwd c) p) = script_of h (complain e)) ->
    fora code argv (fl, c) = (Ok tt, (fl', c')) -> (forall h, asked_for inventory args h -> tidy (fl' h)) ->
    (forall h t, asked_for inventory args h -> t ∈ tasks h -> holds (has h) (value h) t (fl' h)) /\
    forall fl1 c1 r fl2 c2, (forall h, unaffected (fl' h) (fl1 h)) -> c_cwd c1 = c_cwd c -> fora code argv (fl1, c1) = (r, (fl2, c2)) ->
      (forall h, unaffected (fl1 h) (fl2 h)) /\ fora code2 argv (fl1, c1) = (r, (fl2, c2)).
  Proof using Horder Hdry.
    intros Hparse Hp Hall E Htidy. unfold Fleet.fora in E |- *. rewrite Hparse in E |- *. unfold Fleet.main_run in E |- *. rewrite Hp in E |- *. cbn [default] in E |- *.
    destruct (inventory _) as [loaded|ex] eqn:Ei; [|destruct ex; discriminate].
    pose proof (Prop_Main.select_spec loaded (match n_hosts args with Some s => split_char 44 s | None => loaded end) [] [] Prop_Main.once_nil) as H. destruct (Main.select _ _ _) as [sel|ex] eqn:Es; [|discriminate].
    destruct H as ((N1 & N2 & _) & _).
    assert (Hsel : forall h, h ∈ sel <-> asked_for inventory args h).
    { intros h. rewrite N2. split.
      - intros Hh. exists loaded, (match n_hosts args with Some s => split_char 44 s | None => loaded end). split; [exact Ei|]. split; [apply Prop_Main.asked_iff|]. exact Hh.
      - intros (loaded' & names & K1 & K2 & K3). rewrite Ei in K1. injection K1 as <-. unfold Prop_Main.asked in K2. destruct (n_hosts args) as [s|]; [|subst names; exact K3].
        destruct K2 as (Q1 & -> & Q2). rewrite Prop_Status.split_of_join by assumption. exact K3. }
    pose proof (hosts_first code p c sel N1 (fun h Hh => proj1 (proj2 (Hall h (proj1 (Hsel h) Hh)))) fl c fl' c' eq_refl (fun h Hh => proj1 (Hall h (proj1 (Hsel h) Hh))) E (fun h Hh => Htidy h (proj1 (Hsel h) Hh))) as HF.
    split; [intros h t Hh; apply HF; apply Hsel, Hh|]. intros fl1 c1 r fl2 c2 Hu Hcwd E2.
    apply (hosts_settled code code2 (inr tt) (inl e) p c sel N1) with (fl := fl1) (c := c1) in E2; [exact E2| |exact Hcwd|].
    - intros h Hh. destruct (Hall h (proj1 (Hsel h) Hh)) as (_ & K1 & K2). auto.
    - intros h Hh. eapply settled_still; [apply Hu|]. apply HF, Hh.
  Qed.
End settled.
Print Assumptions C98_partial.

(** ** A case: two hosts of the kind of C90, with different scripts *)
Definition same_db (s s' : os) : Prop := o_passwd s' = o_passwd s /\ o_group s' = o_group s /\ o_shadow s' = o_shadow s.
Lemma same_db_trans s1 s2 s3 : same_db s1 s2 -> same_db s2 s3 -> same_db s1 s3.
Proof. intros (A1 & A2 & A3) (B1 & B2 & B3). split_and!; congruence. Qed.
Lemma same_db_still s s' : unaffected s s' -> same_db s s'.
Proof. intros ->. split_and!; reflexivity. Qed.
Lemma same_db_turn t s s' : same_db s s' -> turn_check t s = true -> turn_check t s' = true.
Proof.
  intros (A1 & A2 & A3). unfold turn_check, tidyb, plain_check, gids, entry, secret. rewrite A1, A2, A3. exact (fun H => H).
Qed.
Lemma checked_turn t s : turn_check t s = true -> turn t s.
Proof. unfold turn_check. rewrite andb_true_iff. intros [H1 H2]. split; [apply tidy_checked, H1|]. destruct t; try exact I. apply plain_checked, H2. Qed.
Lemma machine_db q s x s' h : head (p_argv q) = Some h -> h = lit "pacman" \/ h = lit "systemctl" -> machine q s = (x, s') -> same_db s s'.
Proof.
  intros Hh Hp E. assert (H0 : forall e, same_db s (set_env e s)) by (intros e; split_and!; reflexivity). assert (H1 : same_db s s) by (split_and!; reflexivity).
  destruct (p_argv q) as [|h' r] eqn:Eq; [discriminate|]. injection Hh as ->. destruct Hp as [-> | ->].
  - rewrite (machine_store q s r Eq) in E. unfold store in E. clear Eq. repeat case_match; injection E as _ <-; auto.
  - rewrite (machine_systemd q s r Eq) in E. unfold systemd in E. clear Eq. repeat case_match; injection E as _ <-; auto; match goal with H : act_unit _ _ _ _ = Some _ |- _ => apply act_env in H as (? & ? & _ & ->); apply H0 end.
Qed.
Notation act := (carry_out machine fake_hash (fun l => l) NotGiven).
Lemma pacman_db packages present c x c' : act (Packages packages present None) c = (Ok x, c') -> same_db (sysof c) (sysof c').
Proof.
  intros E. destruct (C57_pacman machine fake_hash (fun l => l) (fun l => reflexivity l) stocked stocked_stable machine_bounded packages present None _ _ _ _ machine_asks machine_installs machine_removes E) as (_ & l & H2 & ask & acts & L1 & _).
  refine (history_rel machine same_db same_db_still same_db_trans _ l _ H2 _). intros q s y s' Hq Hx. eapply machine_db; [|left; reflexivity|exact Hx].
  rewrite L1 in Hq. apply elem_of_app in Hq as [Hq|Hq]; apply elem_of_list_fmap in Hq as (p & -> & _); [reflexivity|destruct present; reflexivity].
Qed.
Lemma unit_db unit e c x c' : act (Service unit (Some (lit "started")) (Some e)) c = (Ok x, c') -> same_db (sysof c) (sysof c').
Proof.
  intros E. assert (Hv : forall t, Some (lit "started") = Some t -> exists v, verb_of t v) by (intros t [= <-]; eexists; unfold verb_of; rewrite !elem_of_cons; left; reflexivity).
  destruct (C59_partial machine fake_hash kept machine_bounded _ _ _ _ _ _ _ machine_shows systemd_stable Hv E) as (_ & l & l1 & l2 & H2 & A1 & A2 & _ & F). destruct (F x eq_refl) as (_ & F2 & _ & _).
  refine (history_rel machine same_db same_db_still same_db_trans _ l _ H2 _). intros q s y s' Hq Hx. eapply machine_db; [|right; reflexivity|exact Hx].
  rewrite F2 in Hq. rewrite !elem_of_app, !elem_of_cons in Hq. destruct Hq as [[Hq|[Hq|Hq]]|[Hq|Hq]]; [rewrite Hq; reflexivity|rewrite Hq; reflexivity|inversion Hq| |].
  - destruct A1 as [[_ ->]|[_ (v & _ & ->)]]; [inversion Hq|]. apply elem_of_list_singleton in Hq. rewrite Hq. reflexivity.
  - destruct A2 as [[_ ->]|[_ ->]]; [inversion Hq|]. apply elem_of_list_singleton in Hq. rewrite Hq. reflexivity.
Qed.
(** host a: packages, a unit, a new group; host b: packages and a new account *)
Definition staff_tasks (h : pystr) : list task :=
  if str_eqb h h_a then [Packages [vim; git] true None; Service sshd (Some (lit "started")) (Some true); Group devs (Some 2000%Z) false]
  else [Packages [vim] true None; User carol None None (Some [wheel; audio]) false true None (Some (lit "/home/carol")) None (Some (lit "Carol"))].
Lemma staff_prepared h : prepared (fun _ => machine) fake_hash (fun l => l) (fun _ => stocked) (fun _ => kept) (fun _ => [sshd]) staff_tasks h (office_db site).
Proof.
  split.
  { constructor; [apply machine_bounded|apply machine_accounts|apply machine_asks|apply machine_shows|apply machine_obeys|apply machine_separate|apply stocked_stable|apply systemd_stable]. }
  assert (Hn : forall ps, bool_decide (NoDup ps) = true -> sound machine stocked [sshd] (Packages ps true None)).
  { intros ps Hd. split; [right; eapply bool_decide_eq_true, Hd|]. split; [apply machine_installs|apply machine_removes]. }
  unfold staff_tasks. destruct (str_eqb h h_a); (split; [|split]).
  - constructor; [apply Hn; vm_compute; reflexivity|]. constructor; [split; [left|]; split; [left; reflexivity|discriminate]|]. constructor; [split; [split; [text|dec]|vm_compute; reflexivity]|constructor].
  - constructor; [constructor; [exact I|constructor; [exact I|constructor]]|]. constructor; [constructor; [exact I|constructor]|]. constructor; [constructor|constructor].
  - intros c Hc. apply same_db_still in Hc. split; [apply checked_turn; eapply same_db_turn; [exact Hc|vm_compute; reflexivity]|].
    intros x c1 E1. apply pacman_db in E1. pose proof (same_db_trans _ _ _ Hc E1) as Hc1. split; [apply checked_turn; eapply same_db_turn; [exact Hc1|vm_compute; reflexivity]|].
    intros y c2 E2. apply unit_db in E2. pose proof (same_db_trans _ _ _ Hc1 E2) as Hc2. split; [apply checked_turn; eapply same_db_turn; [exact Hc2|vm_compute; reflexivity]|]. intros; exact I.
  - constructor; [apply Hn; vm_compute; reflexivity|]. constructor; [|constructor].
    split; [split; [apply carol_string|vm_compute; reflexivity]|]. intros l [[= <-] _]. eapply bool_decide_eq_true; vm_compute; reflexivity.
  - constructor; [constructor; [exact I|constructor]|]. constructor; [constructor|constructor].
  - intros c Hc. apply same_db_still in Hc. split; [apply checked_turn; eapply same_db_turn; [exact Hc|vm_compute; reflexivity]|].
    intros x c1 E1. apply pacman_db in E1. pose proof (same_db_trans _ _ _ Hc E1) as Hc1. split; [apply checked_turn; eapply same_db_turn; [exact Hc1|vm_compute; reflexivity]|]. intros; exact I.
Qed.
Definition staff_codes (tasks : pystr -> list task) (k : list opres -> tale unit) (h f : pystr) : option (params -> tale unit) := if str_eqb f (lit "/d/deploy.py") then script_of tasks h k else None.
Definition staff_run (code : pystr -> pystr -> option (params -> tale unit)) (fl : fleet) : result unit * (fleet * ctl) :=
  fora (fun _ => machine) fake_hash Prop_Line.literally Prop_Line.today (fun l => l) two_path (fun _ => true) (fun _ => None) code 5 (fun _ => false) two_inventory ex_base (fun _ => Ok Up) (fun _ => Ok tt) two_argv (fl, started).
Definition staff_first := staff_run (staff_codes staff_tasks silent) (fun _ => office_db site).
Definition staffed (h : pystr) : os := fst (snd staff_first) h.
Example C98_case :
  parse_args (fun _ => false) two_argv = Runs two_args /\ n_dry two_args = false /\ n_words two_args !! 1 = Some (Some (lit "deploy.py")) /\
  (forall h, prepared (fun _ => machine) fake_hash (fun l => l) (fun _ => stocked) (fun _ => kept) (fun _ => [sshd]) staff_tasks h (office_db site) /\
    staff_codes staff_tasks silent h (two_path (c_cwd started) (lit "deploy.py")) = script_of staff_tasks h silent /\
    staff_codes staff_tasks (complain complaint) h (two_path (c_cwd started) (lit "deploy.py")) = script_of staff_tasks h (complain complaint)) /\
  asked_for two_inventory two_args h_a /\ asked_for two_inventory two_args h_b /\ fst staff_first = Ok tt /\ tidy (staffed h_a) /\ tidy (staffed h_b) /\
  gid_of (staffed h_a) devs = Some 2000%N /\ gid_of (staffed h_b) devs = None /\ groups_of (staffed h_b) carol = [wheel; audio] /\ stocked (staffed h_a) git /\ running kept (staffed h_a) false sshd /\
  fst (staff_run (staff_codes staff_tasks (complain complaint)) (fun _ => office_db site)) = Err complaint /\ fst (staff_run (staff_codes staff_tasks (complain complaint)) (fst (snd staff_first))) = Ok tt.
Proof.
  split; [vm_compute; reflexivity|]. split; [reflexivity|]. split; [reflexivity|]. split; [intros h; split; [apply staff_prepared|split; reflexivity]|].
  split; [exists [h_a; h_b], [h_a; h_b]; split; [reflexivity|]; split; [reflexivity|left]|]. split; [exists [h_a; h_b], [h_a; h_b]; split; [reflexivity|]; split; [reflexivity|right; left]|].
  split; [vm_compute; reflexivity|]. split; [apply tidy_checked; vm_compute; reflexivity|]. split; [apply tidy_checked; vm_compute; reflexivity|].
  split; [vm_compute; reflexivity|]. split; [vm_compute; reflexivity|]. split; [vm_compute; reflexivity|]. split; [vm_compute; reflexivity|]. split; [left; vm_compute; reflexivity|].
  split; vm_compute; reflexivity.
Qed.

(** Full statement (false): the same for all such scripts whose requests do not contradict one another.  A unit is only to be started: every run reports a change. *)
Definition lazy_tasks (h : pystr) : list task := [Packages [vim] true None; Service sshd (Some (lit "started")) None].
Theorem C98_refuted : exists has value tasks e fl fl' c', trustworthy machine has value [sshd] /\ (forall h, ForallOrdPairs independent (tasks h)) /\
  staff_run (staff_codes tasks silent) fl = (Ok tt, (fl', c')) /\ (forall h, h = h_a \/ h = h_b -> tidy (fl' h) /\ forall t, t ∈ tasks h -> holds has value t (fl' h)) /\
  fst (staff_run (staff_codes tasks (complain e)) fl') = Err e.
Proof.
  set (x := staff_run (staff_codes lazy_tasks silent) (fun _ => office_db site)). exists stocked, kept, lazy_tasks, complaint, (fun _ => office_db site), (fst (snd x)), (snd (snd x)).
  split; [apply (staff_prepared h_a)|]. split; [intros h; constructor; [constructor; [exact I|constructor]|constructor; [constructor|constructor]]|]. split.
  { assert (H : fst x = Ok tt) by (vm_compute; reflexivity). fold x. destruct x as [r [f c]]. cbn in *. subst. reflexivity. }
  split; [|vm_compute; reflexivity]. intros h Hh.
  assert (Ht : tidyb (fst (snd x) h) = true) by (destruct Hh as [-> | ->]; vm_compute; reflexivity). split; [apply tidy_checked, Ht|].
  intros t Hi. apply elem_of_cons in Hi as [-> |Hi]; [|apply elem_of_list_singleton in Hi as ->]; cbn [holds].
  - intros p Hp. apply elem_of_list_singleton in Hp as ->. destruct Hh as [-> | ->]; vm_compute; reflexivity.
  - split; [|intros e [=]]. intros t [= <-]. left. split; [reflexivity|]. left. destruct Hh as [-> | ->]; vm_compute; reflexivity.
Qed.
Print Assumptions C98_refuted.
