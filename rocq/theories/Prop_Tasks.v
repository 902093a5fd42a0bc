(** C90: a deploy script that sets up groups, accounts, packages and units, run again, changes nothing. *)
From Coq Require Import Lia ZifyBool ZifyN ZifyNat.
From stdpp Require Import gmap.
From Verif Require Import Base Utf8 Dict_proofs Codec Spec_Codec Paths Sys Spec_Sys Sys_proofs Dispatcher Client Spec_Session Spec_Remote Remote_run Digits Control Spec_Control Control_proofs
  Walk_proofs Quiet Prop_Control Op Op_proofs Files Files_plain Spec_Files Shell_proofs Steps Dir_proofs Remote_examples Files_examples Prop_Files System Spec_Commands Commands_proofs Package_proofs Prop_Package
  Spec_Account Query_proofs Account_proofs Account_run Shadow Prop_Account Spec_Service Prop_Service Spec_Footprint Footprint_proofs Prop_Footprint Spec_Script Spec_Tasks.
Local Open Scope nat_scope.

(** ** Steps: system.group, system.user (present), pacman.package, and systemd.service with a state and an enablement *)
Inductive task : Type :=
  | Group (g : pystr) (gid : option Z) (system : bool)
  | User (u : pystr) (uid : option Z) (group : option pystr) (groups : option (list pystr)) (append system : bool) (hash home shell comment : option pystr)
  | Packages (packages : list pystr) (present : bool) (opts : option (list pystr))
  | Service (unit : pystr) (state : option pystr) (en : option bool).

Section tasks.
  Variable exec : proc -> M xres.
  Variable sha512 : bytes -> bytes.
  Variable set_order : list pystr -> list pystr.
  Variable a : check_arg.
  Definition carry_out (t : task) : W opres :=
    operation a match t with
    | Group g gid system => System.group exec sha512 false g true gid system
    | User u uid group groups append system hash home shell comment => user exec sha512 false u true uid group groups append system hash home shell comment
    | Packages packages present opts => pacman_package exec sha512 false set_order packages present opts
    | Service unit state en => service exec sha512 false unit state en false
    end.
End tasks.

(** ** Programs that may be run *)
Section trim.
  Variable exec : proc -> M xres.
  Variable heads : list pystr.
  Definition trim (p : proc) : M xres := fun s =>
    match head (p_argv p) with Some h => if bool_decide (h ∈ heads) then exec p s else (Ok (XFail (oserr ENOENT)), s) | None => (Ok (XFail (oserr ENOENT)), s) end.
  Lemma trim_cases p s x s' : trim p s = (x, s') -> (exists h, head (p_argv p) = Some h /\ h ∈ heads /\ exec p s = (x, s')) \/ (x = Ok (XFail (oserr ENOENT)) /\ s' = s).
  Proof.
    unfold trim. destruct (head (p_argv p)) as [h|]; [|intros [= <- <-]; auto]. destruct (bool_decide (h ∈ heads)) eqn:E; [|intros [= <- <-]; auto].
    apply bool_decide_eq_true in E. intros H. left. eauto.
  Qed.
  Lemma trim_same p s h : head (p_argv p) = Some h -> h ∈ heads -> exec p s = trim p s.
  Proof. intros H1 H2. unfold trim. rewrite H1. rewrite bool_decide_eq_true_2 by exact H2. reflexivity. Qed.
  Lemma trim_bounded : bounded exec -> bounded trim.
  Proof. intros Hb p s rc out err s' H. apply trim_cases in H as [(h & _ & _ & H)|[[=] _]]. eapply Hb, H. Qed.
  Lemma trim_promised cmd (keep : pystr -> os -> os -> Prop) done : (forall n s, keep n s s) -> promised exec cmd keep done -> promised trim cmd keep done.
  Proof.
    intros Hk Hp q s x s' args opts name E1 E2 H. apply trim_cases in H as [(h & _ & _ & H)|[-> ->]]; [eapply Hp; eassumption|].
    split; [apply Hk|]. split; [reflexivity|]. intros out err [=].
  Qed.
  Lemma trim_shadow : shadow_utils exec -> shadow_utils trim.
  Proof. intros []. constructor; apply trim_promised; first [assumption|exact others_self|exact other_groups_self]. Qed.
End trim.
Lemma history_rel exec (R : os -> os -> Prop) : (forall s s', unaffected s s' -> R s s') -> (forall s1 s2 s3, R s1 s2 -> R s2 s3 -> R s1 s3) ->
  forall s l s', history exec s l s' -> (forall q s x s', p_argv q ∈ l -> exec q s = (x, s') -> R s s') -> R s s'.
Proof.
  intros Hu Ht s l s' H. induction H as [s s' H|s s1 p x s2 l s' H1 H2 _ IH]; intros Hl; [auto|].
  eapply Ht; [apply Hu, H1|]. eapply Ht; [eapply Hl; [left|exact H2]|]. apply IH. intros q t y t' Hq. apply Hl. right. exact Hq.
Qed.

Lemma unaffected_flip s s' : unaffected s s' -> unaffected s' s.
Proof. intros ->. unfold unaffected. destruct s; reflexivity. Qed.

Section frames.
  Variable has : os -> pystr -> Prop.
  Variable value : properties.
  Variable units : list pystr.
  Hypothesis Hstable : stable has.
  Hypothesis Hvalue : value_stable value.
  Lemma accounts_still s s' : unaffected s s' -> keeps_accounts s s'.
  Proof. intros ->. split; [|auto]. intros u b H. split; [exact H|]. split; [reflexivity|]. intros g. reflexivity. Qed.
  Lemma accounts_trans s1 s2 s3 : keeps_accounts s1 s2 -> keeps_accounts s2 s3 -> keeps_accounts s1 s3.
  Proof.
    intros [A1 A2] [B1 B2]. split; [|auto]. intros u b H. destruct (A1 u b H) as (H1 & H2 & H3). destruct (B1 u b H1) as (K1 & K2 & K3).
    split; [exact K1|]. split; [congruence|]. intros g. rewrite K3. apply H3.
  Qed.
  Lemma packages_still s s' : unaffected s s' -> keeps_packages has s s'.
  Proof. intros H p. split; apply Hstable; [apply unaffected_flip|]; exact H. Qed.
  Lemma packages_trans s1 s2 s3 : keeps_packages has s1 s2 -> keeps_packages has s2 s3 -> keeps_packages has s1 s3.
  Proof. intros H1 H2 p. rewrite (H2 p). apply H1. Qed.
  Lemma unit_still u s s' : unaffected s s' -> keeps_unit value u s s'.
  Proof. intros H. unfold keeps_unit, running, enabled. rewrite !(Hvalue _ _ _ _ _ H). tauto. Qed.
  Lemma unit_trans u s1 s2 s3 : keeps_unit value u s1 s2 -> keeps_unit value u s2 s3 -> keeps_unit value u s1 s3.
  Proof. intros [A1 A2] [B1 B2]. split; etransitivity; eassumption. Qed.
End frames.

Lemma gid_of_tidy s g n : tidy s -> (g, n) ∈ gids s -> gid_of s g = Some n.
Proof.
  intros [H _] Hn. unfold gid_of. destruct (List.find (fun e => bool_decide (e.1 = g)) (gids s)) as [[g' m]|] eqn:E.
  - apply find_some_in in E as [E1 E2]. cbn in E2. apply bool_decide_eq_true in E2 as ->. cbn. f_equal.
    revert H Hn E1. generalize (gids s). induction l as [|[x y] l IH]; intros Hd H1 H2; [inversion H1|]. cbn in Hd. apply NoDup_cons in Hd as [Hd1 Hd2].
    assert (Hin : forall k, (x, k) ∈ l -> False) by (intros k Hk; apply Hd1; apply elem_of_list_fmap; exists (x, k); auto).
    apply elem_of_cons in H1 as [H1|H1]; apply elem_of_cons in H2 as [H2|H2].
    + congruence.
    + injection H1 as -> ->. destruct (Hin _ H2).
    + injection H2 as -> ->. destruct (Hin _ H1).
    + exact (IH Hd2 H1 H2).
  - exfalso. apply elem_of_list_In in Hn. eapply List.find_none in E; [|exact Hn]. cbn in E. rewrite bool_decide_eq_true_2 in E by reflexivity. discriminate.
Qed.
Lemma tidy_numbers s g g' n : tidy s -> (g, n) ∈ gids s -> (g', n) ∈ gids s -> g' = g.
Proof.
  intros [_ H]. revert H. generalize (gids s). induction l as [|[x y] l IH]; intros Hd H1 H2; [inversion H1|]. cbn in Hd. apply NoDup_cons in Hd as [Hd1 Hd2].
  assert (Hin : forall k, (k, y) ∈ l -> False) by (intros k Hk; apply Hd1; apply elem_of_list_fmap; exists (k, y); auto).
  apply elem_of_cons in H1 as [H1|H1]; apply elem_of_cons in H2 as [H2|H2].
  - congruence.
  - injection H1 as -> ->. destruct (Hin _ H2).
  - injection H2 as -> ->. destruct (Hin _ H1).
  - exact (IH Hd2 H1 H2).
Qed.

(** ** The request for an account, as a state *)
Lemma granted_steady {A} o (d d' : A -> Prop) (P P' : pystr -> A -> Prop) x : (forall v, P v x -> P' v x) -> d' x -> granted o d P x -> granted o d' P' x.
Proof. intros HP Hd [H1 H2]. split; [intros v Hv; apply HP, H1, Hv|intros _; exact Hd]. Qed.
Lemma user_steady u uid group groups append hash home shell comment s0 s :
  user_granted u uid group groups append hash home shell comment s0 s -> user_granted u uid group groups append hash home shell comment s s.
Proof.
  intros (_ & _ & b & Hc & [U1 _] & G & C & D & S & P & M). pose proof Hc as (He & (h & Hh) & _). split; [apply others_self|]. split; [auto|]. exists b. split; [exact Hc|].
  split; [split; [exact U1|intros _ a Ha; congruence]|]. rewrite He. cbn [fmap option_fmap option_map default].
  split; [revert G; apply granted_steady; auto|]. split; [revert C; apply granted_steady; auto|]. split; [revert D; apply granted_steady; auto|].
  split; [revert S; apply granted_steady; auto|]. split; [revert P; apply granted_steady; auto|].
  intros g. split.
  - intros Hm. pose proof (proj1 (M g) Hm) as [K|[K _]]; [left; exact K|right; auto].
  - intros [K|[_ K]]; [apply M; left; exact K|exact K].
Qed.
Lemma user_moves u uid group groups append hash home shell comment s s' :
  entry s' u = entry s u -> secret s' u = secret s u -> (forall g, member s' g u <-> member s g u) -> (forall x, x ∈ gids s -> x ∈ gids s') ->
  user_granted u uid group groups append hash home shell comment s s -> user_granted u uid group groups append hash home shell comment s' s'.
Proof.
  intros E1 E2 E3 E4 (_ & _ & b & (He & (h & Hh) & g0 & Hg0) & U & G & C & D & S & P & M). split; [apply others_self|]. split; [auto|]. exists b.
  rewrite He in *. split; [split; [congruence|]; split; [exists h; congruence|exists g0; auto]|]. rewrite E1, E2. cbn [fmap option_fmap option_map default] in *.
  split; [exact U|]. split; [revert G; apply granted_steady; auto|]. do 3 (split; [assumption|]). split; [exact P|].
  intros g. rewrite E3. apply M.
Qed.

(** ** Scripts *)
Section script.
  Variable exec : proc -> M xres.
  Variable sha512 : bytes -> bytes.
  Variable set_order : list pystr -> list pystr.
  Hypothesis Horder : forall l, set_order l ≡ₚ l.
  Variable has : os -> pystr -> Prop.
  Variable value : properties.
  Variable units : list pystr.
  Hypothesis Hstable : stable has.
  Hypothesis Hvalue : value_stable value.
  Hypothesis Hb : bounded exec.
  Hypothesis Hsu : shadow_utils exec.
  Hypothesis Hask : answers exec has pacman_ask by_code.
  Hypothesis Hshow : shows exec value.
  Hypothesis Hobey : obeys exec value.
  Hypothesis Hsep : separate exec has value units.
  Variable a : check_arg.
  Notation carry_out := (carry_out exec sha512 set_order a).

  (** What a step asks for. *)
  Definition holds (t : task) (s : os) : Prop :=
    match t with
    | Group g gid _ => exists n, (g, n) ∈ gids s /\ forall z, asks_int gid z -> Z.of_N n = z
    | User u uid group groups append _ hash home shell comment => user_granted u uid group groups append hash home shell comment s s
    | Packages packages present _ => forall p, p ∈ packages -> if present then has s p else ~ has s p
    | Service unit state en => (forall t, state = Some t -> state_given value s false unit t) /\ (forall e, en = Some e -> enabled_given value s false unit e)
    end.
  Definition sound (t : task) : Prop :=
    match t with
    | Group g _ _ => c_string g /\ py_int 10 g = None
    | User u _ _ groups _ _ _ _ _ _ => (c_string u /\ py_int 10 u = None) /\ forall l, asks_list groups l -> NoDup l
    | Packages packages present opts => (present = false \/ NoDup packages) /\ installs exec has (pacman_sync (opt_list opts)) /\ removes exec has (pacman_erase (opt_list opts))
    | Service unit state en => unit ∈ units /\ (state = Some (lit "started") \/ state = Some (lit "stopped")) /\ en <> None
    end.
  Definition turn (t : task) (s : os) : Prop :=
    tidy s /\ match t with User u _ group groups _ _ _ _ _ _ => plain_request s u group groups | _ => True end.
  (** [independent t t']: [t] may come before [t'].  Groups come before accounts; packages are only installed, or only removed. *)
  Definition independent (t t' : task) : Prop :=
    match t, t' with
    | Group g _ _, Group g' _ _ => g <> g'
    | User u _ _ _ _ _ _ _ _ _, User u' _ _ _ _ _ _ _ _ _ => u <> u'
    | User _ _ _ _ _ _ _ _ _ _, Group _ _ _ => False
    | Packages _ p _, Packages _ p' _ => p = p'
    | Service unit _ _, Service unit' _ _ => unit <> unit'
    | _, _ => True
    end.

  (** What a step keeps. *)
  Definition spares (t : task) (s s' : os) : Prop :=
    match t with
    | Group g _ _ => other_groups g s s' /\ keeps_packages has s s' /\ keeps_units value units s s'
    | User u _ _ _ _ _ _ _ _ _ => others u s s' /\ (forall x, x ∈ gids s -> x ∈ gids s') /\ keeps_packages has s s' /\ keeps_units value units s s'
    | Packages _ present _ => keeps_accounts s s' /\ keeps_units value units s s' /\ forall o, if present then has s o -> has s' o else has s' o -> has s o
    | Service unit _ _ => keeps_accounts s s' /\ keeps_packages has s s' /\ forall u, u ∈ units -> u <> unit -> keeps_unit value u s s'
    end.
  Lemma trimmed heads l s s' : (forall h, h ∈ heads -> h ∈ [lit "useradd"; lit "usermod"; lit "groupadd"; lit "groupmod"]) ->
    history (trim exec heads) s l s' -> keeps_packages has s s' /\ keeps_units value units s s'.
  Proof.
    intros Hh H. revert H. refine (fun H => history_rel (trim exec heads) (fun s s' => keeps_packages has s s' /\ keeps_units value units s s') _ _ s l s' H _).
    - intros t t' Ht. split; [apply (packages_still has Hstable), Ht|intros u _; apply (unit_still value Hvalue), Ht].
    - intros t1 t2 t3 [A1 A2] [B1 B2]. split; [eapply packages_trans; eassumption|]. intros u Hu. eapply unit_trans; [apply A2, Hu|apply B2, Hu].
    - intros q t x t' _ Hq. apply trim_cases in Hq as [(h & K1 & K2 & K3)|[_ ->]]; [eapply (sep_accounts _ _ _ _ Hsep); [apply Hh, K2|exact K1|exact K3]|].
      split; [apply (packages_still has Hstable), unaffected_refl|intros u _; apply (unit_still value Hvalue), unaffected_refl].
  Qed.
  Lemma head_of program opts operands argv : invokes program opts operands argv -> head argv = Some (lit program).
  Proof. intros (r & -> & _). reflexivity. Qed.
  Lemma done_fine t c x c' : sound t -> turn t (sysof c) -> carry_out t c = (Ok x, c') ->
    c' = set_remote (c_remote c') c /\ spares t (sysof c) (sysof c') /\ or_success x = true /\ (tidy (sysof c') -> holds t (sysof c')).
  Proof.
    unfold Prop_Tasks.carry_out. destruct t as [g gid sy|u uid group groups append sy hash home shell comment|packages present opts|unit state en]; cbn [sound turn spares holds]; intros Hs [_ Ht] E.
    - destruct Hs as [Hg Hn]. set (hs := [lit "groupadd"; lit "groupmod"]).
      rewrite (C85_group sha512 false a g true gid sy exec (trim exec hs)) in E.
      2:{ intros p s [_ (v & _ & H)]. destruct H as [H|[H|[H|[H|H]]]]; apply head_of in H; eapply trim_same; try exact H; unfold hs; rewrite !elem_of_cons; auto. }
      destruct (C56_partial _ sha512 (trim_bounded exec hs Hb) (trim_shadow exec hs Hsu) _ _ _ _ _ _ _ _ Hg Hn E) as (H1 & l & H2 & H3 & H4). destruct (H4 x eq_refl) as (K1 & _ & n & N1 & N2 & _).
      split; [exact H1|]. split; [split; [exact H3|]; eapply trimmed; [|exact H2]; unfold hs; intros h; rewrite !elem_of_cons; intuition|]. split; [exact K1|]. intros _. exists n. split; [apply gid_of_in, N1|exact N2].
    - destruct Hs as [[Hu _] Hd]. set (hs := [lit "useradd"; lit "usermod"]).
      rewrite (C85_user sha512 false a u true uid group groups append sy hash home shell comment exec (trim exec hs)) in E.
      2:{ intros p s [_ [(o & _ & H)|(o & v & _ & H)]]; apply head_of in H; eapply trim_same; try exact H; unfold hs; rewrite !elem_of_cons; auto. }
      destruct (C54_partial _ sha512 (trim_bounded exec hs Hb) (trim_shadow exec hs Hsu) _ _ _ _ _ _ _ _ _ _ _ _ _ _ Hu Ht E) as (H1 & l & H2 & H3 & H4). destruct (H4 x eq_refl) as (K1 & _ & K2).
      split; [exact H1|]. split; [split; [exact H3|]; split; [exact (proj1 (proj2 K2))|]; eapply trimmed; [|exact H2]; unfold hs; intros h; rewrite !elem_of_cons; intuition|]. split; [exact K1|]. intros _. eapply user_steady, K2.
    - destruct Hs as (Hp & Hi & Hr). destruct (C57_pacman exec sha512 set_order Horder has Hstable Hb _ _ _ _ _ _ _ Hask Hi Hr E) as (H1 & l & H2 & ask & act & L1 & _ & _ & _ & L4 & _ & L5).
      destruct (L5 x eq_refl) as (K1 & _ & _ & K4 & _). split; [exact H1|]. split; [|split; [exact K1|intros _; exact K4]].
      assert (H : keeps_accounts (sysof c) (sysof c') /\ keeps_units value units (sysof c) (sysof c')); [|destruct H; auto].
      refine (history_rel exec (fun s s' => keeps_accounts s s' /\ keeps_units value units s s') _ _ _ l _ H2 _).
      + intros t t' Hu. split; [apply accounts_still, Hu|intros u _; apply (unit_still value Hvalue), Hu].
      + intros t1 t2 t3 [A1 A2] [B1 B2]. split; [eapply accounts_trans; eassumption|]. intros u Hu. eapply unit_trans; [apply A2, Hu|apply B2, Hu].
      + intros q s y s' Hq Hx. apply (sep_packages _ _ _ _ Hsep q s y s'); [|exact Hx]. rewrite L1 in Hq. apply elem_of_app in Hq as [Hq|Hq]; apply elem_of_list_fmap in Hq as (p & -> & _); [reflexivity|destruct present; reflexivity].
    - destruct Hs as (Hu & Hst & Hen).
      assert (Hv : forall t, state = Some t -> exists v, verb_of t v).
      { intros t ->. destruct Hst as [[= ->]|[= ->]]; eexists; unfold verb_of; rewrite !elem_of_cons; [left|do 3 right; left]; reflexivity. }
      destruct (C59_partial exec sha512 value Hb _ _ _ _ _ _ _ Hshow Hvalue Hv E) as (H1 & l & l1 & l2 & H2 & A1 & A2 & _ & F). destruct (F x eq_refl) as (F1 & F2 & _ & _).
      destruct (C59_effect exec sha512 value Hb _ _ _ _ _ _ _ Hshow Hvalue Hobey Hv E) as (_ & G1 & G2).
      split; [exact H1|]. split; [|split; [exact F1|]].
      2:{ intros _. split; [|intros e ->; exact G2]. intros t ->. destruct (decide (t = lit "stopped")) as [-> |Hne]; [right; auto|]. left. split; [|exact G1]. destruct Hst as [[= ->]|[= ->]]; [reflexivity|contradiction]. }
      assert (Hl : forall cmd, cmd ∈ l -> (exists prop, cmd = show_cmd false prop unit) \/ exists v, cmd = verb_cmd false v unit).
      { intros cmd. rewrite F2. rewrite !elem_of_app, !elem_of_cons. intros [[-> |[-> |H]]|[H|H]]; [left; eauto|left; eauto|inversion H| |].
        - right. unfold state_action in A1. destruct state as [t|]; [destruct A1 as [[_ ->]|[_ (v & _ & ->)]]|subst l1]; try (inversion H; fail). apply elem_of_list_singleton in H. eauto.
        - right. unfold enable_action in A2. destruct en as [e|]; [destruct A2 as [[_ ->]|[_ ->]]|subst l2]; try (inversion H; fail). apply elem_of_list_singleton in H. eauto. }
      assert (H : (keeps_accounts (sysof c) (sysof c') /\ keeps_packages has (sysof c) (sysof c')) /\ forall u, u ∈ units -> u <> unit -> keeps_unit value u (sysof c) (sysof c')); [|destruct H as [[] ?]; auto].
      refine (history_rel exec (fun s s' => (keeps_accounts s s' /\ keeps_packages has s s') /\ forall u, u ∈ units -> u <> unit -> keeps_unit value u s s') _ _ _ l _ H2 _).
      + intros t t' Ht'. split; [split; [apply accounts_still, Ht'|apply (packages_still has Hstable), Ht']|]. intros u _ _. apply (unit_still value Hvalue), Ht'.
      + intros t1 t2 t3 [[B1 B2] B3] [[D1 D2] D3]. split; [split; [eapply accounts_trans; eassumption|eapply packages_trans; eassumption]|]. intros u Hu1 Hu2. eapply unit_trans; [apply B3; assumption|apply D3; assumption].
      + intros q s y s' Hq Hx. apply Hl in Hq as [(prop & Hq)|(v & Hq)].
        * split; [apply (sep_units _ _ _ _ Hsep q s y s'); [rewrite Hq; reflexivity|exact Hx]|]. intros u _ _. apply (unit_still value Hvalue). eapply Hshow; eassumption.
        * split; [apply (sep_units _ _ _ _ Hsep q s y s'); [rewrite Hq; reflexivity|exact Hx]|]. intros u Hu1 Hu2. eapply (sep_unit _ _ _ _ Hsep); eassumption.
  Qed.
  Lemma carried t t' s s' : sound t -> independent t t' -> tidy s -> tidy s' -> spares t' s s' -> holds t s -> holds t s'.
  Proof.
    intros Hs Hi Ht Ht' Hk Hh.
    assert (Hacc : keeps_accounts s s' -> match t with Group _ _ _ | User _ _ _ _ _ _ _ _ _ _ => holds t s' | _ => True end).
    { intros [K1 K2]. destruct t as [g gid sy|u uid group groups append sy hash home shell comment| |]; try exact I; cbn [holds] in *.
      - destruct Hh as (n & N1 & N2). exists n. auto.
      - pose proof Hh as (_ & _ & b & (He & _) & _). destruct (K1 u b He) as (Q1 & Q2 & Q3). apply (user_moves u uid group groups append hash home shell comment s s'); [congruence|exact Q2|exact Q3|exact K2|exact Hh]. }
    assert (Hpk : keeps_packages has s s' -> match t with Packages _ _ _ => holds t s' | _ => True end).
    { intros K. destruct t as [| |packages present opts|]; try exact I. cbn [holds] in *. intros p Hp. specialize (Hh p Hp). destruct present; rewrite (K p); exact Hh. }
    assert (Hun : forall unit state en, t = Service unit state en -> keeps_unit value unit s s' -> holds t s').
    { intros unit state en -> [K1 K2]. cbn [holds] in *. unfold state_given, enabled_given in *. destruct Hh as [G1 G2]. split; [intros t Hst; rewrite K1; apply G1, Hst|intros e He; rewrite K2; apply G2, He]. }
    destruct t' as [g' gid' sy'|u' uid' group' groups' append' sy' hash' home' shell' comment'|packages' present' opts'|unit' state' en']; cbn [spares] in Hk.
    - destruct Hk as (K1 & K2 & K3). destruct t as [g gid sy|u uid group groups append sy hash home shell comment|packages present opts|unit state en]; cbn [independent] in Hi.
      + cbn [holds] in *. destruct Hh as (n & N1 & N2). exists n. split; [|exact N2]. apply gid_of_in. rewrite (proj1 (K1 g Hi)). apply gid_of_tidy; assumption.
      + destruct Hi.
      + apply Hpk, K2.
      + eapply Hun; [reflexivity|]. apply K3. exact (proj1 Hs).
    - destruct Hk as (K1 & K2 & K3 & K4). destruct t as [g gid sy|u uid group groups append sy hash home shell comment|packages present opts|unit state en]; cbn [independent] in Hi.
      + cbn [holds] in *. destruct Hh as (n & N1 & N2). exists n. auto.
      + cbn [holds] in *. destruct K1 as [O1 O2]. destruct (O1 u Hi) as [Q1 Q2]. apply (user_moves u uid group groups append hash home shell comment s s'); [exact Q1|exact Q2|intros g; apply O2, Hi|exact K2|exact Hh].
      + apply Hpk, K3.
      + eapply Hun; [reflexivity|]. apply K4. exact (proj1 Hs).
    - destruct Hk as (K1 & K2 & K3). destruct t as [g gid sy|u uid group groups append sy hash home shell comment|packages present opts|unit state en]; cbn [independent] in Hi.
      + exact (Hacc K1).
      + exact (Hacc K1).
      + subst present'. cbn [holds] in *. intros p Hp. specialize (Hh p Hp). specialize (K3 p). destruct present; auto.
      + eapply Hun; [reflexivity|]. apply K2. exact (proj1 Hs).
    - destruct Hk as (K1 & K2 & K3). destruct t as [g gid sy|u uid group groups append sy hash home shell comment|packages present opts|unit state en]; cbn [independent] in Hi.
      + exact (Hacc K1).
      + exact (Hacc K1).
      + exact (Hpk K2).
      + eapply Hun; [reflexivity|]. apply K3; [exact (proj1 Hs)|exact Hi].
  Qed.
  (** A step whose request holds does nothing. *)
  Lemma steady_idle t c r c' : sound t -> tidy (sysof c) -> match t with User u _ _ _ _ _ _ _ _ _ => py_int 10 u = None | _ => True end -> holds t (sysof c) -> carry_out t c = (r, c') ->
    unaffected (sysof c) (sysof c') /\ forall x, r = Ok x -> or_success x = true /\ or_changed x = false.
  Proof.
    unfold Prop_Tasks.carry_out. destruct t as [g gid sy|u uid group groups append sy hash home shell comment|packages present opts|unit state en]; cbn [sound holds]; intros Hs Ht Hint Hh E.
    - destruct Hs as [Hg Hn]. destruct Hh as (n & N1 & N2). pose proof (gid_of_tidy _ _ _ Ht N1) as Hgid.
      destruct (C56_rerun_partial exec sha512 Hb Hsu g true gid sy a (sysof c) c r c' Hg Hn) as [K1 K2]; [|exact E|].
      { exists n. split; [exact Hgid|]. split; [exact N2|]. split; [auto|]. intros _ v. reflexivity. }
      split; [rewrite K1; apply unaffected_refl|exact K2].
    - destruct Hs as [[Hu _] Hd]. destruct (C54_rerun_partial exec sha512 u uid group groups append sy hash home shell comment a (sysof c) c r c' Hu Hint Hd (proj1 Ht)) as [K1 K2]; [|exact Hh|exact E|].
      { intros g g' n _ H1 H2. eapply tidy_numbers; eassumption. }
      split; [rewrite K1; apply unaffected_refl|exact K2].
    - destruct Hs as (Hp & Hi & Hr). destruct (C57_pacman exec sha512 set_order Horder has Hstable Hb _ _ _ _ _ _ _ Hask Hi Hr E) as (H1 & l & H2 & ask & act & L1 & _ & _ & L3 & L4 & L6 & L5).
      assert (act = []) as ->.
      { destruct act as [|p act]; [reflexivity|]. exfalso. destruct (L3 p) as [Q1 Q2]; [left|]. specialize (Hh p Q1). unfold lacks in Q2. destruct present; contradiction. }
      split; [apply L6; reflexivity|]. intros x Hx. destruct (L5 x Hx) as (K1 & _ & _ & _ & _ & K6). auto.
    - destruct Hs as (Hu & Hst & Hen). destruct Hh as [Hh1 Hh2].
      assert (Hv : forall t, state = Some t -> exists v, verb_of t v).
      { intros t ->. destruct Hst as [[= ->]|[= ->]]; eexists; unfold verb_of; rewrite !elem_of_cons; [left|do 3 right; left]; reflexivity. }
      destruct (C59_partial exec sha512 value Hb _ _ _ _ _ _ _ Hshow Hvalue Hv E) as (H1 & l & l1 & l2 & H2 & A1 & A2 & P & F).
      assert (l1 = []) as -> by (unfold state_action in A1; destruct state as [t|]; [|exact A1]; destruct A1 as [[_ ->]|[A1 _]]; [reflexivity|destruct A1; apply Hh1; reflexivity]).
      assert (l2 = []) as -> by (unfold enable_action in A2; destruct en as [t|]; [|exact A2]; destruct A2 as [[_ ->]|[A2 _]]; [reflexivity|destruct A2; apply Hh2; reflexivity]).
      split.
      + refine (history_rel exec unaffected (fun s s' H => H) unaffected_trans _ l _ H2 _). intros q s y s' Hq Hx. destruct P as [k P].
        assert (Hin : p_argv q ∈ l ++ k) by (apply elem_of_app; left; exact Hq). rewrite <- P in Hin. cbn [app] in Hin. rewrite !elem_of_cons in Hin. destruct Hin as [Hin|[Hin|Hin]]; [..|inversion Hin]; eapply Hshow; eassumption.
      + intros x Hx. destruct (F x Hx) as (F1 & _ & F3 & _). split; [exact F1|]. apply F3. split.
        * destruct Hst as [-> | ->]; eexists; (split; [reflexivity|apply Hh1; reflexivity]).
        * destruct en as [e|]; [|contradiction]. exists e. split; [reflexivity|apply Hh2; reflexivity].
  Qed.
  (** ** The script as a whole *)
  Notation play := (play task carry_out).
  Notation in_turn := (in_turn task carry_out turn).
  Lemma tidy_still s s' : unaffected s s' -> tidy s -> tidy s'.
  Proof. intros ->. exact (fun H => H). Qed.
  Lemma holds_still t s s' : unaffected s s' -> holds t s -> holds t s'.
  Proof.
    intros Hu. destruct t as [g gid sy|u uid group groups append sy hash home shell comment|packages present opts|unit state en]; cbn [holds].
    - rewrite Hu. exact (fun H => H).
    - apply user_moves; rewrite Hu; try reflexivity. auto.
    - intros H p Hp. specialize (H p Hp). destruct present; rewrite (packages_still has Hstable s s' Hu p); exact H.
    - destruct (unit_still value Hvalue unit s s' Hu) as [K1 K2]. unfold state_given, enabled_given. intros [G1 G2]. split; [intros t Ht; rewrite K1; apply G1, Ht|intros e He; rewrite K2; apply G2, He].
  Qed.
  Lemma tidy_first l c rs c' : in_turn l c -> play l c = (Ok rs, c') -> tidy (sysof c') -> tidy (sysof c).
  Proof. destruct l as [|t l]; [intros _ [= _ <-]; auto|]. intros [[H _] _] _ _. exact H. Qed.
  Lemma play_step t l c r c' : play (t :: l) c = (r, c') ->
    (exists e, carry_out t c = (Err e, c') /\ r = Err e) \/
    exists x c1, carry_out t c = (Ok x, c1) /\ ((exists e, play l c1 = (Err e, c') /\ r = Err e) \/ exists xs, play l c1 = (Ok xs, c') /\ r = Ok (x :: xs)).
  Proof.
    intros E. cbn [Spec_Script.play] in E. apply bind_spec in E as [(x & c1 & E1 & E)|(e & E1 & ->)]; [|left; eauto]. right. exists x, c1. split; [exact E1|].
    apply bind_spec in E as [(xs & c2 & E2 & E)|(e & E2 & ->)]; [|left; eauto]. injection E as <- <-. right. eauto.
  Qed.
  Lemma script_grants l : Forall sound l -> ForallOrdPairs independent l -> forall c rs c', in_turn l c -> play l c = (Ok rs, c') -> tidy (sysof c') ->
    c' = set_remote (c_remote c') c /\ Forall (fun x => or_success x = true) rs /\ (forall t, t ∈ l -> holds t (sysof c')) /\
    forall t, sound t -> (forall t', t' ∈ l -> independent t t') -> holds t (sysof c) -> holds t (sysof c').
  Proof.
    induction l as [|t l IH]; intros Hs Hi c rs c' Ht E Htidy.
    - injection E as <- <-. split; [symmetry; apply set_remote_self|]. split; [constructor|]. split; [intros t H; inversion H|]. auto.
    - apply Forall_cons in Hs as [Hs1 Hs2]. inversion Hi as [|? ? Hi1 Hi2]; subst. destruct Ht as [Ht1 Ht2].
      apply play_step in E as [(e & _ & [=])|(x & c1 & E1 & [(e & _ & [=])|(xs & E2 & [= ->])])]. specialize (Ht2 x c1 E1).
      pose proof (tidy_first _ _ _ _ Ht2 E2 Htidy) as Htidy1. destruct (done_fine t c x c1 Hs1 Ht1 E1) as (D1 & D2 & D3 & D4). specialize (D4 Htidy1).
      destruct (IH Hs2 Hi2 c1 xs c' Ht2 E2 Htidy) as (K1 & K2 & K3 & K4).
      split; [rewrite K1 at 1; rewrite D1; reflexivity|]. split; [constructor; assumption|]. split.
      + intros t' H. apply elem_of_cons in H as [-> |H]; [|apply K3, H]. apply K4; [exact Hs1| |exact D4]. intros t' H. rewrite List.Forall_forall in Hi1. apply Hi1, elem_of_list_In, H.
      + intros t' Hst Hin Hh. apply K4; [exact Hst|intros t2 H2; apply Hin; right; exact H2|]. apply (carried t' t (sysof c) (sysof c1)); try assumption; [apply Hin; left|apply Ht1].
  Qed.
  Lemma script_idle l : Forall sound l -> forall c r c', tidy (sysof c) -> (forall t, t ∈ l -> holds t (sysof c)) -> play l c = (r, c') ->
    unaffected (sysof c) (sysof c') /\ forall rs, r = Ok rs -> length rs = length l /\ Forall (fun x => or_success x = true /\ or_changed x = false) rs.
  Proof.
    induction l as [|t l IH]; intros Hs c r c' Ht Hh E.
    - injection E as <- <-. split; [apply unaffected_refl|]. intros rs [= <-]. split; [reflexivity|constructor].
    - apply Forall_cons in Hs as [Hs1 Hs2]. assert (Hint : match t with User u _ _ _ _ _ _ _ _ _ => py_int 10 u = None | _ => True end) by (destruct t; try exact I; apply Hs1).
      apply play_step in E as [(e & E1 & ->)|(x & c1 & E1 & E)].
      + destruct (steady_idle t c _ _ Hs1 Ht Hint (Hh t ltac:(left)) E1) as [K1 _]. split; [exact K1|]. intros rs [=].
      + destruct (steady_idle t c _ _ Hs1 Ht Hint (Hh t ltac:(left)) E1) as [K1 K2]. destruct (K2 x eq_refl) as [K3 K4].
        assert (Hh1 : forall t, t ∈ l -> holds t (sysof c1)) by (intros t' H; eapply holds_still; [exact K1|apply Hh; right; exact H]).
        pose proof (tidy_still _ _ K1 Ht) as Ht1. destruct E as [(e & E2 & ->)|(xs & E2 & ->)]; destruct (IH Hs2 c1 _ c' Ht1 Hh1 E2) as [Q1 Q2]; (split; [eapply unaffected_trans; eassumption|]); [intros rs [=]|].
        intros rs [= <-]. destruct (Q2 xs eq_refl) as [Q3 Q4]. split; [cbn; congruence|]. constructor; auto.
  Qed.

  (** Full statement: for all scripts of such steps whose requests do not contradict one another.  It is false, see below. *)
  Theorem C90_partial l c rs c' : Forall sound l -> ForallOrdPairs independent l -> in_turn l c -> play l c = (Ok rs, c') -> tidy (sysof c') ->
    Forall (fun x => or_success x = true) rs /\ (forall t, t ∈ l -> holds t (sysof c')) /\
    forall c1 r c2, unaffected (sysof c') (sysof c1) -> play l c1 = (r, c2) ->
      unaffected (sysof c1) (sysof c2) /\ forall rs2, r = Ok rs2 -> length rs2 = length l /\ Forall (fun x => or_success x = true /\ or_changed x = false) rs2.
  Proof.
    intros Hs Hi Ht E Htidy. destruct (script_grants l Hs Hi c rs c' Ht E Htidy) as (_ & H2 & H3 & _). split; [exact H2|]. split; [exact H3|].
    intros c1 r c2 Hu E2. apply (script_idle l Hs c1 r c2); [eapply tidy_still; eassumption| |exact E2]. intros t H. eapply holds_still; [exact Hu|apply H3, H].
  Qed.
End script.
Print Assumptions C90_partial.

(** ** A machine for the examples: account tools, a package manager and a service manager *)
Definition shelf (p : pystr) : pystr := 112%N :: p.
Definition stocked (s : os) (p : pystr) : Prop := dget (shelf p) (o_env s) = Some (lit "y").
Definition store (q : proc) : M xres := fun s =>
  match p_argv q with
  | [_; _; _; p] => (Ok (XExit (if bool_decide (dget (shelf p) (o_env s) = Some (lit "y")) then 0 else 1) [] []), s)
  | [_; _; _; _; op; _; p] =>
      if str_eqb op (lit "-S") then (Ok (XExit 0 [] []), set_env (dset (shelf p) (lit "y") (o_env s)) s)
      else if str_eqb op (lit "-Rns") then (Ok (XExit 0 [] []), set_env (dset (shelf p) (lit "n") (o_env s)) s)
      else (Ok (XExit 1 [] []), s)
  | _ => (Ok (XExit 1 [] []), s)
  end.
Definition machine (p : proc) : M xres :=
  match p_argv p with
  | [] => shadow p
  | h :: _ => if str_eqb h (lit "pacman") then store p else if str_eqb h (lit "systemctl") then systemd p else shadow p
  end.
Lemma machine_shadow p s h r : p_argv p = h :: r -> h <> lit "pacman" -> h <> lit "systemctl" -> machine p s = shadow p s.
Proof. intros E H1 H2. unfold machine. rewrite E. rewrite !str_eqb_decide, !bool_decide_eq_false_2 by assumption. reflexivity. Qed.
Lemma machine_store p s r : p_argv p = lit "pacman" :: r -> machine p s = store p s.
Proof. intros E. unfold machine. rewrite E. reflexivity. Qed.
Lemma machine_systemd p s r : p_argv p = lit "systemctl" :: r -> machine p s = systemd p s.
Proof. intros E. unfold machine. rewrite E. reflexivity. Qed.
Lemma store_small q s rc out err s' : store q s = (Ok (XExit rc out err), s') -> (0 <= rc < 2)%Z /\ out = [] /\ err = [].
Proof. unfold store. repeat case_match; intros [= <- <- <- _]; repeat split; lia. Qed.
Lemma machine_bounded : bounded machine.
Proof.
  intros p s rc out err s' E. unfold machine in E. destruct (p_argv p) as [|h r]; [eapply shadow_bounded, E|].
  destruct (str_eqb h (lit "pacman")); [|destruct (str_eqb h (lit "systemctl")); [eapply systemd_bounded, E|eapply shadow_bounded, E]].
  apply store_small in E as (H & -> & ->). unfold in_i32, small. cbn. lia.
Qed.
Lemma machine_promised cmd keep done : cmd <> lit "pacman" -> cmd <> lit "systemctl" -> promised shadow cmd keep done -> promised machine cmd keep done.
Proof. intros H1 H2 H q s x s' args opts name E1 E2 E3. rewrite (machine_shadow q s cmd args E1 H1 H2) in E3. eapply H; eassumption. Qed.
Lemma machine_accounts : shadow_utils machine.
Proof. destruct shadow_ok. constructor; apply machine_promised; try assumption; intros H; vm_compute in H; discriminate. Qed.
Lemma stocked_stable : stable stocked. Proof. intros s s' p ->. exact (fun H => H). Qed.
Lemma machine_asks : answers machine stocked pacman_ask by_code.
Proof.
  intros p q s x s' E Ex. rewrite (machine_store q s _ E) in Ex. unfold store in Ex. rewrite E in Ex. cbn [pacman_ask] in Ex. injection Ex as <- <-. split; [apply unaffected_refl|].
  intros rc out err b [= <- _ _] Hb. unfold by_code in Hb. unfold stocked. rewrite Hb. destruct (bool_decide _) eqn:Ed; [apply bool_decide_eq_true in Ed|apply bool_decide_eq_false in Ed]; intuition discriminate.
Qed.
Lemma shelf_other s s' k v (o : pystr) : s' = set_env (dset k v (o_env s)) s -> k <> shelf o -> stocked s' o <-> stocked s o.
Proof. intros -> H. unfold stocked. cbn [o_env set_env]. rewrite dget_dset_other by auto. reflexivity. Qed.
Lemma machine_installs : installs machine stocked (pacman_sync []).
Proof.
  intros p q s x s' E Ex. rewrite (machine_store q s _ E) in Ex. unfold store in Ex. rewrite E in Ex. cbn [pacman_sync app] in Ex. vm_compute (str_eqb _ _) in Ex. cbv iota in Ex. injection Ex as <- <-.
  assert (H : stocked (set_env (dset (shelf p) (lit "y") (o_env s)) s) p) by (unfold stocked; cbn [o_env set_env]; apply dget_dset_same).
  split; [|intros; exact H]. intros o Ho. destruct (decide (o = p)) as [-> |Hn]; [exact H|]. eapply shelf_other; [reflexivity| |exact Ho]. intros [=]. auto.
Qed.
Lemma machine_removes : removes machine stocked (pacman_erase []).
Proof.
  intros p q s x s' E Ex. rewrite (machine_store q s _ E) in Ex. unfold store in Ex. rewrite E in Ex. cbn [pacman_erase app] in Ex. vm_compute (str_eqb _ _) in Ex. cbv iota in Ex. injection Ex as <- <-.
  assert (H : ~ stocked (set_env (dset (shelf p) (lit "n") (o_env s)) s) p) by (unfold stocked; cbn [o_env set_env]; rewrite dget_dset_same; intros H; vm_compute in H; discriminate).
  split; [|intros; exact H]. intros o Ho. destruct (decide (o = p)) as [-> |Hn]; [contradiction|]. apply (shelf_other s _ (shelf p) (lit "n") o eq_refl); [intros [=]; auto|exact Ho].
Qed.
Lemma machine_shows : shows machine kept.
Proof. intros q s x s' user prop unit E Ex. eapply systemd_shows; [exact E|]. destruct user; erewrite machine_systemd in Ex by exact E; exact Ex. Qed.
Lemma machine_obeys : obeys machine kept.
Proof. intros q s out err s' user unit verb E Ex. eapply systemd_obeys; [exact E|]. destruct user; erewrite machine_systemd in Ex by exact E; exact Ex. Qed.
Lemma env_packages s s' : o_env s' = o_env s -> keeps_packages stocked s s'. Proof. intros H p. unfold stocked. rewrite H. reflexivity. Qed.
Lemma env_unit u s s' : o_env s' = o_env s -> keeps_unit kept u s s'. Proof. intros H. unfold keeps_unit, running, enabled, kept. rewrite H. tauto. Qed.
Lemma shadow_env p s x s' : shadow p s = (x, s') -> o_env s' = o_env s.
Proof.
  unfold shadow, useradd_prog, usermod_prog, userdel_prog, groupadd_prog, groupmod_prog, groupdel_prog, Shadow.exit. repeat case_match; intros [= _ <-]; reflexivity.
Qed.
Lemma set_env_accounts e s : keeps_accounts s (set_env e s).
Proof. split; [|auto]. intros u b H. split; [exact H|]. split; [reflexivity|]. intros g. reflexivity. Qed.
Lemma kept_shelf p v s u : keeps_unit kept u s (set_env (dset (shelf p) v (o_env s)) s).
Proof. unfold keeps_unit, running, enabled, kept. cbn [o_env set_env]. rewrite !dget_dset_other by (intros H; injection H as H _; vm_compute in H; discriminate). tauto. Qed.
Lemma act_env user verb unit s s' : act_unit user verb unit s = Some s' -> exists prop v, (prop = lit "ActiveState" \/ prop = lit "UnitFileState") /\ s' = put_unit user prop unit v s.
Proof. unfold act_unit. repeat case_match; intros [= <-]; eauto. Qed.
Lemma put_keeps user prop unit v s : keeps_accounts s (put_unit user prop unit v s) /\ keeps_packages stocked s (put_unit user prop unit v s).
Proof.
  split; [apply set_env_accounts|]. intros p. eapply shelf_other; [reflexivity|]. intros H. unfold unit_key, shelf in H. destruct user; injection H as H; vm_compute in H; discriminate.
Qed.
Lemma still_keeps s : keeps_accounts s s /\ keeps_packages stocked s s.
Proof. split; [apply accounts_still, unaffected_refl|apply env_packages; reflexivity]. Qed.
Lemma machine_separate units : separate machine stocked kept units.
Proof.
  constructor.
  - intros prog Hp q s x s' Hh E. destruct (p_argv q) as [|h r] eqn:Eq; [discriminate|]. injection Hh as ->.
    rewrite (machine_shadow q s prog r Eq) in E by (intros ->; rewrite !elem_of_cons in Hp; destruct Hp as [H|[H|[H|[H|H]]]]; [vm_compute in H; discriminate..|inversion H]).
    apply shadow_env in E. split; [apply env_packages, E|]. intros u _. apply env_unit, E.
  - intros q s x s' Hh E. destruct (p_argv q) as [|h r] eqn:Eq; [discriminate|]. injection Hh as ->. rewrite (machine_store q s r Eq) in E.
    assert (H0 : keeps_accounts s s /\ keeps_units kept units s s) by (split; [apply accounts_still, unaffected_refl|intros u _; apply env_unit; reflexivity]).
    assert (H1 : forall p v, keeps_accounts s (set_env (dset (shelf p) v (o_env s)) s) /\ keeps_units kept units s (set_env (dset (shelf p) v (o_env s)) s)) by (intros p v; split; [apply set_env_accounts|intros u _; apply kept_shelf]).
    unfold store in E. clear Eq. repeat case_match; injection E as _ <-; auto.
  - intros q s x s' Hh E. destruct (p_argv q) as [|h r] eqn:Eq; [discriminate|]. injection Hh as ->. rewrite (machine_systemd q s r Eq) in E. pose proof (still_keeps s) as H0.
    unfold systemd in E. clear Eq. repeat case_match; injection E as _ <-; auto; match goal with H : act_unit _ _ _ _ = Some _ |- _ => apply act_env in H as (? & ? & _ & ->); apply put_keeps end.
  - intros q s x s' verb unit u E Hn _ Ex. rewrite (machine_systemd q s _ E) in Ex. unfold systemd in Ex. rewrite E in Ex. cbn [verb_cmd manager_of app] in Ex.
    destruct (act_unit false verb unit s) as [z|] eqn:Ea; injection Ex as _ <-; [|apply env_unit; reflexivity]. apply act_env in Ea as (prop & v & Hp & ->).
    assert (Hk : forall prop', prop' = lit "ActiveState" \/ prop' = lit "UnitFileState" -> unit_key false prop' u <> unit_key false prop unit).
    { intros prop' Hp' H. unfold unit_key in H. injection H as H.
      destruct Hp as [-> | ->], Hp' as [-> | ->]; try (apply app_inv_head in H; injection H as H; contradiction); apply (f_equal head) in H; vm_compute in H; discriminate. }
    unfold keeps_unit, running, enabled, kept, put_unit. cbn [o_env set_env]. rewrite !dget_dset_other by (apply Hk; auto). tauto.
Qed.

(** ** A script on it *)
Definition tameb (g : pystr) : bool := bool_decide (g <> [] /\ 44%N ∉ g /\ py_int 10 g = None).
Definition plain_check (s : os) (u : pystr) (group : option pystr) (groups : option (list pystr)) : bool :=
  bool_decide (py_int 10 u = None) && match group with Some g => tameb g | None => true end && forallb tameb (default [] groups) &&
  forallb (fun e => negb (str_in u (gr_mem e)) || (tameb (gr_name e) && match entry s u with Some _ => true | None => false end)) (o_group s) &&
  match entry s u with
  | Some b => match secret s u with Some _ => true | None => false end && existsb (fun x => N.eqb x.2 (pw_gid b)) (gids s)
  | None => true
  end.
Lemma plain_checked s u group groups : plain_check s u group groups = true -> plain_request s u group groups.
Proof.
  unfold plain_check. rewrite !andb_true_iff. intros ((((H1 & H2) & H3) & H4) & H5). split; [apply bool_decide_eq_true in H1; exact H1|]. split; [|split; [|split]].
  - intros g [-> _]. apply tame_text, H2.
  - intros l [-> _]. apply Forall_forall. intros g Hg. apply tame_text. rewrite forallb_forall in H3. apply H3, elem_of_list_In, Hg.
  - intros g (e & E1 & <- & E3). rewrite forallb_forall in H4. apply elem_of_list_In in E1. specialize (H4 e E1). apply str_in_true in E3. rewrite E3 in H4. cbn [negb orb] in H4. apply andb_true_iff in H4 as [H4 H6].
    split; [apply tame_text, H4|]. intros H. rewrite H in H6. discriminate.
  - intros b Hb. rewrite Hb in H5. apply andb_true_iff in H5 as [H5 H6]. split; [exact Hb|]. split; [destruct (secret s u); [eauto|discriminate]|].
    apply existsb_exists in H6 as ([g n] & K1 & K2). apply N.eqb_eq in K2. cbn in K2. subst n. exists g. apply elem_of_list_In, K1.
Qed.
Definition tidyb (s : os) : bool := bool_decide (NoDup (gids s).*1) && bool_decide (NoDup (gids s).*2).
Lemma tidy_checked s : tidyb s = true -> tidy s.
Proof. unfold tidyb. rewrite andb_true_iff. intros [H1 H2]. apply bool_decide_eq_true in H1, H2. split; assumption. Qed.
Definition turn_check (t : task) (s : os) : bool := tidyb s && match t with User u _ group groups _ _ _ _ _ _ => plain_check s u group groups | _ => true end.
Fixpoint turns_check (does : task -> W opres) (l : list task) (c : ctl) : bool :=
  match l with [] => true | t :: l => turn_check t (sysof c) && match does t c with (Ok _, c1) => turns_check does l c1 | _ => true end end.
Lemma turns_checked does l : forall c, turns_check does l c = true -> in_turn task does turn l c.
Proof.
  induction l as [|t l IH]; intros c H; [exact I|]. cbn [turns_check] in H. apply andb_true_iff in H as [H1 H2]. unfold turn_check in H1. apply andb_true_iff in H1 as [H1 H3]. split.
  - split; [apply tidy_checked, H1|]. destruct t; try exact I. apply plain_checked, H3.
  - intros res c1 E. rewrite E in H2. apply IH, H2.
Qed.

Definition devs := lit "devs".
Definition ex_script : list task :=
  [Packages [vim; git] true None; Group devs (Some 2000%Z) false;
   User bob (Some 1005%Z) (Some devs) (Some [wheel]) true false None None (Some (lit "/bin/zsh")) None;
   User carol None None (Some [devs; audio]) false true None (Some (lit "/home/carol")) None (Some (lit "Carol"));
   Service sshd (Some (lit "started")) (Some true)].
Definition ex_play := play task (carry_out machine fake_hash (fun l => l) NotGiven).
Definition results_in (x : result (list opres) * ctl) : list opres := match fst x with Ok l => l | Err _ => [] end.
Definition ran (x : result (list opres) * ctl) : bool := match fst x with Ok _ => true | Err _ => false end.
Lemma ran_is x : ran x = true -> x = (Ok (results_in x), snd x).
Proof. destruct x as [[l|e] c]; [reflexivity|discriminate]. Qed.
Lemma ex_sound : Forall (sound machine stocked [sshd]) ex_script.
Proof.
  unfold ex_script. constructor; [|constructor; [|constructor; [|constructor; [|constructor; [|constructor]]]]].
  - split; [right; eapply bool_decide_eq_true; vm_compute; reflexivity|]. split; [apply machine_installs|apply machine_removes].
  - split; [split; [text|dec]|vm_compute; reflexivity].
  - split; [split; [apply bob_string|vm_compute; reflexivity]|]. intros l [[= <-] _]. eapply bool_decide_eq_true; vm_compute; reflexivity.
  - split; [split; [apply carol_string|vm_compute; reflexivity]|]. intros l [[= <-] _]. eapply bool_decide_eq_true; vm_compute; reflexivity.
  - split; [left|]. split; [left; reflexivity|discriminate].
Qed.
Lemma ex_independent : ForallOrdPairs independent ex_script.
Proof.
  unfold ex_script. constructor; [constructor; [exact I|constructor; [exact I|constructor; [exact I|constructor; [exact I|constructor]]]]|].
  constructor; [constructor; [exact I|constructor; [exact I|constructor; [exact I|constructor]]]|].
  constructor; [constructor; [intros H; vm_compute in H; discriminate|constructor; [exact I|constructor]]|].
  constructor; [constructor; [exact I|constructor]|]. constructor; [constructor|]. constructor.
Qed.
Example C90_case :
  let c1 := snd (ex_play ex_script office) in let c2 := snd (ex_play ex_script c1) in
  (bounded machine /\ shadow_utils machine /\ answers machine stocked pacman_ask by_code /\ shows machine kept /\ obeys machine kept /\ separate machine stocked kept [sshd] /\ stable stocked /\ value_stable kept) /\
  Forall (sound machine stocked [sshd]) ex_script /\ ForallOrdPairs independent ex_script /\
  in_turn task (carry_out machine fake_hash (fun l => l) NotGiven) turn ex_script office /\ fine office /\
  ex_play ex_script office = (Ok (results_in (ex_play ex_script office)), c1) /\ tidy (sysof c1) /\
  map or_changed (results_in (ex_play ex_script office)) = [true; true; true; true; true] /\
  map or_changed (results_in (ex_play ex_script c1)) = [false; false; false; false; false] /\ ran (ex_play ex_script c1) = true /\
  gid_of (sysof c1) devs = Some 2000%N /\ groups_of (sysof c1) carol = [audio; devs] /\ running kept (sysof c1) false sshd.
Proof.
  intros c1 c2. split.
  { split; [apply machine_bounded|]. split; [apply machine_accounts|]. split; [apply machine_asks|]. split; [apply machine_shows|]. split; [apply machine_obeys|]. split; [apply machine_separate|].
    split; [apply stocked_stable|apply systemd_stable]. }
  split; [apply ex_sound|]. split; [apply ex_independent|]. split; [apply turns_checked; vm_compute; reflexivity|]. split; [apply office_fine|].
  split; [apply ran_is; vm_compute; reflexivity|]. split; [apply tidy_checked; vm_compute; reflexivity|].
  split; [vm_compute; reflexivity|]. split; [vm_compute; reflexivity|]. split; [vm_compute; reflexivity|]. split; [vm_compute; reflexivity|]. split; [vm_compute; reflexivity|].
  left. vm_compute. reflexivity.
Qed.
(** A service that is only to be started is reported as changed by every deploy. *)
Definition ex_service : list task := [Packages [vim] true None; Service sshd (Some (lit "started")) None].
Theorem C90_refuted : exists exec has value l c rs c' rs2 c2,
  (bounded exec /\ shadow_utils exec /\ answers exec has pacman_ask by_code /\ installs exec has (pacman_sync []) /\ removes exec has (pacman_erase []) /\ shows exec value /\ obeys exec value /\
   separate exec has value [sshd] /\ stable has /\ value_stable value) /\
  ForallOrdPairs independent l /\ fine c /\ tidy (sysof c') /\
  play task (carry_out exec fake_hash (fun l => l) NotGiven) l c = (Ok rs, c') /\ (forall t, t ∈ l -> holds has value t (sysof c')) /\
  play task (carry_out exec fake_hash (fun l => l) NotGiven) l c' = (Ok rs2, c2) /\ sysof c2 = sysof c' /\ map or_changed rs2 = [false; true].
Proof.
  set (f := ex_play ex_service). set (c1 := snd (f office)). exists machine, stocked, kept, ex_service, office, (results_in (f office)), c1, (results_in (f c1)), (snd (f c1)).
  split.
  { split; [apply machine_bounded|]. split; [apply machine_accounts|]. split; [apply machine_asks|]. split; [apply machine_installs|]. split; [apply machine_removes|]. split; [apply machine_shows|].
    split; [apply machine_obeys|]. split; [apply machine_separate|]. split; [apply stocked_stable|apply systemd_stable]. }
  split; [constructor; [constructor; [exact I|constructor]|constructor; [constructor|constructor]]|]. split; [apply office_fine|]. split; [apply tidy_checked; vm_compute; reflexivity|].
  split; [apply ran_is; vm_compute; reflexivity|]. split.
  { intros t Ht. apply elem_of_cons in Ht as [-> |Ht]; [|apply elem_of_list_singleton in Ht as ->]; cbn [holds].
    - intros p Hp. apply elem_of_list_singleton in Hp as ->. vm_compute. reflexivity.
    - split; [|intros e [=]]. intros t [= <-]. left. split; [reflexivity|]. left. vm_compute. reflexivity. }
  split; [apply ran_is; vm_compute; reflexivity|]. split; vm_compute; reflexivity.
Qed.
Print Assumptions C90_refuted.
