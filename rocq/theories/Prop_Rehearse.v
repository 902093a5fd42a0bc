(** C97: a dry run of a script for groups, accounts, packages and units tells what the run will tell. *)
From Coq Require Import Lia ZifyBool ZifyN ZifyNat.
From stdpp Require Import gmap.
From Verif Require Import Base Utf8 Dict_proofs Codec Spec_Codec Paths Sys Spec_Sys Sys_proofs Dispatcher Client Spec_Session Spec_Remote Remote_run Digits Control Spec_Control Control_proofs
  Walk_proofs Quiet Prop_Control Op Op_proofs Files Files_plain Spec_Files Shell_proofs Steps Dir_proofs Remote_examples Files_examples Prop_Files System Spec_Commands Commands_proofs Package_proofs Prop_Package
  Spec_Account Query_proofs Account_proofs Account_run Shadow Prop_Account Spec_Service Prop_Service Spec_Footprint Footprint_proofs Prop_Footprint Spec_Script Spec_Tasks Prop_Tasks.
Local Open Scope nat_scope.

(** The steps of Prop_Tasks, with or without --dry. *)
Section rehearse.
  Variable exec : proc -> M xres.
  Variable sha512 : bytes -> bytes.
  Variable set_order : list pystr -> list pystr.
  Variable a : check_arg.
  Definition perform (dry : bool) (t : task) : W opres :=
    operation a match t with
    | Group g gid system => System.group exec sha512 dry g true gid system
    | User u uid group groups append system hash home shell comment => user exec sha512 dry u true uid group groups append system hash home shell comment
    | Packages packages present opts => pacman_package exec sha512 dry set_order packages present opts
    | Service unit state en => service exec sha512 dry unit state en false
    end.
  Lemma perform_real t : perform false t = carry_out exec sha512 set_order a t. Proof. destruct t; reflexivity. Qed.
End rehearse.

(** What a step is about is in [s'] as it was in [s]. *)
Section spec.
  Variable has : os -> pystr -> Prop.
  Variable value : properties.
  Definition as_before (t : task) (s s' : os) : Prop :=
    match t with
    | Group g _ _ => gid_of s' g = gid_of s g
    | User u _ _ _ _ _ _ _ _ _ =>
        entry s' u = entry s u /\ secret s' u = secret s u /\ (forall g, member s' g u <-> member s g u) /\
        forall b g, entry s u = Some b -> (g, pw_gid b) ∈ gids s' <-> (g, pw_gid b) ∈ gids s
    | Packages packages _ _ => forall p, p ∈ packages -> has s' p <-> has s p
    | Service unit _ _ => keeps_unit value unit s s'
    end.
  (** Names are names: the C library takes them, and they are not numbers. *)
  Definition named (t : task) : Prop :=
    match t with
    | Group g _ _ => c_string g /\ py_int 10 g = None
    | User u _ _ _ _ _ _ _ _ _ => c_string u /\ py_int 10 u = None
    | _ => True
    end.
End spec.

Section proof.
  Variable exec : proc -> M xres.
  Variable sha512 : bytes -> bytes.
  Variable set_order : list pystr -> list pystr.
  Variable has : os -> pystr -> Prop.
  Variable value : properties.
  Hypothesis Hstable : stable has.
  Hypothesis Hvalue : value_stable value.
  Hypothesis Hb : bounded exec.
  Hypothesis Hask : answers exec has pacman_ask by_code.
  Hypothesis Hshow : shows exec value.
  Variable a : check_arg.
  Notation perform := (perform exec sha512 set_order a).
  Notation as_before := (as_before has value).

  (** *** What a step says, as a relation between the state it finds and its result *)
  Definition says (i f : state) : opres := OpRes true (negb (py_eq (VDict i) (VDict f))) i f None.
  Definition told (t : task) (s : os) (x : opres) : Prop :=
    match t with
    | Group g gid _ => x = match gid_of s g with
        | None => says (group_state false None) (group_state true (or_int gid None))
        | Some n => says (group_state true (Some (Z.of_N n))) (group_state true (Some (pick_int gid (Z.of_N n))))
        end
    | User u uid group groups append _ hash home shell comment =>
        (exists b e h, complete s u b /\ getgrgid s (Z.of_N (pw_gid b)) = Ok e /\ secret s u = Some h /\
           x = says (now_user (entry_of s u b (gr_name e) h)) (want_user uid group groups append hash home shell comment (entry_of s u b (gr_name e) h))) \/
        ((forall b, entry s u = Some b -> ~ complete s u b) /\ x = says nobody (new_user uid group groups append hash home shell comment))
    | Packages packages present _ => exists l, NoDup l /\ (forall p, p ∈ l <-> p ∈ packages /\ has s p) /\
        x = says [(k_installed, vstrs (py_sorted l))] [(k_installed, vstrs (package_goal packages present))]
    | Service unit state en => exists cs ce, state_given value s false unit cs /\ enabled_given value s false unit ce /\
        x = says (service_before cs ce) (service_after state en)
    end.

  Lemma conclude_says i f m c x c' : conclude i f m c = (Ok x, c') -> x = says i f.
  Proof.
    unfold conclude, says. destruct (py_eq (VDict i) (VDict f)); [intros [= <- _]; reflexivity|]. intros E.
    apply bind_spec in E as [([] & c1 & _ & E)|(e & _ & [=])]. injection E as <- _. reflexivity.
  Qed.
  Lemma conclude_dry i f c x c' : conclude i f (mret tt) c = (Ok x, c') -> c' = c.
  Proof. unfold conclude. destruct (py_eq _ _); intros [= _ <-]; reflexivity. Qed.
  Lemma verdict_ok w c x c' : (w ≫= verdict a) c = (Ok x, c') -> w c = (Ok x, c').
  Proof.
    intros E. apply bind_spec in E as [(y & c1 & E1 & E)|(e & _ & [=])]. unfold verdict in E. destruct (seen_check a && negb (or_success y)); [discriminate|]. injection E as <- <-. exact E1.
  Qed.
  Lemma given_cases s unit : state_given value s false unit (if str_in (value s false (lit "ActiveState") unit) [lit "active"; lit "activating"] then lit "started" else lit "stopped").
  Proof.
    unfold state_given, running. destruct (str_in _ _) eqn:Es.
    - left. split; [reflexivity|]. apply str_in_true in Es. rewrite !elem_of_cons in Es. destruct Es as [Es|[Es|Es]]; [auto|auto|inversion Es].
    - right. split; [reflexivity|]. apply str_in_false in Es. rewrite !not_elem_of_cons in Es. destruct Es as (E1 & E2 & _). intros [H|H]; contradiction.
  Qed.
  Lemma perform_told dry t c x c' : named t -> perform dry t c = (Ok x, c') -> told t (sysof c) x /\ (dry = true -> unaffected (sysof c) (sysof c')).
  Proof.
    unfold Prop_Rehearse.perform. destruct t as [g gid sy|u uid group groups append sy hash home shell comment|packages present opts|unit state en]; cbn [named told]; intros Hn E.
    - destruct Hn as [Hg Hi]. rewrite (operation_plain a _ _ c (group_plain exec sha512 dry g true gid sy)) in E. apply verdict_ok in E.
      unfold group_body in E. apply bind_spec in E as [(cur & c1 & E1 & E)|(e & _ & [=])]. apply query_group_any in E1 as (_ & H2 & H3); [|assumption..]. rewrite gid_of_entry.
      assert (K : dry = true -> unaffected (sysof c) (sysof c')).
      { intros ->. destruct cur; apply conclude_dry in E as ->; rewrite H2; apply unaffected_refl. }
      destruct cur as [y|].
      + destruct H3 as (e & He & ->). rewrite He. cbn [fmap option_fmap option_map]. split; [|exact K]. exact (conclude_says _ _ _ _ _ _ E).
      + rewrite H3. cbn [fmap option_fmap option_map]. split; [|exact K]. exact (conclude_says _ _ _ _ _ _ E).
    - destruct Hn as [Hu Hi]. rewrite (operation_plain a _ _ c (user_plain exec sha512 dry u true uid group groups append sy hash home shell comment)) in E. apply verdict_ok in E.
      unfold user_body in E. apply bind_spec in E as [(cur & c1 & E1 & E)|(e & _ & [=])]. apply query_user_any in E1 as (_ & H2 & H3); [|assumption..].
      assert (K : dry = true -> unaffected (sysof c) (sysof c')).
      { intros ->. destruct cur; apply conclude_dry in E as ->; rewrite H2; apply unaffected_refl. }
      split; [|exact K]. destruct cur as [y|].
      + left. destruct H3 as (b & e & h & C1 & C2 & C3 & ->). exists b, e, h. split; [exact C1|]. split; [exact C2|]. split; [exact C3|]. exact (conclude_says _ _ _ _ _ _ E).
      + right. split; [exact H3|]. exact (conclude_says _ _ _ _ _ _ E).
    - unfold pacman_package in E. rewrite (operation_plain a _ _ c (generic_plain dry set_order packages present _ _ _)) in E. apply verdict_ok in E.
      apply bind_spec in E as [(l & c1 & E1 & E)|(e & _ & [=])].
      destruct (probe_all_does exec has Hstable pacman_ask (pacman_has exec sha512) (fun p => pacman_has_does exec sha512 has Hstable Hb p Hask) packages [] c _ _ E1) as (_ & k & _ & Hu & asked & _ & _ & Hl).
      destruct (Hl l eq_refl) as (_ & L1 & L2). split.
      + exists l. split; [apply L1; constructor|]. split; [|exact (conclude_says _ _ _ _ _ _ E)]. intros p. rewrite L2. split; [intros [H|H]; [inversion H|exact H]|auto].
      + intros ->. apply conclude_dry in E as ->. exact Hu.
    - rewrite (operation_plain a _ _ c (service_plain exec sha512 dry unit state en false)) in E. apply verdict_ok in E. destruct (valid_state state); [|discriminate].
      unfold service_body in E. apply bind_spec in E as [(z & c1 & E1 & E)|(e & _ & [=])]. apply bind_spec in E as [(y & c2 & E2 & E)|(e & _ & [=])].
      destruct (show_does exec sha512 value Hb Hshow Hvalue _ _ _ _ _ E1) as (_ & k1 & _ & P2 & _ & P3). destruct (P3 z eq_refl) as [_ Hz].
      destruct (show_does exec sha512 value Hb Hshow Hvalue _ _ _ _ _ E2) as (_ & k2 & _ & Q2 & _ & Q3). destruct (Q3 y eq_refl) as [_ Hy]. rewrite (Hvalue _ _ _ _ _ P2) in Hy.
      cbv zeta in E. rewrite Hz, Hy in E. split.
      + eexists _, _. split; [apply given_cases|]. split; [|exact (conclude_says _ _ _ _ _ _ E)]. unfold enabled_given, enabled.
        destruct (str_eqb_spec (value (sysof c) false (lit "UnitFileState") unit) (lit "enabled")) as [H|H]; intuition congruence.
      + intros ->. apply conclude_dry in E as ->. eapply unaffected_trans; eassumption.
  Qed.

  Lemma same_elements (l l' : list pystr) : NoDup l -> NoDup l' -> (forall x, x ∈ l <-> x ∈ l') -> l ≡ₚ l'.
  Proof. intros H1 H2 H. apply NoDup_Permutation; assumption. Qed.
  Lemma want_groups_perm groups append l l' : l ≡ₚ l' -> want_groups groups append l = want_groups groups append l'.
  Proof.
    intros H. unfold want_groups. apply py_sorted_eq. destruct append.
    - apply same_elements; [apply dedup_spec|apply dedup_spec|]. intros x. rewrite !(proj1 (dedup_spec _)), !elem_of_app, H. reflexivity.
    - destruct (asks_list_cases groups) as [(r & _ & _ & Hr)|[_ Hr]]; rewrite !Hr; [reflexivity|exact H].
  Qed.
  (** If what a step is about is as before, it says the same. *)
  Lemma told_same t s s' x x' : tidy s -> tidy s' -> as_before t s s' -> told t s x -> told t s' x' -> x' = x.
  Proof.
    intros Ht Ht'. destruct t as [g gid sy|u uid group groups append sy hash home shell comment|packages present opts|unit state en]; cbn [Prop_Rehearse.as_before told].
    - intros -> -> ->. reflexivity.
    - intros (A1 & A2 & A3 & A4).
      assert (Hc : forall b, complete s' u b <-> complete s u b).
      { intros b. unfold complete. rewrite A1, A2. split; (intros (B1 & B2 & g & B3); split; [exact B1|]; split; [exact B2|]; exists g; apply (A4 b g B1); exact B3). }
      intros [(b & e & h & C1 & C2 & C3 & ->)|[N ->]] [(b' & e' & h' & C1' & C2' & C3' & ->)|[N' ->]].
      + pose proof C1 as (E1 & _ & _). pose proof C1' as (E1' & _ & _). assert (b' = b) as -> by congruence. assert (h' = h) as -> by congruence.
        assert (Hg : gr_name e' = gr_name e).
        { assert (F : forall s e, getgrgid s (Z.of_N (pw_gid b)) = Ok e -> tidy s -> complete s u b -> (gr_name e, pw_gid b) ∈ gids s).
          { intros z f Hf _ (_ & _ & Hz). apply getgrgid_found in Hz as (f' & F1 & F2). congruence. }
          pose proof (F s e C2 Ht C1) as G1. pose proof (F s' e' C2' Ht' C1') as G2. apply (A4 b _ E1) in G2. exact (tidy_numbers s _ _ _ Ht G1 G2). }
        assert (Hp : groups_of s' (pw_name b) ≡ₚ groups_of s (pw_name b)).
        { destruct (entry_some s u b E1) as [_ ->]. apply same_elements; [apply groups_of_nodup, Ht'|apply groups_of_nodup, Ht|]. intros g. rewrite !groups_of_spec. apply A3. }
        unfold entry_of. rewrite Hg. set (k := groups_of s (pw_name b)) in *. set (k' := groups_of s' (pw_name b)) in *. clearbody k k'.
        unfold says, now_user, want_user. cbn [ue_uid ue_group ue_groups ue_gecos ue_home ue_shell ue_hash].
        rewrite (want_groups_perm groups append k' k Hp). rewrite (proj2 (py_sorted_eq k' k) Hp). reflexivity.
      + exfalso. pose proof C1 as (E1 & _). apply (N' b); [congruence|apply Hc, C1].
      + exfalso. pose proof C1' as (E1' & _). apply (N b'); [congruence|apply Hc, C1'].
      + reflexivity.
    - intros A (l & L1 & L2 & ->) (l' & L1' & L2' & ->). replace (py_sorted l') with (py_sorted l); [reflexivity|]. apply py_sorted_eq, same_elements; [assumption..|].
      intros p. rewrite L2, L2'. split; intros [H1 H2]; (split; [exact H1|apply (A p H1), H2]).
    - intros [A1 A2] (cs & ce & S1 & S2 & ->) (cs' & ce' & S1' & S2' & ->).
      assert (cs' = cs) as ->.
      { unfold state_given in S1, S1'. rewrite A1 in S1'. destruct S1 as [[-> S1]|[-> S1]], S1' as [[-> S1']|[-> S1']]; try reflexivity; contradiction. }
      assert (ce' = ce) as ->.
      { unfold enabled_given in S2, S2'. rewrite A2 in S2'. destruct ce, ce'; intuition congruence. }
      reflexivity.
  Qed.

  (** ** The script *)
  Notation play dry := (play task (perform dry)).
  Lemma rehearsed l : Forall named l -> forall s0 c rs c' d ds d', tidy s0 -> unaffected s0 (sysof d) ->
    in_turn task (perform false) (fun t s => tidy s /\ as_before t s0 s) l c -> play false l c = (Ok rs, c') -> play true l d = (Ok ds, d') ->
    ds = rs /\ unaffected (sysof d) (sysof d').
  Proof.
    induction l as [|t l IH]; intros Hn s0 c rs c' d ds d' Ht Hd Hturn E1 E2.
    - injection E1 as <- _. injection E2 as <- <-. split; [reflexivity|apply unaffected_refl].
    - apply Forall_cons in Hn as [Hn1 Hn2]. destruct Hturn as [[T1 T2] T3]. cbn [Spec_Script.play] in E1, E2.
      apply bind_spec in E1 as [(x & c1 & E1 & E1')|(e & _ & [=])]. apply bind_spec in E1' as [(xs & c2 & E1' & E)|(e & _ & [=])]. injection E as <- _.
      apply bind_spec in E2 as [(y & d1 & E2 & E2')|(e & _ & [=])]. apply bind_spec in E2' as [(ys & d2 & E2' & E)|(e & _ & [=])]. injection E as <- <-.
      destruct (perform_told false t c x c1 Hn1 E1) as [K1 _]. destruct (perform_told true t d y d1 Hn1 E2) as [K2 K3]. specialize (K3 eq_refl).
      assert (Hb1 : as_before t (sysof d) (sysof c)).
      { revert T2. rewrite Hd. destruct t as [g gid sy|u uid group groups append sy hash home shell comment|packages present opts|unit state en]; cbn [Prop_Rehearse.as_before]; try exact (fun H => H).
        - intros H p Hp. rewrite (H p Hp). symmetry. apply (stable_iff has Hstable). unfold unaffected. destruct s0; reflexivity.
        - unfold keeps_unit, running, enabled. intros [H1 H2]. rewrite H1, H2. rewrite <- Hd. rewrite !(Hvalue _ _ _ _ _ Hd). tauto. }
      assert (y = x) as -> by (symmetry; eapply told_same; [| |exact Hb1|exact K2|exact K1]; [rewrite Hd; exact Ht|exact T1]).
      destruct (IH Hn2 s0 c1 xs c2 d1 ys d2 Ht) as [-> H]; [eapply unaffected_trans; eassumption|exact (T3 x c1 E1)|exact E1'|exact E2'|]. split; [reflexivity|]. eapply unaffected_trans; eassumption.
  Qed.
  (** Full statement: without the condition that each step finds what it is about as it was at first.  It is false, see below. *)
  Theorem C97_partial l c rs c' d ds d' : Forall named l -> tidy (sysof c) -> unaffected (sysof c) (sysof d) ->
    in_turn task (perform false) (fun t s => tidy s /\ as_before t (sysof c) s) l c ->
    play false l c = (Ok rs, c') -> play true l d = (Ok ds, d') -> ds = rs /\ unaffected (sysof d) (sysof d').
  Proof. intros Hn Ht Hd Hturn E1 E2. eapply rehearsed; eassumption. Qed.
End proof.
Print Assumptions C97_partial.

(** ** The script of C90 on the machine of the examples *)
Definition same_account (x y : option account) : bool :=
  match x, y with
  | Some b, Some d => bool_decide (pw_name b = pw_name d /\ pw_uid b = pw_uid d /\ pw_gid b = pw_gid d /\ pw_gecos b = pw_gecos d /\ pw_dir b = pw_dir d /\ pw_shell b = pw_shell d)
  | None, None => true
  | _, _ => false
  end.
Lemma same_account_true x y : same_account x y = true -> x = y.
Proof.
  destruct x as [[]|], y as [[]|]; cbn; try discriminate; [|reflexivity]. intros H. apply bool_decide_eq_true in H as (-> & -> & -> & -> & -> & ->). reflexivity.
Qed.
Definition numbered (s : os) (n : N) : list pystr := (List.filter (fun x => N.eqb x.2 n) (gids s)).*1.
Lemma numbered_spec s n g : g ∈ numbered s n <-> (g, n) ∈ gids s.
Proof.
  unfold numbered. rewrite elem_of_list_fmap. split.
  - intros ([g' m] & -> & H). apply elem_of_list_In, filter_In in H as [H1 H2]. cbn in H2. apply N.eqb_eq in H2 as ->. apply elem_of_list_In, H1.
  - intros H. exists (g, n). split; [reflexivity|]. apply elem_of_list_In, filter_In. split; [apply elem_of_list_In, H|]. apply N.eqb_refl.
Qed.
Definition before_check (t : task) (s s' : os) : bool :=
  match t with
  | Group g _ _ => bool_decide (gid_of s' g = gid_of s g)
  | User u _ _ _ _ _ _ _ _ _ =>
      same_account (entry s' u) (entry s u) && bool_decide (secret s' u = secret s u) && bool_decide (groups_of s' u = groups_of s u) &&
      match entry s u with Some b => bool_decide (numbered s' (pw_gid b) = numbered s (pw_gid b)) | None => true end
  | Packages packages _ _ => forallb (fun p => bool_decide (dget (shelf p) (o_env s') = dget (shelf p) (o_env s))) packages
  | Service unit _ _ => bool_decide (kept s' false (lit "ActiveState") unit = kept s false (lit "ActiveState") unit /\ kept s' false (lit "UnitFileState") unit = kept s false (lit "UnitFileState") unit)
  end.
Lemma before_checked t s s' : before_check t s s' = true -> as_before stocked kept t s s'.
Proof.
  destruct t as [g gid sy|u uid group groups append sy hash home shell comment|packages present opts|unit state en]; cbn [before_check as_before].
  - apply bool_decide_eq_true.
  - rewrite !andb_true_iff. intros (((H1 & H2) & H3) & H4). apply same_account_true in H1. apply bool_decide_eq_true in H2, H3. split; [exact H1|]. split; [exact H2|]. split.
    + intros g. rewrite <- !groups_of_spec, H3. reflexivity.
    + intros b g Hb. rewrite Hb in H4. apply bool_decide_eq_true in H4. rewrite <- !numbered_spec, H4. reflexivity.
  - rewrite forallb_forall. intros H p Hp. apply elem_of_list_In in Hp. specialize (H p Hp). apply bool_decide_eq_true in H. unfold stocked. rewrite H. reflexivity.
  - intros H. apply bool_decide_eq_true in H as [H1 H2]. unfold keeps_unit, running, enabled. rewrite H1, H2. tauto.
Qed.
Fixpoint befores_check (does : task -> W opres) (s0 : os) (l : list task) (c : ctl) : bool :=
  match l with [] => true | t :: l => tidyb (sysof c) && before_check t s0 (sysof c) && match does t c with (Ok _, c1) => befores_check does s0 l c1 | _ => true end end.
Lemma befores_checked does s0 l : forall c, befores_check does s0 l c = true -> in_turn task does (fun t s => tidy s /\ as_before stocked kept t s0 s) l c.
Proof.
  induction l as [|t l IH]; intros c H; [exact I|]. cbn [befores_check] in H. apply andb_true_iff in H as [H1 H2]. apply andb_true_iff in H1 as [H1 H3]. split.
  - split; [apply tidy_checked, H1|apply before_checked, H3].
  - intros res c1 E. rewrite E in H2. apply IH, H2.
Qed.
Definition ex_rehearse (dry : bool) := play task (perform machine fake_hash (fun l => l) NotGiven dry).
(** There is no vim, and wheel has its number: the first two steps change nothing, the others do. *)
Definition ex_script2 : list task := Packages [vim] false None :: Group wheel (Some 10%Z) false :: tail ex_script.
Example C97_case :
  (bounded machine /\ answers machine stocked pacman_ask by_code /\ shows machine kept /\ stable stocked /\ value_stable kept) /\
  Forall named ex_script2 /\ tidy (sysof office) /\ fine office /\
  in_turn task (perform machine fake_hash (fun l => l) NotGiven false) (fun t s => tidy s /\ as_before stocked kept t (sysof office) s) ex_script2 office /\
  ran (ex_rehearse false ex_script2 office) = true /\ ran (ex_rehearse true ex_script2 office) = true /\
  map or_changed (results_in (ex_rehearse true ex_script2 office)) = [false; false; true; true; true; true].
Proof.
  split; [split; [apply machine_bounded|]; split; [apply machine_asks|]; split; [apply machine_shows|]; split; [apply stocked_stable|apply systemd_stable]|]. split.
  { unfold ex_script2, ex_script. cbn [tail]. constructor; [exact I|]. constructor; [split; [split; [text|dec]|vm_compute; reflexivity]|]. constructor; [split; [split; [text|dec]|vm_compute; reflexivity]|].
    constructor; [split; [apply bob_string|vm_compute; reflexivity]|]. constructor; [split; [apply carol_string|vm_compute; reflexivity]|]. constructor; [exact I|constructor]. }
  split; [apply tidy_checked; vm_compute; reflexivity|]. split; [apply office_fine|]. split; [apply befores_checked; vm_compute; reflexivity|].
  split; [vm_compute; reflexivity|]. split; vm_compute; reflexivity.
Qed.

(** Two steps ask for the same package: the dry run announces two changes, the run makes one. *)
Definition ex_twice : list task := [Packages [vim] true None; Packages [vim; git] true None; Packages [git] true None].
Theorem C97_refuted : exists exec has value l c rs c' ds d',
  (bounded exec /\ shadow_utils exec /\ answers exec has pacman_ask by_code /\ installs exec has (pacman_sync []) /\ removes exec has (pacman_erase []) /\ shows exec value /\ obeys exec value /\ stable has /\ value_stable value) /\
  Forall named l /\ fine c /\ tidy (sysof c) /\
  play task (perform exec fake_hash (fun l => l) NotGiven false) l c = (Ok rs, c') /\ play task (perform exec fake_hash (fun l => l) NotGiven true) l c = (Ok ds, d') /\
  map or_changed rs = [true; true; false] /\ map or_changed ds = [true; true; true].
Proof.
  set (f := ex_rehearse false ex_twice office). set (g := ex_rehearse true ex_twice office). exists machine, stocked, kept, ex_twice, office, (results_in f), (snd f), (results_in g), (snd g).
  split.
  { split; [apply machine_bounded|]. split; [apply machine_accounts|]. split; [apply machine_asks|]. split; [apply machine_installs|]. split; [apply machine_removes|]. split; [apply machine_shows|].
    split; [apply machine_obeys|]. split; [apply stocked_stable|apply systemd_stable]. }
  split; [repeat (constructor; [exact I|]); constructor|]. split; [apply office_fine|]. split; [apply tidy_checked; vm_compute; reflexivity|].
  split; [apply ran_is; vm_compute; reflexivity|]. split; [apply ran_is; vm_compute; reflexivity|]. split; vm_compute; reflexivity.
Qed.
Print Assumptions C97_refuted.
