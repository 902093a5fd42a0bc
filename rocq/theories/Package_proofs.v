From Coq Require Import Lia ZifyBool ZifyN ZifyNat.
From stdpp Require Import gmap sorting.
From Verif Require Import Base Utf8 Dict_proofs Codec Spec_Codec Paths Sys Spec_Sys Sys_proofs Dispatcher Client Spec_Session Spec_Remote Remote_run Control Spec_Control Control_proofs
  Walk_proofs Quiet Op Op_proofs Files Files_plain Spec_Files Shell_proofs Steps System Spec_Commands Commands_proofs.
Local Open Scope nat_scope.

(** *** sorting *)
Lemma str_leb_refl a : str_leb a a = true.
Proof. induction a as [|x a IH]; [reflexivity|]. cbn. rewrite IH, N.eqb_refl. cbn. apply orb_true_r. Qed.
Lemma str_leb_total a b : str_leb a b = true \/ str_leb b a = true.
Proof.
  revert b. induction a as [|x a IH]; intros [|y b]; cbn; auto. destruct (N.lt_trichotomy x y) as [H|[-> |H]].
  - left. apply N.ltb_lt in H. rewrite H. reflexivity.
  - rewrite N.eqb_refl. cbn. destruct (IH b) as [-> | ->]; [left|right]; apply orb_true_r.
  - right. apply N.ltb_lt in H. rewrite H. reflexivity.
Qed.
Lemma str_leb_trans a b c : str_leb a b = true -> str_leb b c = true -> str_leb a c = true.
Proof.
  revert b c. induction a as [|x a IH]; intros [|y b] [|z c]; cbn; auto; try discriminate.
  rewrite !orb_true_iff, !andb_true_iff, !N.ltb_lt, !N.eqb_eq. intros [H1|[-> H1]] [H2|[-> H2]].
  - left. lia.
  - left. lia.
  - left. lia.
  - right. eauto.
Qed.
Lemma str_leb_anti a b : str_leb a b = true -> str_leb b a = true -> a = b.
Proof.
  revert b. induction a as [|x a IH]; intros [|y b]; cbn; auto; try discriminate.
  rewrite !orb_true_iff, !andb_true_iff, !N.ltb_lt, !N.eqb_eq. intros [H1|[-> H1]] [H2|[H3 H2]]; try lia. f_equal. auto.
Qed.
Definition str_le (a b : pystr) : Prop := str_leb a b = true.
Global Instance str_le_trans : Transitive str_le. Proof. intros a b c. apply str_leb_trans. Qed.
Global Instance str_le_anti : AntiSymm (=) str_le. Proof. intros a b. apply str_leb_anti. Qed.
Lemma insert_str_perm x l : insert_str x l ≡ₚ x :: l.
Proof. induction l as [|y l IH]; [reflexivity|]. cbn. destruct (str_leb x y); [reflexivity|]. rewrite IH. constructor. Qed.
Lemma py_sorted_perm l : py_sorted l ≡ₚ l.
Proof. induction l as [|x l IH]; [reflexivity|]. cbn. fold (py_sorted l). rewrite insert_str_perm, IH. reflexivity. Qed.
Lemma insert_str_sorted x l : Sorted str_le l -> Sorted str_le (insert_str x l).
Proof.
  induction l as [|y l IH]; intros H; cbn.
  - repeat constructor.
  - destruct (str_leb x y) eqn:E; [constructor; [exact H|constructor; exact E]|].
    inversion H as [|? ? H1 H2]; subst. constructor; [apply IH; exact H1|].
    assert (Hyx : str_le y x) by (destruct (str_leb_total x y) as [H3|H3]; [congruence|exact H3]).
    destruct l as [|z l]; cbn; [constructor; exact Hyx|]. destruct (str_leb x z); constructor; [exact Hyx|]. inversion H2; assumption.
Qed.
Lemma py_sorted_sorted l : Sorted str_le (py_sorted l).
Proof. induction l as [|x l IH]; [constructor|]. cbn. apply insert_str_sorted. exact IH. Qed.
Lemma py_sorted_eq l l' : py_sorted l = py_sorted l' <-> l ≡ₚ l'.
Proof.
  split; intros H.
  - rewrite <- (py_sorted_perm l), <- (py_sorted_perm l'), H. reflexivity.
  - apply (Sorted_unique str_le); [apply py_sorted_sorted..|]. rewrite !py_sorted_perm. exact H.
Qed.
Lemma py_sorted_elem x l : x ∈ py_sorted l <-> x ∈ l.
Proof. rewrite py_sorted_perm. reflexivity. Qed.
Lemma py_eq_vstrs l l' : py_eq (vstrs l) (vstrs l') = bool_decide (l = l').
Proof.
  revert l'. induction l as [|x l IH]; intros [|y l']; try reflexivity. specialize (IH l').
  change (py_eq (vstrs (x :: l)) (vstrs (y :: l'))) with (str_eqb x y && py_eq (vstrs l) (vstrs l')). rewrite IH.
  destruct (str_eqb_spec x y) as [-> |Hne]; cbn.
  - apply bool_decide_ext. split; [intros ->; reflexivity|congruence].
  - symmetry. apply bool_decide_eq_false. congruence.
Qed.
Lemma dedup_spec l : (forall x, x ∈ dedup l <-> x ∈ l) /\ NoDup (dedup l).
Proof.
  induction l as [|x l [IH1 IH2]]; [split; [reflexivity|constructor]|]. cbn. split.
  - intros y. rewrite !elem_of_cons, elem_of_list_filter, IH1. destruct (decide (y = x)) as [-> |]; intuition.
  - constructor; [rewrite elem_of_list_filter; intros [H _]; congruence|]. apply NoDup_filter. exact IH2.
Qed.
Lemma str_in_spec x l : str_in x l = true <-> x ∈ l.
Proof.
  unfold str_in. rewrite existsb_exists. setoid_rewrite <- elem_of_list_In. split.
  - intros (y & H1 & H2). destruct (str_eqb_spec x y); [congruence|discriminate].
  - intros H. exists x. split; [exact H|]. destruct (str_eqb_spec x x); congruence.
Qed.

Lemma bytes_prefix_spec x b : bytes_prefix x b = true <-> exists y, b = x ++ y.
Proof.
  revert b. induction x as [|c x IH]; intros b; cbn; [split; eauto|]. destruct b as [|d b].
  - split; [discriminate|]. intros [y [=]].
  - rewrite andb_true_iff, bool_decide_eq_true, IH. split.
    + intros [-> [y ->]]. eauto.
    + intros [y [= -> ->]]. eauto.
Qed.
Lemma bytes_in_spec x b : bytes_in x b = true <-> exists y z, b = y ++ x ++ z.
Proof.
  induction b as [|d b IH]; cbn; rewrite orb_true_iff, bytes_prefix_spec.
  - split.
    + intros [[z E]|[=]]. exists [], z. exact E.
    + intros (y & z & E). destruct y; [|discriminate]. left. eauto.
  - rewrite IH. split.
    + intros [[z E]|(y & z & ->)]; [exists [], z; exact E|exists (d :: y), z; reflexivity].
    + intros (y & z & E). destruct y as [|d' y]; [left; eauto|]. injection E as <- ->. right. eauto.
Qed.

(** *** the operation without its bookkeeping *)
Section plain.
  Variable dry : bool.
  Variable set_order : list pystr -> list pystr.
  Definition package_work (packages : list pystr) (present : bool) (install uninstall : pystr -> W unit) (installed : list pystr) : W unit :=
    if dry then mret tt
    else if present then for_each install (set_order (List.filter (fun p => negb (str_in p installed)) (dedup packages)))
    else for_each uninstall (set_order installed).
  Definition package_goal (packages : list pystr) (present : bool) : list pystr := if present then py_sorted packages else [].
  Lemma generic_plain packages present is_installed install uninstall :
    yields (generic_package dry set_order packages present is_installed install uninstall) new_op
      (installed ← probe_all is_installed packages [];
       conclude [(k_installed, vstrs (py_sorted installed))] [(k_installed, vstrs (package_goal packages present))] (package_work packages present install uninstall installed)).
  Proof.
    unfold generic_package, new_op. eapply yields_bind; [apply keeps_lift|]. intros installed. apply yields_initial. apply yields_final.
    replace (if present then vstrs (py_sorted packages) else vstrs []) with (vstrs (package_goal packages present)) by (destruct present; reflexivity).
    apply yields_conclude. unfold package_work. destruct dry; [apply keeps_ret|]. destruct present; apply keeps_lift.
  Qed.
  Lemma package_state_eq l l' : py_eq (VDict [(k_installed, vstrs l)]) (VDict [(k_installed, vstrs l')]) = bool_decide (l = l').
  Proof. change (py_eq (vstrs l) (vstrs l') && true = bool_decide (l = l')). rewrite andb_true_r. apply py_eq_vstrs. Qed.
End plain.

Section package.
  Variable exec : proc -> M xres.
  Variable sha512 : bytes -> bytes.
  Variable set_order : list pystr -> list pystr.
  Hypothesis Horder : forall l, set_order l ≡ₚ l.
  Variable has : os -> pystr -> Prop.
  Hypothesis Hstable : stable has.
  Hypothesis Hb : bounded exec.
  Notation does := (does exec).
  Notation lacks := (lacks has).
  Notation package_outcome := (package_outcome has).

  Lemma stable_iff s s' p : unaffected s s' -> has s p <-> has s' p.
  Proof. intros H. split; apply Hstable; [exact H|]. unfold unaffected in *. rewrite H. destruct s; reflexivity. Qed.

  Definition probed (query : pystr -> list pystr) (p : pystr) s (l : list (list pystr)) s' (r : result bool) : Prop :=
    unaffected s s' /\ ((l = [] /\ exists e, r = Err e) \/ (l = [query p] /\ forall b, r = Ok b -> (b = true <-> has s p))).
  Lemma pacman_has_does p : answers exec has pacman_query by_code -> does (pacman_has exec sha512 p) (probed pacman_query p).
  Proof.
    intros Hq. unfold pacman_has. eapply does_bind; [apply run_does|intros; apply does_ret|..].
    - intros s l s' e [(-> & H & _)|(-> & q & s1 & x & H1 & H2 & H3 & _)]; [split; [exact H|]; left; eauto|].
      destruct (Hq p q s1 x s' H3 H2) as [H4 _]. split; [eapply unaffected_trans; eassumption|]. right. split; [reflexivity|]. intros b [=].
    - intros s l1 s1 z l2 s2 r H (-> & -> & ->). apply ran_ok in H as (-> & q & s3 & rc & out & err & H1 & H2 & H3 & -> & _); [|assumption].
      destruct (Hq p q s3 _ s1 H3 H2) as [H4 H5]. split; [eapply unaffected_trans; eassumption|]. right. split; [reflexivity|].
      intros b [= <-]. rewrite (stable_iff s s3 p H1). apply (H5 rc out err _ eq_refl). unfold by_code. cbn. lia.
  Qed.
  Lemma marked_has_does (query : pystr -> list pystr) marker p :
    answers exec has query (by_text marker) ->
    does (r ← crun exec sha512 (query p); mret (match cr_stdout r with Some b => bytes_in marker b | None => false end)) (probed query p).
  Proof.
    intros Hq. eapply does_bind; [apply run_does|intros; apply does_ret|..].
    - intros s l s' e [(-> & H & _)|(-> & q & s1 & x & H1 & H2 & H3 & _)]; [split; [exact H|]; left; eauto|].
      destruct (Hq p q s1 x s' H3 H2) as [H4 _]. split; [eapply unaffected_trans; eassumption|]. right. split; [reflexivity|]. intros b [=].
    - intros s l1 s1 z l2 s2 r H (-> & -> & ->). apply ran_ok in H as (-> & q & s3 & rc & out & err & H1 & H2 & H3 & -> & H0); [|assumption].
      destruct (Hq p q s3 _ s1 H3 H2) as [H4 H5]. split; [eapply unaffected_trans; eassumption|]. right. split; [reflexivity|].
      intros b [= <-]. rewrite (stable_iff s s3 p H1). apply (H5 rc out err _ eq_refl). split; [auto|apply bytes_in_spec].
  Qed.

  Lemma probe_all_does query f : (forall p, does (f p) (probed query p)) -> forall packages acc,
    does (probe_all f packages acc) (fun s l s' r => unaffected s s' /\ exists asked, l = query <$> asked /\ asked `prefix_of` packages /\
      forall installed, r = Ok installed -> asked = packages /\ (NoDup acc -> NoDup installed) /\
        forall p, p ∈ installed <-> p ∈ acc \/ (p ∈ packages /\ has s p)).
  Proof.
    intros Hf packages. induction packages as [|p packages IH]; intros acc.
    - cbn. eapply does_mono; [apply does_ret|]. intros s l s' r (-> & -> & ->). split; [apply unaffected_refl|]. exists []. split; [reflexivity|].
      split; [reflexivity|]. intros installed [= <-]. split; [reflexivity|]. split; [auto|]. intros p. split; [auto|]. intros [H|[H _]]; [exact H|].
      inversion H.
    - cbn [probe_all]. eapply does_bind; [apply Hf|intros b; apply IH|..].
      + intros s l s' e [H1 [[-> _]|[-> _]]]; (split; [exact H1|]).
        * exists []. split; [reflexivity|]. split; [apply prefix_nil|]. intros ? [=].
        * exists [p]. split; [reflexivity|]. split; [apply prefix_cons, prefix_nil|]. intros ? [=].
      + intros s l1 s1 b l2 s2 r [H1 [[_ [e [=]]]|[-> H2]]] (H3 & asked & -> & H4 & H5). specialize (H2 b eq_refl).
        split; [eapply unaffected_trans; eassumption|]. exists (p :: asked). split; [reflexivity|]. split; [apply prefix_cons; exact H4|].
        intros installed Hr. destruct (H5 installed Hr) as (-> & H6 & H7). split; [reflexivity|]. split.
        * intros Hacc. apply H6. destruct b; [|exact Hacc]. destruct (str_in p acc) eqn:Ein; [exact Hacc|]. apply NoDup_app. split; [exact Hacc|].
          split; [|apply NoDup_singleton]. intros x Hx ->%elem_of_list_singleton. apply str_in_spec in Hx. congruence.
        * intros x. rewrite H7, elem_of_cons, <- (stable_iff s s1 x H1). destruct b.
          -- assert (Hp : has s p) by (apply H2; reflexivity). destruct (str_in p acc) eqn:Ein.
             ++ apply str_in_spec in Ein. split; [intuition|]. intros [H|[[-> |H] H']]; auto.
             ++ rewrite elem_of_app, elem_of_list_singleton. split; [|intuition]. intros [[H| ->]|[H H']]; auto.
          -- assert (Hp : ~ has s p) by (intros H; apply H2 in H; discriminate). split; [intuition|]. intros [H|[[-> |H] H']]; auto. contradiction.
  Qed.

  Lemma install_each cmd f : installs exec has cmd -> (forall p, does (f p) (ranu exec (cmd p))) -> forall ps,
    does (for_each f ps) (fun s l s' r => (forall o, has s o -> has s' o) /\ exists acted, l = cmd <$> acted /\ acted `prefix_of` ps /\ (acted = [] -> unaffected s s') /\
      forall u, r = Ok u -> acted = ps /\ forall p, p ∈ ps -> has s' p).
  Proof.
    intros Hi Hf ps. induction ps as [|p ps IH].
    - cbn. eapply does_mono; [apply does_ret|]. intros s l s' r (-> & -> & ->). split; [auto|]. exists []. split; [reflexivity|]. split; [reflexivity|].
      split; [intros; apply unaffected_refl|]. intros u [= <-]. split; [reflexivity|]. intros p H. inversion H.
    - cbn [for_each]. eapply does_bind; [apply Hf|intros u; apply IH|..].
      + intros s l s' e [(-> & H1 & _)|(-> & q & s1 & x & H1 & H2 & H3 & _)].
        * split; [intros o; apply Hstable; exact H1|]. exists []. split; [reflexivity|]. split; [apply prefix_nil|]. split; [auto|]. intros ? [=].
        * destruct (Hi p q s1 x s' H3 H2) as [H4 _]. split; [intros o Ho; apply H4; eapply Hstable; eassumption|]. exists [p].
          split; [reflexivity|]. split; [apply prefix_cons, prefix_nil|]. split; [discriminate|]. intros ? [=].
      + intros s l1 s1 [] l2 s2 r [(_ & _ & e & [=])|(-> & q & s3 & x & H1 & H2 & H3 & H4)] (G1 & acted & -> & G2 & _ & G3).
        destruct (H4 eq_refl) as (out & err & ->). destruct (Hi p q s3 _ s1 H3 H2) as [H5 H6].
        split; [intros o Ho; apply G1, H5; eapply Hstable; eassumption|]. exists (p :: acted). split; [reflexivity|]. split; [apply prefix_cons; exact G2|].
        split; [discriminate|]. intros u Hu. destruct (G3 u Hu) as [-> G4]. split; [reflexivity|]. intros o [-> |Ho]%elem_of_cons; [|auto].
        apply G1. eapply H6. reflexivity.
  Qed.
  Lemma remove_each cmd f : removes exec has cmd -> (forall p, does (f p) (ranu exec (cmd p))) -> forall ps,
    does (for_each f ps) (fun s l s' r => (forall o, has s' o -> has s o) /\ exists acted, l = cmd <$> acted /\ acted `prefix_of` ps /\ (acted = [] -> unaffected s s') /\
      forall u, r = Ok u -> acted = ps /\ forall p, p ∈ ps -> ~ has s' p).
  Proof.
    intros Hi Hf ps. induction ps as [|p ps IH].
    - cbn. eapply does_mono; [apply does_ret|]. intros s l s' r (-> & -> & ->). split; [auto|]. exists []. split; [reflexivity|]. split; [reflexivity|].
      split; [intros; apply unaffected_refl|]. intros u [= <-]. split; [reflexivity|]. intros p H. inversion H.
    - cbn [for_each]. eapply does_bind; [apply Hf|intros u; apply IH|..].
      + intros s l s' e [(-> & H1 & _)|(-> & q & s1 & x & H1 & H2 & H3 & _)].
        * split; [intros o; apply (stable_iff s s' o H1)|]. exists []. split; [reflexivity|]. split; [apply prefix_nil|]. split; [auto|]. intros ? [=].
        * destruct (Hi p q s1 x s' H3 H2) as [H4 _]. split; [intros o Ho; apply (stable_iff s s1 o H1), H4; exact Ho|]. exists [p].
          split; [reflexivity|]. split; [apply prefix_cons, prefix_nil|]. split; [discriminate|]. intros ? [=].
      + intros s l1 s1 [] l2 s2 r [(_ & _ & e & [=])|(-> & q & s3 & x & H1 & H2 & H3 & H4)] (G1 & acted & -> & G2 & _ & G3).
        destruct (H4 eq_refl) as (out & err & ->). destruct (Hi p q s3 _ s1 H3 H2) as [H5 H6].
        split; [intros o Ho; apply (stable_iff s s3 o H1), H5, G1; exact Ho|]. exists (p :: acted). split; [reflexivity|]. split; [apply prefix_cons; exact G2|].
        split; [discriminate|]. intros u Hu. destruct (G3 u Hu) as [-> G4]. split; [reflexivity|]. intros o [-> |Ho]%elem_of_cons; [|auto].
        intros Ho. apply G1 in Ho. revert Ho. eapply H6. reflexivity.
  Qed.

  Lemma prefix_nodup {A} (l l' : list A) : l `prefix_of` l' -> NoDup l' -> NoDup l.
  Proof. intros [k ->] H. apply NoDup_app in H. apply H. Qed.
  Lemma prefix_elem {A} (l l' : list A) x : l `prefix_of` l' -> x ∈ l -> x ∈ l'.
  Proof. intros [k ->] H. apply elem_of_app. auto. Qed.

  Lemma generic_does query icmd ucmd f inst uninst packages (present : bool) a :
    (forall p, does (f p) (probed query p)) -> installs exec has icmd -> removes exec has ucmd ->
    (forall p, does (inst p) (ranu exec (icmd p))) -> (forall p, does (uninst p) (ranu exec (ucmd p))) ->
    does (operation a (generic_package false set_order packages present f inst uninst))
         (package_outcome query (if present then icmd else ucmd) packages present).
  Proof.
    intros Hf Hi Hu Hdi Hdu c r c' E. rewrite (operation_plain _ _ _ _ (generic_plain false set_order packages present f inst uninst)) in E. revert c r c' E.
    change (does ((installed ← probe_all f packages []; conclude [(k_installed, vstrs (py_sorted installed))] [(k_installed, vstrs (package_goal packages present))]
        (package_work false set_order packages present inst uninst installed)) ≫= verdict a)
       (package_outcome query (if present then icmd else ucmd) packages present)).
    set (todo := fun installed => set_order (if present then List.filter (fun p => negb (str_in p installed)) (dedup packages) else installed)).
    assert (Hwork : forall installed, does (package_work false set_order packages present inst uninst installed)
      (fun s l s' r => (forall o, if present then has s o -> has s' o else has s' o -> has s o) /\
         exists acted, l = (if present then icmd else ucmd) <$> acted /\ acted `prefix_of` todo installed /\ (acted = [] -> unaffected s s') /\
           forall u, r = Ok u -> acted = todo installed /\ forall p, p ∈ todo installed -> if present then has s' p else ~ has s' p)).
    { intros installed. unfold package_work. destruct present; [apply install_each|apply remove_each]; assumption. }
    intros c r c' E. apply bind_spec in E as [(x & c2 & E & Ev)|(e & E & ->)].
    2:{ apply bind_spec in E as [(installed & c1 & E1 & E2)|(e' & E1 & [= <-])].
        - destruct (probe_all_does query f Hf _ _ _ _ _ E1) as [P0 (l1 & P1 & P2 & asked & -> & P3 & P4)]. destruct (P4 _ eq_refl) as (-> & P5 & P6).
          assert (Hin : forall p, p ∈ todo installed -> p ∈ packages /\ lacks present (sysof c) p).
          { intros p. unfold todo. rewrite Horder. destruct present; [|rewrite P6; intros [H|H]; [inversion H|exact H]].
            rewrite elem_of_list_In, filter_In, <- elem_of_list_In, (proj1 (dedup_spec packages)). intros [H1 H2]. split; [exact H1|].
            cbn. intros H3. assert (H4 : p ∈ installed) by (apply P6; auto). apply str_in_spec in H4. rewrite H4 in H2. discriminate. }
          assert (Hnd : NoDup (todo installed)).
          { unfold todo. rewrite Horder. destruct present; [|apply P5; constructor]. apply NoDup_ListNoDup, List.NoDup_filter, NoDup_ListNoDup. apply dedup_spec. }
          unfold conclude in E2. destruct (py_eq _ _) in E2; [discriminate|]. apply bind_spec in E2 as [(u & c3 & E3 & [=])|(e' & E2 & [= <-])].
          destruct (Hwork installed _ _ _ E2) as [W0 (l2 & W1 & W2 & acted & -> & W3 & W4 & W5)].
          split; [rewrite W0, P0; reflexivity|]. eexists. split; [eapply history_app; eassumption|]. exists packages, acted. split; [reflexivity|].
          split; [reflexivity|]. split; [eapply prefix_nodup; eassumption|]. split; [intros p Hp; apply Hin; eapply prefix_elem; eassumption|].
          split; [intros o; specialize (W2 o); destruct present; intros Ho; [apply W2; eapply Hstable; eassumption|apply (stable_iff _ _ o P2), W2; exact Ho]|].
          split; [intros H; eapply unaffected_trans; [exact P2|apply W4; exact H]|]. intros x [=].
        - destruct (probe_all_does query f Hf _ _ _ _ _ E1) as [P0 (l1 & P1 & P2 & asked & -> & P3 & P4)]. split; [exact P0|]. eexists. split; [exact P1|].
          exists asked, []. split; [rewrite app_nil_r; reflexivity|]. split; [exact P3|]. split; [constructor|]. split; [intros p Hp; inversion Hp|].
          split; [intros o; destruct present; intros Ho; [eapply Hstable; eassumption|apply (stable_iff _ _ o P2); exact Ho]|]. split; [auto|]. intros x [=]. }
    apply bind_spec in E as [(installed & c1 & E1 & E2)|(e' & E1 & [=])].
    destruct (probe_all_does query f Hf _ _ _ _ _ E1) as [P0 (l1 & P1 & P2 & asked & -> & P3 & P4)]. destruct (P4 _ eq_refl) as (-> & P5 & P6).
    assert (Hin : forall p, p ∈ todo installed <-> p ∈ packages /\ lacks present (sysof c) p).
    { intros p. unfold todo. rewrite Horder. destruct present; [|rewrite P6; cbn; split; [intros [H|H]; [inversion H|exact H]|auto]].
      rewrite elem_of_list_In, filter_In, <- elem_of_list_In, (proj1 (dedup_spec packages)). split; intros [H1 H2]; (split; [exact H1|]); cbn in *.
      - intros H3. assert (H4 : p ∈ installed) by (apply P6; auto). apply str_in_spec in H4. rewrite H4 in H2. discriminate.
      - destruct (str_in p installed) eqn:Es; [|reflexivity]. apply str_in_spec, P6 in Es as [Es|[_ Es]]; [inversion Es|contradiction]. }
    assert (Hnd : NoDup (todo installed)).
    { unfold todo. rewrite Horder. destruct present; [|apply P5; constructor]. apply NoDup_ListNoDup, List.NoDup_filter, NoDup_ListNoDup. apply dedup_spec. }
    assert (Hgoal : py_eq (VDict [(k_installed, vstrs (py_sorted installed))]) (VDict [(k_installed, vstrs (package_goal packages present))]) = true -> todo installed = []).
    { rewrite package_state_eq, bool_decide_eq_true. unfold package_goal. destruct (todo installed) as [|p ps] eqn:Et; [reflexivity|]. intros Hg. exfalso.
      destruct (proj1 (Hin p)) as [H1 H2]; [left|]. destruct present; cbn in H2.
      - apply py_sorted_eq in Hg. rewrite <- Hg in H1. apply P6 in H1 as [H1|[_ H1]]; [inversion H1|contradiction].
      - assert (H3 : p ∈ py_sorted installed) by (apply py_sorted_elem, P6; auto). rewrite Hg in H3. inversion H3. }
    assert (Hback : present = false \/ NoDup packages -> todo installed = [] ->
      py_eq (VDict [(k_installed, vstrs (py_sorted installed))]) (VDict [(k_installed, vstrs (package_goal packages present))]) = true).
    { intros Hp Ht. rewrite package_state_eq, bool_decide_eq_true. unfold package_goal. 
      assert (Hno : forall p, p ∈ packages -> ~ lacks present (sysof c) p) by (intros p H1 H2; assert (H3 := proj2 (Hin p) (conj H1 H2)); rewrite Ht in H3; inversion H3).
      destruct present.
      - destruct Hp as [Hp|Hp]; [discriminate|]. apply py_sorted_eq. apply NoDup_Permutation; [apply P5; constructor|exact Hp|]. intros p. rewrite P6. split.
        + intros [H|[H _]]; [inversion H|exact H].
        + intros H. destruct (str_in p installed) eqn:Es; [apply str_in_spec, P6 in Es; exact Es|]. exfalso. apply (Hno p H). cbn. intros H1.
          assert (H2 : p ∈ installed) by (apply P6; auto). apply str_in_spec in H2. congruence.
      - destruct installed as [|p installed]; [reflexivity|]. exfalso. destruct (proj1 (P6 p)) as [H|[H1 H2]]; [left|inversion H|]. apply (Hno p H1). exact H2. }
    unfold conclude in E2. destruct (py_eq _ _) eqn:Eq in E2.
    - injection E2 as <- <-. unfold verdict in Ev. rewrite andb_false_r in Ev. injection Ev as <- <-. specialize (Hgoal Eq).
      split; [exact P0|]. eexists. split; [exact P1|]. exists packages, []. split; [rewrite app_nil_r; reflexivity|]. split; [reflexivity|].
      split; [constructor|]. split; [intros p Hp; inversion Hp|].
      split; [intros o; destruct present; intros Ho; [eapply Hstable; eassumption|apply (stable_iff _ _ o P2); exact Ho]|]. split; [auto|].
      intros x [= <-]. split; [reflexivity|]. split; [reflexivity|].
      assert (Hno : forall p, p ∈ packages -> ~ lacks present (sysof c) p) by (intros p H1 H2; assert (H3 := proj2 (Hin p) (conj H1 H2)); rewrite Hgoal in H3; inversion H3).
      split; [intros p H1 H2; destruct (Hno p H1 H2)|]. split; [|split; auto].
      intros p Hp. assert (H1 := Hno p Hp). destruct present; cbn in H1.
      + rewrite package_state_eq, bool_decide_eq_true in Eq. cbn in Eq. apply py_sorted_eq in Eq. rewrite <- Eq in Hp. apply P6 in Hp as [Hp|[_ Hp]]; [inversion Hp|].
        eapply Hstable; eassumption.
      + rewrite <- (stable_iff _ _ p P2). exact H1.
    - apply bind_spec in E2 as [(u & c3 & E3 & [= <- <-])|(e' & E3 & [=])].
      unfold verdict in Ev. rewrite andb_false_r in Ev. injection Ev as <- <-.
      destruct (Hwork installed _ _ _ E3) as [W0 (l2 & W1 & W2 & acted & -> & W3 & W4 & W5)]. destruct (W5 _ eq_refl) as [-> W6].
      split; [rewrite W0, P0; reflexivity|]. eexists. split; [eapply history_app; eassumption|]. exists packages, (todo installed). split; [reflexivity|].
      split; [reflexivity|]. split; [exact Hnd|]. split; [intros p Hp; apply Hin; exact Hp|].
      split; [intros o; specialize (W2 o); destruct present; intros Ho; [apply W2; eapply Hstable; eassumption|apply (stable_iff _ _ o P2), W2; exact Ho]|].
      split; [intros H; eapply unaffected_trans; [exact P2|apply W4; exact H]|]. intros x [= <-]. split; [reflexivity|]. split; [reflexivity|].
      split; [intros p H1 H2; apply Hin; auto|]. split; [|split; [discriminate|]].
      + intros p Hp. destruct (str_in p installed) eqn:Es.
        * apply str_in_spec in Es. assert (Hhas : has (sysof c) p) by (apply P6 in Es as [Es|[_ Es]]; [inversion Es|exact Es]). destruct present.
          -- apply (W2 p). eapply Hstable; eassumption.
          -- apply W6. apply Hin. auto.
        * assert (Hhas : ~ has (sysof c) p) by (intros H; assert (H1 : p ∈ installed) by (apply P6; auto); apply str_in_spec in H1; congruence). destruct present.
          -- apply W6. apply Hin. auto.
          -- intros H. apply Hhas. apply (stable_iff _ _ p P2). apply (W2 p). exact H.
      + intros H1 H2. rewrite (Hback H1 H2) in Eq. discriminate.
  Qed.

  (** on a connection that works *)
  Definition lives {A} (P : pystr -> Prop) (f : pystr -> W A) : Prop := forall p c, P p -> fine c -> exists a c', f p c = (Ok a, c') /\ fine c'.
  Lemma probe_all_lives f packages : lives (fun p => p ∈ packages) f -> forall acc c, fine c -> exists l c', probe_all f packages acc c = (Ok l, c') /\ fine c'.
  Proof.
    induction packages as [|p packages IH]; intros H acc c Hc; [exists acc, c; auto|]. cbn [probe_all].
    destruct (H p c) as (b & c1 & E & Hc1); [left|exact Hc|].
    destruct (IH ltac:(intros q; intros; apply H; [right; assumption|assumption]) (if b then (if str_in p acc then acc else acc ++ [p]) else acc) c1 Hc1) as (l & c2 & E2 & Hc2). exists l, c2. split; [|exact Hc2].
    unfold mbind, W_bind. rewrite E. exact E2.
  Qed.
  Lemma for_each_lives f ps : lives (fun p => p ∈ ps) f -> forall c, fine c -> exists c', for_each f ps c = (Ok tt, c') /\ fine c'.
  Proof.
    induction ps as [|p ps IH]; intros H c Hc; [exists c; auto|]. cbn [for_each].
    destruct (H p c) as ([] & c1 & E & Hc1); [left|exact Hc|].
    destruct (IH ltac:(intros q; intros; apply H; [right; assumption|assumption]) c1 Hc1) as (c2 & E2 & Hc2). exists c2. split; [|exact Hc2].
    unfold mbind, W_bind. rewrite E. exact E2.
  Qed.
  Lemma probe_all_from f packages : forall acc c l c', probe_all f packages acc c = (Ok l, c') -> forall p, p ∈ l -> p ∈ acc \/ p ∈ packages.
  Proof.
    induction packages as [|q packages IH]; intros acc c l c' E p Hp; [injection E as -> _; auto|].
    cbn [probe_all] in E. apply bind_spec in E as [(b & c1 & E1 & E2)|(e & _ & [=])]. destruct (IH _ _ _ _ E2 p Hp) as [H|H]; [|right; right; exact H].
    destruct b; [|auto]. destruct (str_in q acc); [auto|]. apply elem_of_app in H as [H| ->%elem_of_list_singleton]; [auto|right; left].
  Qed.
  Lemma generic_lives f inst uninst packages (present : bool) a c : fine c ->
    lives (fun p => p ∈ packages) f -> lives (fun p => p ∈ packages) (if present then inst else uninst) ->
    exists x c', operation a (generic_package false set_order packages present f inst uninst) c = (Ok x, c') /\ fine c'.
  Proof.
    intros Hc Hf Hi. rewrite (operation_plain _ _ _ _ (generic_plain false set_order packages present f inst uninst)).
    destruct (probe_all_lives f packages Hf [] c Hc) as (l & c1 & E1 & Hc1).
    assert (Hl : forall p, p ∈ l -> p ∈ packages) by (intros p Hp; destruct (probe_all_from _ _ _ _ _ _ E1 p Hp) as [H|H]; [inversion H|exact H]).
    unfold mbind at 2, W_bind. unfold mbind at 1, W_bind. rewrite E1. unfold conclude. destruct (py_eq _ _).
    - unfold verdict. cbv [mret W_ret]. rewrite andb_false_r. eauto.
    - assert (Hw : exists c', package_work false set_order packages present inst uninst l c1 = (Ok tt, c') /\ fine c').
      { unfold package_work. destruct present; apply for_each_lives; auto; intros p c2 Hp Hc2; apply Hi; auto.
        - rewrite Horder, elem_of_list_In, filter_In, <- elem_of_list_In, (proj1 (dedup_spec packages)) in Hp. apply Hp.
        - apply Hl. rewrite <- Horder. exact Hp. }
      destruct Hw as (c2 & E2 & Hc2). unfold mbind, W_bind. rewrite E2. unfold verdict. cbv [mret W_ret]. cbn [or_success]. rewrite andb_false_r. eauto.
  Qed.
  Lemma run_lives chk (cmd : pystr -> list pystr) (g : completed -> bool) (P : pystr -> Prop) : (forall p, P p -> sendable (cmd p) /\ dependable exec (cmd p) (fun rc _ => chk = true -> rc = 0%Z)) ->
    lives P (fun p => r ← run exec sha512 (cmd p) None true chk None None None None; mret (g r)).
  Proof.
    intros H p c Hp Hc. destruct (H p Hp) as [H1 H2]. destruct (run_healthy exec sha512 chk _ c _ Hb Hc H1 H2) as (rc & out & err & c' & G1 & G2 & E).
    unfold mbind, W_bind. rewrite E. destruct chk; cbn [andb]; [rewrite G1 by reflexivity; cbn|]; eexists _, c'; (split; [reflexivity|exact G2]).
  Qed.
  Lemma sh_lives (cmd : pystr -> list pystr) (P : pystr -> Prop) : (forall p, P p -> sendable (cmd p) /\ dependable exec (cmd p) ended) -> lives P (fun p => sh exec sha512 (cmd p)).
  Proof.
    intros H p c Hp Hc. destruct (H p Hp) as [H1 H2]. destruct (sh_healthy exec sha512 _ c Hb Hc H1 H2) as (c' & G2 & E). eauto.
  Qed.
End package.
