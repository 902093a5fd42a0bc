(** C25: script parameters. *)
From stdpp Require Import list.
From Verif Require Import Base Dict_proofs Params.

(** ** Specification *)
Definition passed {V} (given : option (list (pystr * V))) (name : pystr) (v : V) : Prop := exists d, given = Some d /\ dget name d = Some v.
(** the attribute [name] of a class is [v]: its own one, or an inherited one that it does not override *)
Definition attribute {V} (c : pcls V) (name : pystr) (v : V) : Prop :=
  dget name (cl_own _ c) = Some v \/ ((forall w, dget name (cl_own _ c) <> Some w) /\ dget name (cl_inherited _ c) = Some v).
(** whether [v] is what the parameter or attribute [name] must be *)
Definition value_is {V} (given : option (list (pystr * V))) (c : pcls V) (name : pystr) (v : V) : Prop :=
  (name ∈ cl_annotations _ c /\ passed given name v) \/
  (name ∈ cl_annotations _ c /\ (forall w, ~ passed given name w) /\ attribute c name v) \/
  (name ∉ cl_annotations _ c /\ attribute c name v).
Definition required_missing {V} (given : option (list (pystr * V))) (c : pcls V) (name : pystr) : Prop :=
  name ∈ cl_annotations _ c /\ (forall v, ~ attribute c name v) /\ forall v, ~ passed given name v.

Section proofs.
  Context {V : Type}.
  Implicit Type c : pcls V.
  Definition given_value (given : option (list (pystr * V))) (n : pystr) : option V := match given with None => None | Some d => dget n d end.
  Lemma passed_iff given n v : passed given n v <-> given_value given n = Some v.
  Proof.
    unfold passed, given_value. split.
    - intros (d & -> & H). exact H.
    - destruct given; [eauto|discriminate].
  Qed.
  Lemma attribute_iff c n v : attribute c n v <-> class_attr _ c n = Some v.
  Proof. unfold attribute, class_attr. destruct (dget n (cl_own V c)) as [w|]; split; [intros [H|[H _]]; [exact H|destruct (H w); reflexivity]|left; assumption|intros [[=]|[_ H]]; exact H|right; split; [discriminate|assumption]]. Qed.
  Lemma no_attribute c n : (forall v, ~ attribute c n v) <-> class_attr _ c n = None.
  Proof. split; [intros H; destruct (class_attr V c n) as [v|] eqn:E; [destruct (H v); apply attribute_iff; exact E|reflexivity]|intros H v Hv; apply attribute_iff in Hv; congruence]. Qed.
  Lemma attr_set c n v m : class_attr _ (class_set _ c n v) m = if str_eqb m n then Some v else class_attr _ c m.
  Proof.
    unfold class_attr, class_set. cbn. destruct (str_eqb_spec m n) as [-> |Hne].
    - rewrite dget_dset_same. reflexivity.
    - rewrite dget_dset_other by congruence. reflexivity.
  Qed.
  Definition final given (names : list pystr) c m : option V :=
    if str_in m names then match given_value given m with Some v => Some v | None => class_attr _ c m end else class_attr _ c m.
  Lemma fill_spec given : forall names c,
    match fill _ names given c with
    | Ok c' => (forall m, class_attr _ c' m = final given names c m) /\ (forall m, m ∈ names -> final given names c m <> None)
    | Err e => exists l1 n l2, names = l1 ++ n :: l2 /\ e = missing n /\ given_value given n = None /\ class_attr _ c n = None /\
                 (forall m, m ∈ l1 -> final given names c m <> None)
    end.
  Proof.
    induction names as [|n names IH]; intros c; cbn [fill].
    - split; [reflexivity|]. intros m H. inversion H.
    - fold (given_value given n).
      assert (Hstep : forall v, (given_value given n = Some v \/ (given_value given n = None /\ class_attr _ c n = Some v)) ->
        forall m, final given names (class_set _ c n v) m = final given (n :: names) c m).
      { intros v Hv m. unfold final. cbn [str_in existsb]. change (existsb (str_eqb m) names) with (str_in m names). rewrite attr_set.
        destruct (str_eqb_spec m n) as [-> |Hne]; cbn [orb].
        - destruct Hv as [Hv|[Hv Hv2]]; rewrite Hv; destruct (str_in n names); congruence.
        - reflexivity. }
      destruct (given_value given n) as [v|] eqn:Hg; [|destruct (class_attr V c n) as [v|] eqn:Ha].
      1,2: specialize (IH (class_set _ c n v)); destruct (fill V names given (class_set _ c n v)) as [c'|e];
        [ destruct IH as [H1 H2]; split; [intros m; rewrite H1; apply Hstep; auto|];
          intros m Hm; apply elem_of_cons in Hm as [-> |Hm];
            [unfold final; cbn [str_in existsb]; rewrite str_eqb_refl; cbn [orb]; rewrite Hg; congruence
            |rewrite <- (Hstep v) by auto; apply H2; exact Hm]
        | destruct IH as (l1 & n' & l2 & -> & -> & H1 & H2 & H3); exists (n :: l1), n', l2; rewrite attr_set in H2;
          destruct (str_eqb n' n); [discriminate|]; split_and!; auto;
          intros m Hm; apply elem_of_cons in Hm as [-> |Hm];
            [unfold final; cbn [str_in existsb]; rewrite str_eqb_refl; cbn [orb]; rewrite Hg; congruence
            |rewrite <- (Hstep v) by auto; apply H3; exact Hm] ].
      exists [], n, names. split_and!; auto. intros m Hm. inversion Hm.
  Qed.
End proofs.

(** C25. Exactly the values passed, the defaults and nothing else. *)
Theorem C25_params : forall V (given : option (list (pystr * V))) (c c' : pcls V),
  decorate _ given c = Ok c' -> forall name v, attribute c' name v <-> value_is given c name v.
Proof.
  intros V given c c' E name v. pose proof (fill_spec given (cl_annotations _ c) c) as H. unfold decorate in E. rewrite E in H. destruct H as [H1 H2].
  rewrite attribute_iff, H1. unfold value_is, final. specialize (H2 name). unfold final in H2. rewrite attribute_iff, passed_iff. destruct (str_in name (cl_annotations V c)) eqn:Hin.
  - apply str_in_true in Hin. specialize (H2 Hin). destruct (given_value given name) as [w|] eqn:Hg.
    + split; [auto|]. intros [[_ H]|[(_ & H & _)|[H _]]]; [exact H|destruct (H w); apply passed_iff; exact Hg|contradiction].
    + split; [intros H; right; left; split_and!; auto; intros w; rewrite passed_iff; congruence|]. intros [[_ [=]]|[(_ & _ & H)|[H _]]]; [exact H|contradiction].
  - apply str_in_false in Hin. split; [auto|]. intros [[H _]|[[H _]|[_ H]]]; [contradiction..|exact H].
Qed.
Print Assumptions C25_params.
Theorem C25_missing : forall V (given : option (list (pystr * V))) (c : pcls V),
  ((exists e, decorate _ given c = Err e) <-> exists n, required_missing given c n) /\
  (forall e, decorate _ given c = Err e -> exists n, required_missing given c n /\ e = missing n /\ exists l1 l2, cl_annotations _ c = l1 ++ n :: l2 /\
     forall m, m ∈ l1 -> ~ required_missing given c m).
Proof.
  intros V given c. pose proof (fill_spec given (cl_annotations _ c) c) as H. unfold decorate.
  destruct (fill V (cl_annotations V c) given c) as [c'|e0].
  - destruct H as [H1 H2]. split; [|intros e; discriminate]. split; [intros [e E]; discriminate|].
    intros (n & Hn & Ha & Hp). apply no_attribute in Ha. destruct (H2 n Hn). unfold final. rewrite (proj2 (str_in_true _ _) Hn).
    destruct (given_value given n) as [v|] eqn:Hg; [|assumption]. destruct (Hp v). apply passed_iff. assumption.
  - destruct H as (l1 & n & l2 & Hl & -> & Hg & Ha & Hm).
    assert (Hreq : required_missing given c n).
    { split; [rewrite Hl; apply elem_of_app; right; left|]. split; [apply no_attribute; assumption|]. intros v. rewrite passed_iff. congruence. }
    split; [split; eauto|]. intros e E. assert (missing n = e) as <- by congruence. exists n. split; [assumption|]. split; [reflexivity|]. exists l1, l2. split; [assumption|].
    intros m Hm' (_ & Hma & Hmp). apply no_attribute in Hma. apply (Hm m Hm'). unfold final.
    destruct (given_value given m) as [v|] eqn:Hgm; [destruct (Hmp v); apply passed_iff; assumption|]. destruct (str_in m _); assumption.
Qed.
Print Assumptions C25_missing.
(** The dictionary passed to a script is what its [Params] sees; None means that nothing was passed. *)
Theorem C25_script_params : forall V (p : option (list (pystr * V))) n v,
  passed (script_params _ p) n v <-> passed p n v.
Proof.
  intros V p n v. unfold passed, script_params. destruct p as [d|]; cbn.
  - split; intros (d' & [= <-] & H); eauto.
  - split; [intros (d' & [= <-] & H); discriminate|intros (d' & [=] & _)].
Qed.
Print Assumptions C25_script_params.
Definition demo_class : pcls (option nat) :=
  Cls _ [lit "user"; lit "title"; lit "port"] [(lit "title", Some 1); (lit "other", Some 9)] [(lit "port", Some 80)].
Example C25_example :
  (c ← decorate _ (Some [(lit "user", Some 5); (lit "title", None); (lit "other", Some 3); (lit "extra", Some 4)]) demo_class;
   Ok (List.map (class_attr _ c) [lit "user"; lit "title"; lit "port"; lit "other"; lit "extra"]))
  = Ok [Some (Some 5); Some None; Some (Some 80); Some (Some 9); None].
Proof. vm_compute. reflexivity. Qed.
Example C25_example_missing : decorate _ (script_params _ None) demo_class = Err (missing (lit "user")).
Proof. vm_compute. reflexivity. Qed.
