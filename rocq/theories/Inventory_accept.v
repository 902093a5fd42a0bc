(** When the variables of a host are accepted. *)
From Coq Require Import Lia ZifyBool ZifyNat.
From Verif Require Import Base Paths Urls Wrapper Spec_Wrapper Wrapper_proofs Ranks Spec_Ranks Ranks_proofs Dict_proofs Inventory
  Spec_Inventory Inventory_proofs Inventory_proofs2 Inventory_vars Inventory_values Inventory_ties Inventory_orders.

Section accept.
  Variable e : env.
  Variable A : pystr -> option ns.
  Hypothesis HA : files_constant e A.
  Variable inv : wrapper.
  Hypothesis Hinv : wf inv.
  Variable hs : list hostspec.
  Variable gs : option (list groupspec).
  Variable l : loaded.
  Hypothesis Hacc : accepted hs gs l.
  Notation o := (l_order l).
  Notation groups := (l_groups l).
  Variable host : pystr.
  Variable d : hostdecl.
  Hypothesis Hd : dget host (l_hosts l) = Some d.
  Hypothesis Hearly : s_early ∉ hd_groups d.
  Hypothesis Hvars : NoDup (lit "host" :: (hd_vars d).*1).

  Section attr.
    Variable x : pystr.
    Hypothesis Hne : x <> lit "host".
    Notation D := (defines e A inv l d x).
    Hypothesis Hfresh : fresh e A inv l d x.
    Notation step := (astep e A inv groups x).
    Notation oks := (aoks e A inv groups o x).

    Lemma early_get : dget x (early_ns e host d) = dget x (hd_vars d).
    Proof. unfold early_ns. cbn [dget]. rewrite (proj2 (str_eqb_false _ _) Hne). reflexivity. Qed.

    (** the definitions so far are exactly those recorded *)
    Definition tracks (done : list pystr) (st : option obj * list pystr) : Prop :=
      (forall p, p ∈ st.2 <-> p ∈ done /\ exists v, D p v) /\
      match st.1 with None => st.2 = [] | Some c => exists p, p ∈ st.2 /\ D p c end.

    Lemma tracks_step done st g v : tracks done st -> g ∉ done -> eff e A inv groups x g st.1 = Some v -> D g v ->
      changed st.1 v = true /\ tracks (g :: done) (step st g).
    Proof.
      intros [H1 H2] Hg E Hv.
      assert (Hc : changed st.1 v = true).
      { destruct st.1 as [c|]; cbn.
        - destruct H2 as (p & Hp & Hc). apply H1 in Hp as [Hp _]. rewrite (proj2 (N.eqb_neq _ _)); [reflexivity|].
          apply (proj1 Hfresh p g c v Hc Hv). intros ->. contradiction.
        - rewrite bool_decide_false; [reflexivity|]. eapply Hfresh. exact Hv. }
      split; [exact Hc|]. unfold astep. rewrite E, Hc. split; cbn [fst snd].
      - intros p. rewrite elem_of_app, elem_of_list_singleton, elem_of_cons, H1. split.
        + intros [[? ?]| ->]; eauto.
        + intros [[->|?] ?]; auto.
      - exists g. split; [apply elem_of_app; right; left|exact Hv].
    Qed.
    Lemma tracks_skip done st g : tracks done st -> eff e A inv groups x g st.1 = None -> (forall v, ~ D g v) -> tracks (g :: done) (step st g).
    Proof.
      intros [H1 H2] E Hno. unfold astep. rewrite E. split; [|exact H2]. intros p. rewrite elem_of_cons, H1. split.
      - intros [? ?]; auto.
      - intros [[->|?] [v Hv]]; [exfalso; eapply Hno; exact Hv|eauto].
    Qed.
    Lemma aok_tracks done st g : tracks done st -> g ∉ done ->
      (forall v, eff e A inv groups x g st.1 = Some v <-> D g v) ->
      tracks (g :: done) (step st g) /\
      (aok e A inv groups o x st g <-> forall p v w, p ∈ done -> D p v -> D g w -> (o_max o p < o_min o g)%Z).
    Proof.
      intros Ht Hg He. destruct (eff e A inv groups x g st.1) as [v|] eqn:E.
      - pose proof (proj1 (He v) eq_refl) as Hv. destruct (tracks_step _ _ _ _ Ht Hg E Hv) as [Hc Ht'].
        split; [exact Ht'|]. unfold aok. rewrite E. split.
        + intros H p u w Hp Hu Hw. apply (H v eq_refl Hc). apply (proj1 Ht). eauto.
        + intros H v' [= <-] _ p Hp. apply (proj1 Ht) in Hp as [Hp [u Hu]]. eauto.
      - assert (Hno : forall v, ~ D g v) by (intros v Hv; apply He in Hv; discriminate).
        split; [apply tracks_skip; assumption|]. unfold aok. rewrite E. split.
        + intros _ p u w _ _ Hw. exfalso. eapply Hno. exact Hw.
        + intros _ v [=].
    Qed.

    Lemma D_group g v : g <> s_all -> g <> s_early -> g ∈ hd_groups d -> gasg e A groups g x = Some v <-> D g v.
    Proof.
      intros H1 H2 H3. unfold defines, gasg. split; [auto|]. intros [[? _]|[[_ ?]|[? _]]]; [contradiction|assumption|contradiction].
    Qed.
    Lemma D_all v : s_all ∈ hd_groups d -> eff e A inv groups x s_all (dget x (hd_vars d)) = Some v <-> D s_all v.
    Proof.
      intros H3. unfold defines, eff, gasg. rewrite str_eqb_refl.
      destruct (assigned A (group_path e groups s_all) x) as [w|] eqn:Ea; split.
      - intros [= <-]. auto.
      - intros [[? _]|[[_ ?]|[_ [? _]]]]; [discriminate|assumption|discriminate].
      - destruct (dget x (hd_vars d)); [discriminate|]. intros E. right. right. auto.
      - intros [[? _]|[[_ ?]|[_ (_ & -> & ?)]]]; [discriminate|discriminate|assumption].
    Qed.

    Lemma aoks_rest : forall r done st, tracks done st -> NoDup r -> (forall g, g ∈ r -> g ∉ done) ->
      (forall g, g ∈ r -> g <> s_all /\ g <> s_early /\ g ∈ hd_groups d) -> sorted (o_min o) r ->
      (forall g, g ∈ r -> (o_min o g <= o_max o g)%Z) -> (forall p g, p ∈ done -> g ∈ r -> p = s_early \/ (o_min o p <= o_min o g)%Z) ->
      oks st r <-> (forall p g v w, p ∈ done ++ r -> g ∈ r -> p <> g -> D p v -> D g w ->
        p = s_early \/ (o_min o p <= o_min o g)%Z -> (o_max o p < o_min o g)%Z).
    Proof.
      induction r as [|g r IH]; intros done st Ht Hn Hdone Hg Hs Hmm Hle.
      { cbn. split; [|auto]. intros _ p g v w _ H. inversion H. }
      apply NoDup_cons in Hn as [Hgr Hn]. destruct Hs as [Hs1 Hs2]. destruct (Hg g ltac:(left)) as (G1 & G2 & G3).
      destruct (aok_tracks done st g Ht (Hdone g ltac:(left))) as [Ht' Hok].
      { intros v. rewrite eff_plain by exact G1. apply D_group; assumption. }
      cbn [aoks]. rewrite Hok.
      rewrite (IH (g :: done) (step st g) Ht' Hn); [| | |exact Hs2| |].
      - split.
        + intros [H1 H2] p q v w Hp Hq Hpq Dp Dq Hm. rewrite elem_of_app, elem_of_cons in Hp. apply elem_of_cons in Hq as [->|Hq].
          * destruct Hp as [Hp|[->|Hp]]; [eauto|congruence|].
            (* p after g, same rank *)
            pose proof (Hs1 p Hp). pose proof (H2 g p w v ltac:(left) Hp ltac:(congruence) Dq Dp ltac:(auto)).
            pose proof (Hmm g ltac:(left)). destruct (Hg p ltac:(right; exact Hp)) as (_ & ? & _). destruct Hm; [contradiction|lia].
          * apply (H2 p q v w); auto. cbn. rewrite elem_of_cons, elem_of_app. tauto.
        + intros H. split.
          * intros p v w Hp Dp Dg. apply (H p g v w); auto; [apply elem_of_app; auto|left| |apply Hle; [exact Hp|left]].
            intros ->. apply (Hdone g ltac:(left)). exact Hp.
          * intros p q v w Hp Hq. apply H; [|right; exact Hq]. cbn in Hp. rewrite elem_of_cons, elem_of_app in Hp.
            rewrite elem_of_app, elem_of_cons. tauto.
      - intros q Hq. rewrite elem_of_cons. intros [->|Hqd]; [contradiction|]. apply (Hdone q ltac:(right; exact Hq)). exact Hqd.
      - intros q Hq. apply Hg. right. exact Hq.
      - intros q Hq. apply Hmm. right. exact Hq.
      - intros p q Hp Hq. apply elem_of_cons in Hp as [->|Hp]; [auto|]. apply Hle; [exact Hp|right; exact Hq].
    Qed.


    (** ** One variable *)
    Definition harmless : Prop := forall p q v w, D p v -> D q w -> p <> q ->
      p = s_early \/ q <> s_early /\ (o_min o p <= o_min o q)%Z -> (o_max o p < o_min o q)%Z.

    Lemma D_in p v : D p v -> p = s_early \/ p ∈ host_groups l d.
    Proof.
      destruct (host_all _ _ _ _ _ Hacc Hd) as [Hall _].
      intros [[-> _]|[[Hp _]|[-> _]]]; [auto| |auto]. right. apply (host_groups_in _ _ _ Hacc). split; [|exact Hp].
      destruct (acc_hosts _ _ _ Hacc) as [HF _]. apply dget_Some_in, elem_of_list_lookup in Hd as [i Hi].
      destruct (Forall2_lookup_r _ _ _ _ _ HF Hi) as (h & Hh & Hent). destruct Hent as (_ & _ & Hg & _).
      apply Hg in Hp as [Hp| ->]; [|apply all_exists]. apply (proj1 (proj2 (acc_ok _ _ _ Hacc))). left.
      exists h. split; [eapply elem_of_list_lookup_2; exact Hh|exact Hp].
    Qed.

    Lemma aoks_harmless : oks (early_st e host d x) (host_groups l d) <-> harmless.
    Proof.
      destruct (host_groups_all _ _ _ Hacc _ _ Hd Hearly) as (r & Er & Hr).
      pose proof (host_groups_sorted _ _ _ Hacc d) as Hs. pose proof (host_groups_nodup _ _ _ Hacc d) as Hn.
      pose proof (host_groups_exist _ _ _ Hacc d) as He. pose proof D_in as HD. rewrite Er in *.
      destruct Hs as [Hs1 Hs2]. apply NoDup_cons in Hn as [_ Hn].
      assert (Ht : tracks [s_early] (early_st e host d x)).
      { unfold early_st. rewrite early_get. split; cbn [fst snd].
        - intros p. destruct (dget x (hd_vars d)) as [v|] eqn:Ev.
          + rewrite elem_of_list_singleton. split; [|tauto]. intros ->. split; [reflexivity|]. exists v. left. auto.
          + split; [intros H; inversion H|]. rewrite elem_of_list_singleton. intros (-> & v & [[_ H]|[[H _]|[H _]]]); [congruence|contradiction|discriminate].
        - destruct (dget x (hd_vars d)) as [v|] eqn:Ev; [|reflexivity]. exists s_early. split; [left|]. left. auto. }
      destruct (aok_tracks [s_early] (early_st e host d x) s_all Ht) as [Ht' Hok].
      { rewrite elem_of_list_singleton. discriminate. }
      { intros v. unfold early_st. cbn [fst]. rewrite early_get. apply D_all. apply He. left. }
      cbn [aoks]. rewrite Hok.
      assert (Hg : forall g, g ∈ r -> g <> s_all /\ g <> s_early /\ g ∈ hd_groups d).
      { intros g Hg. destruct (He g ltac:(right; exact Hg)) as [_ H]. split_and!; [intros ->; contradiction|intros ->; contradiction|exact H]. }
      rewrite (aoks_rest r [s_all; s_early] _ Ht' Hn); [| | exact Hg|exact Hs2| |].
      - unfold harmless. split.
        + intros [H1 H2] p q v w Dp Dq Hpq Hm. destruct (HD _ _ Dq) as [->|Hq].
          { destruct Hm as [->|[Hm _]]; congruence. }
          apply elem_of_cons in Hq as [->|Hq].
          * destruct (HD _ _ Dp) as [->|Hp]; [apply (H1 s_early v w); [left|assumption..]|].
            apply elem_of_cons in Hp as [->|Hp]; [congruence|].
            assert (Hda : direct hs gs s_all p).
            { unfold direct. right. right. left. destruct (Hg p Hp) as (P1 & P2 & _). split_and!; auto.
              destruct (He p ltac:(right; exact Hp)) as [[H|[H|H]] _]; [exact H|contradiction..]. }
            pose proof (rank_lt _ _ _ Hacc _ _ (all_exists hs gs) (proj1 (He p ltac:(right; exact Hp))) Hda).
            destruct Hm as [->|[_ Hm]]; [|lia]. destruct (Hg s_early Hp) as (_ & Hbad & _). congruence.
          * apply (H2 p q v w); auto; [|tauto]. rewrite elem_of_app, !elem_of_cons. destruct (HD _ _ Dp) as [->|Hp]; [auto|].
            apply elem_of_cons in Hp. tauto.
        + intros H. split.
          * intros p v w Hp Dp Dq. apply elem_of_list_singleton in Hp as ->. apply (H s_early s_all v w); auto.
          * intros p q v w Hp Hq Hpq Dp Dq Hm. apply (H p q v w); auto. destruct Hm as [->|Hm]; [auto|]. right. split; [|exact Hm].
            apply (Hg q Hq).
      - intros g Hin. destruct (Hg g Hin) as (G1 & G2 & _). rewrite !elem_of_cons, elem_of_nil. tauto.
      - intros g Hin. apply (rank_min_max _ _ _ Hacc). apply He. right. exact Hin.
      - intros p g Hp Hin. rewrite !elem_of_cons, elem_of_nil in Hp. destruct Hp as [->|[->|[]]]; [|auto]. right. apply Hs1. exact Hin.
    Qed.
  End attr.

  (** ** All variables *)
  Hypothesis Hord : ordinary e A inv d.
  Hypothesis Hinvok : exists vs, exported_variables inventory_cls inv = Ok vs.
  Hypothesis Hfiles : files_exist e l d.
  Hypothesis Hobj : forall x, objects_ok (var_object e A inv d x).
  Hypothesis Hfresh : forall x, fresh e A inv l d x.

  Definition plain_ns (m : ns) : Prop := dget (lit "exported_variables") m = None /\ dget (lit "is_exported_variable") m = None.
  Definition plain_wrapper (w : wrapper) : Prop := wf w /\ exists mo m, w_module w = Some (mo, m) /\ plain_ns m.
  Lemma plain_exported c w : plain_wrapper w -> exported_variables c w = Ok (exported c w).
  Proof.
    intros (_ & mo & m & E & H1 & H2). unfold exported_variables. rewrite E. unfold dhas. rewrite H1, H2. reflexivity.
  Qed.
  Lemma unassigned x p : x ∈ base_attrs \/ x = lit "host" \/ x = lit "name" -> assigned A p x = None /\ inventory_value e inv x = None /\ dget x (hd_vars d) = None.
  Proof.
    intros Hx. assert (H : forall v, ~ var_object e A inv d x v).
    { intros v Hv. destruct (Hord x v Hv) as [(H1 & H2 & H3) H4]. tauto. }
    split_and!.
    - destruct (assigned A p x) eqn:E; [|reflexivity]. exfalso. eapply H. left. eauto.
    - destruct (inventory_value e inv x) eqn:E; [|reflexivity]. exfalso. eapply H. right. left. eauto.
    - destruct (dget x (hd_vars d)) eqn:E; [|reflexivity]. exfalso. eapply H. right. right. eauto.
  Qed.
  Lemma attrs_base : lit "exported_variables" ∈ base_attrs /\ lit "is_exported_variable" ∈ base_attrs /\ lit "module" ∈ base_attrs.
  Proof. split_and!; apply str_in_true; vm_compute; reflexivity. Qed.
  Lemma exported_absent w x : plain_wrapper w -> x <> lit "module" -> dget x (w_dict w) = None ->
    (forall mo m, w_module w = Some (mo, m) -> dget x m = None) -> dget x (exported group_cls w) = None.
  Proof.
    intros (Hw & mo & m & E & _) Hm H1 H2. unfold exported. rewrite dget_filter by (apply vars_nodup; exact Hw).
    rewrite dget_vars by exact Hw. rewrite E, (H2 _ _ E), dget_instance, H1 by exact Hm. reflexivity.
  Qed.
  Lemma groups_names k dd : dget k groups = Some dd -> gd_name dd = k.
  Proof. intros Hk. apply (acc_file _ _ _ Hacc). exact Hk. Qed.

  Lemma run_module_ok file dflt m : (forall f, file = Some f -> e_files e (path_join (e_base e) f) <> None) ->
    exists m', run_module e file dflt m = Ok m'.
  Proof.
    intros Hf. unfold run_module. set (p := match file with Some f => path_join (e_base e) f | None => dflt end).
    pose proof (HA p) as HAp. destruct (e_files e p) as [run|] eqn:Ep.
    - destruct HAp as (a & _ & Hr). rewrite Hr. eauto.
    - destruct file as [f|]; [|eauto]. exfalso. apply (Hf f eq_refl). exact Ep.
  Qed.
  Lemma load_group_ok g init : group_exists hs gs g -> plain_wrapper init -> dget (lit "name") (w_dict init) <> None ->
    dget (lit "exported_variables") (w_dict init) = None -> dget (lit "is_exported_variable") (w_dict init) = None ->
    exists w, load_group e inv groups g (Some init) = Ok w /\ plain_wrapper w /\ w_dict w = [(lit "name", name_obj e g)].
  Proof.
    intros Hg Hp _ Hn1 Hn2. destruct attrs_base as (B1 & B2 & _).
    assert (Hex : exists w, load_group e inv groups g (Some init) = Ok w).
    { unfold load_group. apply (acc_keys _ _ _ Hacc), dget_is_Some in Hg as [dd Edd]. rewrite Edd.
      rewrite (plain_exported group_cls init Hp). destruct Hinvok as [vs ->]. destruct (str_eqb (gd_name dd) s_all); cbn [mbind].
      all: cbn.
      all: match goal with |- context [run_module e ?f ?p ?m] => destruct (run_module_ok f p m) as [m' ->] end.
      all: try (intros f Hf; apply (proj1 Hfiles g dd f Edd Hf)).
      all: cbn; eauto. }
    destruct Hex as [w Hw]. exists w. split; [exact Hw|].
    apply (load_group_get e A HA inv Hinv groups g init w groups_names) in Hw as (Hwf & mo & m & -> & Hmn & Hm); [|apply Hp].
    split; [|reflexivity]. split; [exact Hwf|]. exists mo, m. split; [reflexivity|].
    pose proof Hp as (_ & mo' & m' & Em & Hp1 & Hp2).
    split; rewrite Hm by discriminate; unfold gasg.
    - destruct (unassigned (lit "exported_variables") (group_path e groups g)) as (-> & -> & _); [auto|].
      rewrite exported_absent; [destruct (str_eqb g s_all); reflexivity|exact Hp|discriminate|exact Hn1|]. intros ? ? E. congruence.
    - destruct (unassigned (lit "is_exported_variable") (group_path e groups g)) as (-> & -> & _); [auto|].
      rewrite exported_absent; [destruct (str_eqb g s_all); reflexivity|exact Hp|discriminate|exact Hn2|]. intros ? ? E. congruence.
  Qed.
  Lemma load_groups_ok : forall k init st, (forall g, g ∈ k -> group_exists hs gs g) -> plain_wrapper init -> dget (lit "name") (w_dict init) <> None ->
    dget (lit "exported_variables") (w_dict init) = None -> dget (lit "is_exported_variable") (w_dict init) = None ->
    exists w st', load_groups e inv groups o k init st = Ok (w, st') /\ plain_wrapper w /\
      (w = init \/ exists g, w_dict w = [(lit "name", name_obj e g)]).
  Proof.
    induction k as [|g k IH]; intros init st Hk Hp H0 H1 H2; cbn [load_groups].
    { eauto 10. }
    destruct (load_group_ok g init) as (w & -> & Hw & Ew); auto; [apply Hk; left|]. cbn.
    rewrite (plain_exported group_cls w Hw). cbn.
    destruct (IH w (record_all o g (Some init) (Some g) (exported group_cls w) st)) as (w' & st' & -> & Hw' & E'); auto.
    - intros g' Hg'. apply Hk. right. exact Hg'.
    - rewrite Ew. discriminate.
    - rewrite Ew. reflexivity.
    - rewrite Ew. reflexivity.
    - exists w', st'. split_and!; auto. destruct E' as [->|E']; eauto.
  Qed.

  Lemma early_plain : plain_wrapper (early_wrapper e host d).
  Proof.
    destruct attrs_base as (B1 & B2 & _). split; [apply early_wf|]. eexists _, _. split; [reflexivity|].
    apply NoDup_cons in Hvars as [_ Hv].
    split; rewrite dget_dupdate_nodup by exact Hv.
    - destruct (unassigned (lit "exported_variables") []) as (_ & _ & ->); auto.
    - destruct (unassigned (lit "is_exported_variable") []) as (_ & _ & ->); auto.
  Qed.

  Lemma host_exported_ok init w : plain_wrapper init -> (forall x, x ∈ [lit "exported_variables"; lit "is_exported_variable"] -> dget x (exported group_cls init) = None) ->
    load_host e (l_hosts l) host init = Ok w -> exists vs, exported_variables host_cls w = Ok vs.
  Proof.
    intros Hp Hn E. unfold load_host in E. rewrite Hd in E. destruct (hd_name d) as [n|]; [|discriminate].
    rewrite (plain_exported group_cls init Hp) in E. cbn in E.
    match type of E with context [run_module e ?f ?p ?m] => destruct (run_module e f p m) as [m'|] eqn:Er; [|discriminate] end.
    cbn in E. apply Ok_inj in E. apply (run_module_get e A HA) in Er as [_ Hm]. destruct attrs_base as (B1 & B2 & _).
    unfold exported_variables. rewrite <- E. cbn [w_module]. unfold dhas. rewrite !Hm.
    match goal with |- context [assigned A ?p _] =>
      destruct (unassigned (lit "exported_variables") p) as (-> & _); [auto|];
      destruct (unassigned (lit "is_exported_variable") p) as (-> & _); [auto|] end.
    rewrite !dget_dupdate_nodup by (apply exported_nodup; apply Hp).
    rewrite (Hn (lit "exported_variables")) by left. rewrite (Hn (lit "is_exported_variable")) by (right; left).
    eexists. reflexivity.
  Qed.

  Theorem accept_iff : (exists w hist, instanciate_host e inv l host = Ok (w, hist)) <-> forall x, group_var x -> x <> lit "host" -> harmless x.
  Proof.
    destruct attrs_base as (B1 & B2 & B3).
    set (known := fun x v => var_object e A inv d x v \/ dget x (early_ns e host d) = Some v).
    assert (Hmodk : forall x g, nomod e A inv groups x g).
    { intros x g. destruct (Hobj x) as (_ & _ & O3). split; intros v Hv; apply O3; [left; exists (group_path e groups g); exact Hv|right; left; exact Hv]. }
    assert (Hk0 : forall x v, known0 e A inv groups x v -> known x v).
    { intros x v [[g Hg]|Hv]; left; [left; eexists; exact Hg|right; left; exact Hv]. }
    assert (Hhost : forall v, dget (lit "host") (early_ns e host d) = Some v <-> v = opaque e (lit "decl:" ++ host)).
    { intros v. unfold early_ns. cbn [dget]. rewrite str_eqb_refl. split; [intros [= <-]; reflexivity|intros ->; reflexivity]. }
    assert (Hkh : forall v, known (lit "host") v <-> v = opaque e (lit "decl:" ++ host)).
    { intros v. unfold known. rewrite Hhost. split; [|auto]. intros [H|H]; [|exact H].
      destruct (Hord _ _ H) as [_ H']. contradiction. }
    assert (Hkx : forall x v, x <> lit "host" -> known x v <-> var_object e A inv d x v).
    { intros x v Hx. unfold known. rewrite early_get by exact Hx. split; [|auto]. intros [H|H]; [exact H|right; right; exact H]. }
    assert (Hid : forall x a b, known x a -> known x b -> oid a = oid b -> a = b).
    { intros x a b Ha Hb. destruct (decide (x = lit "host")) as [->|Hne].
      - apply Hkh in Ha, Hb. congruence.
      - apply Hkx in Ha, Hb; try assumption. destruct (Hobj x) as (O1 & _). apply O1; assumption. }
    assert (Hinit : forall x, group_var x -> inv1 x (known x) (early_wrapper e host d) (hx (early_history e o host d).1 x) (early_st e host d x)).
    { intros x Hgv. apply early_inv; [exact Hvars|exact Hgv|]. intros v Hv. split; [|right; exact Hv].
      destruct (decide (x = lit "host")) as [->|Hne]; [apply Hhost in Hv as ->; reflexivity|].
      rewrite early_get in Hv by exact Hne. destruct (Hobj x) as (_ & _ & O3). apply O3. right. right. exact Hv. }
    destruct (early_history e o host d) as [h0 c0] eqn:Eh0. pose proof (early_conf e o host d Hvars) as Hc0.
    rewrite Eh0 in Hc0. cbn [snd] in Hc0. subst c0. cbn [fst] in Hinit.
    destruct (load_groups_ok (host_groups l d) (early_wrapper e host d) (h0, [])) as (wi & [h c] & El & Hpi & Hwi).
    { intros g Hg. apply (host_groups_exist _ _ _ Hacc d g Hg). }
    { exact early_plain. }
    { cbn [w_dict early_wrapper dget]. rewrite str_eqb_refl. discriminate. }
    { reflexivity. }
    { reflexivity. }
    assert (Hconf : c = [] <-> forall x, group_var x -> x <> lit "host" -> harmless x).
    { split.
      - intros -> x Hgv Hne. apply aoks_harmless; auto.
        destruct (load_groups_attr e A HA inv Hinv groups groups_names o x (known x) Hgv (Hmodk x) (Hk0 x) (Hid x) _ _ _ _ _ _ _ _ El (Hinit x Hgv)) as [_ H].
        apply (H eq_refl).
      - intros H. change c with (h, c).2.
        apply (load_groups_complete e A HA inv Hinv groups groups_names o known Hmodk Hk0 Hid) with (l := host_groups l d)
          (init := early_wrapper e host d) (hist := h0) (st := early_st e host d) (w' := wi).
        + intros x g Hx. destruct (unassigned x (group_path e groups g)) as (U1 & U2 & _); auto.
        + split; [apply early_wf|]. split_and!.
          * exact Hinit.
          * intros x Hx Hm. apply exported_absent; [exact early_plain|exact Hm| |].
            { cbn [w_dict early_wrapper dget]. rewrite !(proj2 (str_eqb_false x _)); [reflexivity|..]; intros ->; apply str_in_true in Hx; vm_compute in Hx; discriminate. }
            { intros mo m E. injection E as _ <-. apply NoDup_cons in Hvars as [_ Hv]. rewrite dget_dupdate_nodup by exact Hv.
              destruct (unassigned x []) as (_ & _ & ->); auto. }
          * destruct (unassigned (lit "module") []) as (_ & _ & Hmod); auto. pose proof Hvars as Hvars'. apply NoDup_cons in Hvars' as [_ Hv].
            assert (Hgm : dget (lit "module") (dupdate [] (hd_vars d)) = None) by (rewrite dget_dupdate_nodup by exact Hv; rewrite Hmod; reflexivity).
            exists (opaque e (lit "explicits")). split_and!.
            { unfold exported. rewrite dget_filter by (apply vars_nodup, early_wf). rewrite dget_vars by apply early_wf.
              cbn [w_module early_wrapper]. rewrite Hgm. unfold instance_dict. cbn [w_module early_wrapper w_dict]. rewrite dget_dset_same. reflexivity. }
            { reflexivity. }
            { unfold get_attr. cbn [w_module early_wrapper]. rewrite Hgm. unfold object_get, instance_dict. cbn [w_module early_wrapper w_dict].
              rewrite dget_dset_same. reflexivity. }
            { left. pose proof (record_early o (early_ns e host d) Hvars []) as [R _].
              change (record_all o s_early None (Some s_early) (early_ns e host d) ([], [])) with (early_history e o host d) in R.
              specialize (R (lit "module") ltac:(intros; reflexivity)). rewrite Eh0 in R. cbn [fst] in R.
              unfold early_ns in R. cbn [dget] in R. rewrite (proj2 (str_eqb_false (lit "module") (lit "host"))) in R by discriminate.
              rewrite Hmod in R. exact R. }
        + apply (host_groups_nodup _ _ _ Hacc).
        + intros x Hgv. destruct (decide (x = lit "host")) as [->|Hne].
          * (* nothing assigns it *)
            assert (Ha : forall st k, st.1 <> None -> aoks e A inv groups o (lit "host") st k).
            { clear - Hord. intros st k. revert st. induction k as [|g k IH]; intros st Hst; [exact I|]. cbn [aoks].
              assert (Ee : eff e A inv groups (lit "host") g st.1 = None).
              { unfold eff, gasg. destruct (unassigned (lit "host") (group_path e groups g)) as (-> & _); auto. destruct st.1; [reflexivity|congruence]. }
              split; [intros v Hv; congruence|]. apply IH. unfold astep. rewrite Ee. exact Hst. }
            apply Ha. unfold early_st. cbn [fst]. rewrite (proj2 (Hhost _) eq_refl). discriminate.
          * apply aoks_harmless; auto.
        + exact El. }
    rewrite <- Hconf. unfold instanciate_host. rewrite Hd. fold (host_groups l d). rewrite Eh0, El. cbn.
    destruct c as [|c0 c]; [|split; [intros (? & ? & [=])|discriminate]]. split; [reflexivity|]. intros _.
    assert (Hlh : exists w, load_host e (l_hosts l) host wi = Ok w).
    { unfold load_host. rewrite Hd. destruct (host_all _ _ _ _ _ Hacc Hd) as [_ ->].
      rewrite (plain_exported group_cls wi Hpi). cbn.
      match goal with |- context [run_module e ?f ?p ?m] => destruct (run_module_ok f p m) as [m' ->] end; [|cbn; eauto].
      apply (proj2 Hfiles). }
    destruct Hlh as [w Hw]. rewrite Hw. cbn.
    destruct (host_exported_ok wi w Hpi) as [vs ->]; [|exact Hw|cbn; eauto].
    intros x Hx. rewrite !elem_of_cons, elem_of_nil in Hx.
    assert (Hdict : dget x (w_dict wi) = None).
    { destruct Hwi as [->|[g ->]]; destruct Hx as [->|[->|[]]]; reflexivity. }
    apply exported_absent; [exact Hpi|destruct Hx as [->|[->|[]]]; discriminate|exact Hdict|].
    intros mo m E. destruct Hpi as (_ & mo' & m' & E' & P1 & P2). rewrite E in E'. injection E' as _ ->.
    destruct Hx as [->|[->|[]]]; assumption.
  Qed.
End accept.
