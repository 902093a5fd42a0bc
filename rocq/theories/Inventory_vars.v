(** The values of variables, and conflicts between groups. *)
From Coq Require Import Lia ZifyBool ZifyNat.
From Verif Require Import Base Paths Urls Wrapper Spec_Wrapper Wrapper_proofs Ranks Spec_Ranks Ranks_proofs Dict_proofs Inventory
  Spec_Inventory Inventory_proofs Inventory_proofs2.

Lemma Ok_inj {T} (a b : T) : Ok a = Ok b -> a = b.
Proof. congruence. Qed.
Notation history := (list (pystr * list snapshot)).

(** ** The history of one attribute *)
Definition hx (h : history) (x : pystr) : list snapshot := match dget x h with Some l => l | None => [] end.
Definition prevv (h : list snapshot) : pyval := match last h with Some s => sn_val s | None => VNone end.
Definition rec1 (o : order) (g : pystr) (ov : bool) (x : pystr) (v : obj) (h : list snapshot) : list snapshot * list conflict :=
  let modif := negb (bool_decide (prevv h = oval v)) in
  let isdef := negb (modif && negb ov) in
  if ov || modif then
    (h ++ [Snapshot isdef g (oval v)],
     List.map (fun p => Conflict (sn_actor p) g x) (List.filter (fun p => (o_min o g <=? o_max o (sn_actor p))%Z && (sn_def p || isdef)) h))
  else (h, []).

Lemma previous_hx h x : previous_value h x = prevv (hx h x).
Proof. unfold previous_value, hx, prevv. destruct (dget x h); reflexivity. Qed.
Lemma record_change_spec o g init x v hist conf :
  let r := rec1 o g (overwritten (Some init) x v) x v (hx hist x) in
  let st := record_change o g (Some init) (Some g) x v (hist, conf) in
  (forall y, hx st.1 y = if decide (y = x) then r.1 else hx hist y) /\ st.2 = conf ++ r.2.
Proof.
  cbv zeta. unfold record_change, rec1. rewrite previous_hx.
  destruct (overwritten (Some init) x v || negb (bool_decide (prevv (hx hist x) = oval v))) eqn:E; cbn [fst snd].
  - split.
    + intros y. unfold hx at 1. rewrite dget_dset. destruct (decide (y = x)) as [->|]; [|reflexivity]. reflexivity.
    + unfold hx. destruct (dget x hist); [reflexivity|]. cbn. reflexivity.
  - split.
    + intros y. destruct (decide (y = x)) as [->|]; reflexivity.
    + rewrite app_nil_r. reflexivity.
Qed.
Lemma record_all_spec o g init vs : NoDup vs.*1 -> forall hist conf,
  let st := record_all o g (Some init) (Some g) vs (hist, conf) in
  (forall y, hx st.1 y = match dget y vs with
                         | Some v => (rec1 o g (overwritten (Some init) y v) y v (hx hist y)).1
                         | None => hx hist y end) /\
  (st.2 = [] <-> conf = [] /\ forall y v, dget y vs = Some v -> (rec1 o g (overwritten (Some init) y v) y v (hx hist y)).2 = []).
Proof.
  unfold record_all. induction vs as [|[k v] vs IH]; intros Hn hist conf; cbn [foldl].
  { cbn. split; [reflexivity|]. split; [intros ->; split; [reflexivity|]; discriminate|intros [-> _]; reflexivity]. }
  cbn in Hn. apply NoDup_cons in Hn as [Hk Hn].
  destruct (record_change_spec o g init k v hist conf) as [H1 H2].
  cbn [fst snd]. destruct (record_change o g (Some init) (Some g) k v (hist, conf)) as [hist1 conf1].
  cbn [fst snd] in H1, H2. destruct (IH Hn hist1 conf1) as [H3 H4]. split.
  - intros y. rewrite H3. cbn [dget]. rewrite H1. destruct (str_eqb_spec y k) as [->|Hne].
    + rewrite decide_True by reflexivity. destruct (dget k vs) eqn:E; [|reflexivity].
      apply dget_Some_in in E. exfalso. apply Hk. apply elem_of_list_fmap. exists (k, o0). auto.
    + rewrite decide_False by assumption. reflexivity.
  - rewrite H4, H2, app_nil. split.
    + intros [[-> Hr] Hv]. split; [reflexivity|]. intros y w. cbn [dget]. destruct (str_eqb_spec y k) as [->|Hne].
      * intros [= <-]. exact Hr.
      * intros Hy. specialize (Hv y w Hy). rewrite H1, decide_False in Hv by assumption. exact Hv.
    + intros [-> Hv]. split; [split; [reflexivity|]|].
      * apply Hv. cbn [dget]. rewrite str_eqb_refl. reflexivity.
      * intros y w Hy. rewrite H1. destruct (decide (y = k)) as [->|Hne].
        { exfalso. apply Hk. apply dget_Some_in in Hy. apply elem_of_list_fmap. exists (k, w). auto. }
        apply Hv. cbn [dget]. rewrite (proj2 (str_eqb_false y k) Hne). exact Hy.
Qed.

(** ** One group *)
Section vars.
  Variable e : env.
  Variable A : pystr -> option ns.
  Hypothesis HA : files_constant e A.
  Variable inv : wrapper.
  Hypothesis Hinv : wf inv.

  Definition gasg groups (g x : pystr) : option obj := assigned A (group_path e groups g) x.

  Lemma exported_ok c w vs : exported_variables c w = Ok vs -> vs = exported c w.
  Proof. unfold exported_variables. destruct (w_module w) as [[? m]|]; [destruct (_ || _); [discriminate|]|]; intros [= <-]; reflexivity. Qed.

  Lemma run_module_get file dflt m m' :
    run_module e file dflt m = Ok m' ->
    let p := match file with None => dflt | Some f => path_join (e_base e) f end in
    (NoDup m.*1 -> NoDup m'.*1) /\
    forall x, dget x m' = match assigned A p x with Some v => Some v | None => dget x m end.
  Proof.
    unfold run_module, assigned. cbv zeta. specialize (HA (match file with None => dflt | Some f => path_join (e_base e) f end)).
    destruct (e_files e _) as [run|].
    - destruct HA as (a & Ea & Hrun). rewrite Hrun. intros [= <-]. split; [apply dupdate_nodup|].
      intros x. rewrite Ea, dget_dupdate. reflexivity.
    - rewrite HA. destruct file; [discriminate|]. intros [= <-]. auto.
  Qed.

  (** what group [g] assigns to [x] when it is [cur] before *)
  Definition eff groups (x g : pystr) (cur : option obj) : option obj :=
    match gasg groups g x with
    | Some v => Some v
    | None => match cur with
              | Some _ => None
              | None => if str_eqb g s_all then inventory_value e inv x else None
              end
    end.
  Definition nomod groups (x g : pystr) : Prop :=
    (forall v, gasg groups g x = Some v -> is_module v = false) /\ (forall v, inventory_value e inv x = Some v -> is_module v = false).

  Lemma exported_plain c w x : wf w -> private x = false -> x ∉ c_annot c -> x ∉ c_own c ->
    (forall v, dget x (vars w) = Some v -> is_module v = false) -> dget x (exported c w) = dget x (vars w).
  Proof.
    intros Hw Hp Ha Ho Hm. unfold exported. rewrite dget_filter by (apply vars_nodup; exact Hw).
    destruct (dget x (vars w)) as [v|]; [|reflexivity]. cbn. unfold is_exported.
    rewrite Hp, (proj2 (str_in_false _ _) Ha), (proj2 (str_in_false _ _) Ho), (Hm v eq_refl). reflexivity.
  Qed.
  Lemma vars_wrap n nv mo m x : x <> lit "module" -> x <> n ->
    dget x (vars (Wrapper [(n, nv)] (Some (mo, m)))) = match dget x (rev m) with Some v => Some v | None => None end.
  Proof.
    intros Hm Hn. unfold vars. cbn [w_module]. rewrite dget_dupdate.
    destruct (dget x (rev m)); [reflexivity|]. rewrite dget_instance by assumption. cbn [w_dict dget].
    rewrite (proj2 (str_eqb_false x n) Hn). reflexivity.
  Qed.

  Lemma dget_single x n (v : obj) : x <> n -> dget x [(n, v)] = None.
  Proof. intros H. cbn. rewrite (proj2 (str_eqb_false x n) H). reflexivity. Qed.

  Lemma load_group_get groups g init w : (forall k d, dget k groups = Some d -> gd_name d = k) ->
    load_group e inv groups g (Some init) = Ok w -> wf init ->
    wf w /\ exists mo m, w = Wrapper [(lit "name", name_obj e g)] (Some (mo, m)) /\ NoDup m.*1 /\
      forall x, x <> lit "name" -> dget x m =
        match gasg groups g x with
        | Some v => Some v
        | None => match dget x (exported group_cls init) with
                  | Some v => Some v
                  | None => if str_eqb g s_all then inventory_value e inv x else None
                  end
        end.
  Proof.
    intros Hg E Hinit. unfold load_group in E. destruct (dget g groups) as [d|] eqn:Ed; [|discriminate].
    pose proof (Hg _ _ Ed) as Hname. rewrite Hname in E.
    assert (Hp : match gd_file d with
                 | Some f => path_join (e_base e) f
                 | None => path_join3 (e_base e) (e_groups_dir e) (g ++ lit ".py") end = group_path e groups g).
    { unfold group_path. rewrite Ed. destruct d as [? [f|] ? ?]; reflexivity. }
    destruct (exported_variables group_cls init) as [iv|] eqn:Eiv; [apply exported_ok in Eiv as ->|].
    2: { destruct (str_eqb g s_all); [destruct (exported_variables inventory_cls inv)|]; cbn in E; discriminate. }
    assert (Hfin : forall m0, NoDup m0.*1 -> (forall x, x <> lit "name" -> dget x m0 = if str_eqb g s_all then inventory_value e inv x else None) ->
      (m ← run_module e (gd_file d) (path_join3 (e_base e) (e_groups_dir e) (g ++ lit ".py")) (dupdate m0 (exported group_cls init));
       Ok (Wrapper [(lit "name", name_obj e g)]
              (Some (module_obj e (lit "group:" ++ g) (is_file e (gd_file d) (path_join3 (e_base e) (e_groups_dir e) (g ++ lit ".py"))), m)))) = Ok w ->
      wf w /\ exists mo m, w = Wrapper [(lit "name", name_obj e g)] (Some (mo, m)) /\ NoDup m.*1 /\
      forall x, x <> lit "name" -> dget x m =
        match gasg groups g x with
        | Some v => Some v
        | None => match dget x (exported group_cls init) with
                  | Some v => Some v
                  | None => if str_eqb g s_all then inventory_value e inv x else None
                  end
        end).
    { intros m0 Hn Hm0 Er. destruct (run_module e (gd_file d) _ _) as [m|] eqn:Em; cbn in Er; [|discriminate].
      apply Ok_inj in Er. apply run_module_get in Em as [Hmn Hm]. rewrite Hp in Hm.
      assert (Hnd : NoDup m.*1) by (apply Hmn, dupdate_nodup, Hn). split.
      - rewrite <- Er. split; [apply NoDup_singleton|exact Hnd].
      - eexists _, _. split; [symmetry; exact Er|]. split; [exact Hnd|]. intros x Hx. rewrite Hm. unfold gasg.
        destruct (assigned A (group_path e groups g) x); [reflexivity|].
        rewrite dget_dupdate_nodup by (apply exported_nodup; exact Hinit). rewrite Hm0 by exact Hx. reflexivity. }
    destruct (str_eqb g s_all) eqn:Eall.
    - destruct (exported_variables inventory_cls inv) as [iv|] eqn:Ei; [|discriminate]. apply exported_ok in Ei as ->.
      eapply Hfin; [| |exact E].
      + apply dupdate_nodup, dset_nodup. apply NoDup_singleton.
      + intros x Hx. rewrite dget_dupdate_nodup by (apply exported_nodup; exact Hinv).
        rewrite dget_dset, dget_single by exact Hx. unfold inventory_value, latest.
        destruct (dget x (exported inventory_cls inv)); [reflexivity|].
        destruct (str_eqb_spec x (lit "fora_managed")); [rewrite decide_True by assumption|rewrite decide_False by assumption]; reflexivity.
    - eapply Hfin; [| |exact E].
      + apply NoDup_singleton.
      + intros x Hx. apply dget_single. exact Hx.
  Qed.

  (** ** The changes of one variable *)
  Variable groups : list (pystr * groupdecl).
  Hypothesis Hgroups : forall k d, dget k groups = Some d -> gd_name d = k.
  Variable o : order.

  Section attr.
    Variable x : pystr.
    Definition changed (cur : option obj) (v : obj) : bool :=
      match cur with None => negb (bool_decide (oval v = VNone)) | Some c => negb (oid c =? oid v)%N end.
    Definition astep (st : option obj * list pystr) (g : pystr) : option obj * list pystr :=
      match eff groups x g st.1 with
      | None => st
      | Some v => (Some v, if changed st.1 v then st.2 ++ [g] else st.2)
      end.
    Definition aok (st : option obj * list pystr) (g : pystr) : Prop :=
      forall v, eff groups x g st.1 = Some v -> changed st.1 v = true -> forall p, p ∈ st.2 -> (o_max o p < o_min o g)%Z.
    Fixpoint aoks (st : option obj * list pystr) (l : list pystr) : Prop :=
      match l with
      | [] => True
      | g :: r => aok st g /\ aoks (astep st g) r
      end.

    Hypothesis Hx : group_var x.
    Hypothesis Hmod : forall g, nomod groups x g.
    Definition known0 (v : obj) : Prop := (exists g, gasg groups g x = Some v) \/ inventory_value e inv x = Some v.
    (** all objects that may get into the variable: identical ones are equal *)
    Variable known : obj -> Prop.
    Hypothesis Hknown : forall v, known0 v -> known v.
    Hypothesis Hid : forall a b, known a -> known b -> oid a = oid b -> a = b.

    Definition inv1 (init : wrapper) (h : list snapshot) (st : option obj * list pystr) : Prop :=
      wf init /\ dget x (exported group_cls init) = st.1 /\ dget x (vars init) = st.1 /\ List.map sn_actor h = st.2 /\
      match st.1 with None => h = [] | Some c => prevv h = oval c /\ known c end.

    Lemma group_var_module : x <> lit "module".
    Proof. intros Ex. apply (proj2 (proj2 Hx)). rewrite Ex. unfold base_attrs. left. Qed.
    Lemma group_var_name : x <> lit "name".
    Proof. apply Hx. Qed.
    Lemma eff_known g cur v : eff groups x g cur = Some v -> known0 v /\ is_module v = false.
    Proof.
      unfold eff. destruct (Hmod g) as [H1 H2]. destruct (gasg groups g x) as [w|] eqn:E.
      { intros [= <-]. split; [left; eauto|auto]. }
      destruct cur; [discriminate|]. destruct (str_eqb g s_all); [|discriminate]. intros E2. split; [right; exact E2|auto].
    Qed.
    Lemma attr_overwritten init h st v : inv1 init h st ->
      overwritten (Some init) x v = match st.1 with Some c => negb (oid c =? oid v)%N | None => false end.
    Proof.
      intros (Hw & _ & Hv & _). unfold overwritten. rewrite (get_attr_vars group_cls init x Hw (proj1 Hx) group_var_module), Hv.
      destruct st.1; [reflexivity|]. destruct (str_in x (c_attrs group_cls)) eqn:E; [|reflexivity].
      apply str_in_true in E. exfalso. apply (proj2 (proj2 Hx)). exact E.
    Qed.

    Lemma step_attr g init w h st : load_group e inv groups g (Some init) = Ok w -> inv1 init h st ->
      let h' := match dget x (exported group_cls w) with
                | Some v => (rec1 o g (overwritten (Some init) x v) x v h).1 | None => h end in
      inv1 w h' (astep st g) /\
      (aok st g <-> match dget x (exported group_cls w) with
                    | Some v => (rec1 o g (overwritten (Some init) x v) x v h).2 = [] | None => True end).
    Proof.
      intros E Hi. pose proof Hi as (Hw & Hex & Hv & Hh & Hc).
      apply load_group_get in E as (Hww & mo & m & Ew & Hmn & Hm); [|exact Hgroups|exact Hw].
      specialize (Hm x group_var_name). rewrite Hex in Hm.
      assert (Hm' : dget x m = match eff groups x g st.1 with Some v => Some v | None => st.1 end).
      { rewrite Hm. unfold eff. destruct (gasg groups g x); [reflexivity|]. destruct st.1; [reflexivity|].
        destruct (str_eqb g s_all); [destruct (inventory_value e inv x)|]; reflexivity. }
      assert (Hvars : dget x (vars w) = (astep st g).1).
      { rewrite Ew, vars_wrap by (apply group_var_module || apply group_var_name). rewrite dget_rev by exact Hmn. rewrite Hm'.
        unfold astep. destruct (eff groups x g st.1); [reflexivity|]. destruct st.1; reflexivity. }
      assert (Hmodu : forall v, dget x (vars init) = Some v -> is_module v = false).
      { intros v Ev. rewrite Hv in Ev. unfold exported in Hex. rewrite dget_filter in Hex by (apply vars_nodup; exact Hw).
        rewrite Hv, Ev in Hex. cbn in Hex. destruct (is_exported group_cls x v) eqn:Eexp; [|discriminate].
        unfold is_exported in Eexp. destruct (is_module v); [|reflexivity]. rewrite orb_true_r in Eexp. discriminate. }
      assert (Hexw : dget x (exported group_cls w) = dget x (vars w)).
      { apply exported_plain; [exact Hww|apply Hx| |cbn; apply not_elem_of_nil|].
        { cbn [c_annot group_cls]. rewrite elem_of_list_singleton. apply group_var_name. }
        intros v Ev. rewrite Hvars in Ev. unfold astep in Ev. destruct (eff groups x g st.1) as [v'|] eqn:Eeff; cbn in Ev.
        - injection Ev as <-. eapply eff_known. exact Eeff.
        - apply Hmodu. congruence. }
      rewrite Hexw, Hvars.
      unfold astep, aok. destruct (eff groups x g st.1) as [v|] eqn:Eeff; cbn [fst snd]; unfold astep in Hvars; rewrite Eeff in Hvars; cbn [fst snd] in Hvars.
      - destruct (eff_known _ _ _ Eeff) as [Hk _]. apply Hknown in Hk.
        rewrite (attr_overwritten init h st v Hi).
        destruct st as [[c|] hs]; cbn [fst snd] in *.
        + destruct Hc as [Hp Hkc]. cbn [changed]. destruct (N.eqb_spec (oid c) (oid v)) as [Eo|No]; cbn [negb].
          * pose proof (Hid c v Hkc Hk Eo) as <-. unfold rec1. cbn [orb].
            rewrite bool_decide_true by exact Hp. cbn [negb]. split.
            { split_and!; try assumption; try (cbn; congruence). cbn. split; assumption. }
            { split; [reflexivity|]. intros _ v0 [= <-] H. rewrite N.eqb_refl in H. discriminate. }
          * unfold rec1. cbn [orb negb]. rewrite andb_false_r. cbn [fst snd negb].
            split.
            { split_and!; try assumption; try (cbn; congruence). cbn. rewrite map_app, Hh. reflexivity.
              cbn. unfold prevv. rewrite last_snoc. split; [reflexivity|exact Hk]. }
            { split.
              - intros H. specialize (H v eq_refl). rewrite (proj2 (N.eqb_neq _ _) No) in H. specialize (H eq_refl). rewrite <- Hh in H.
                assert (Hf : List.filter (fun p => (o_min o g <=? o_max o (sn_actor p))%Z && (sn_def p || true)) h = []).
                { clear -H. induction h as [|s h IH]; [reflexivity|]. cbn. rewrite (proj2 (Z.leb_gt _ _)).
                  - cbn. apply IH. intros p Hp. apply H. right. exact Hp.
                  - apply H. left. }
                rewrite Hf. reflexivity.
              - intros Hf v0 _ _ p Hpin. rewrite <- Hh in Hpin. apply elem_of_list_fmap in Hpin as (s & -> & Hs).
                apply map_eq_nil in Hf. destruct (Z.lt_ge_cases (o_max o (sn_actor s)) (o_min o g)) as [|Hge]; [assumption|].
                assert (Hin : s ∈ List.filter (fun p => (o_min o g <=? o_max o (sn_actor p))%Z && (sn_def p || true)) h).
                { apply elem_of_list_In, filter_In. split; [apply elem_of_list_In; exact Hs|].
                  rewrite orb_true_r, andb_true_r. apply Z.leb_le. exact Hge. }
                rewrite Hf in Hin. inversion Hin. }
        + subst h. cbn [changed]. unfold rec1. cbn [prevv last orb].
          cbn in Hh. subst hs.
          destruct (decide (oval v = VNone)) as [En|Nn].
          * rewrite (bool_decide_true (oval v = VNone)) by exact En. rewrite bool_decide_true by congruence. cbn [negb fst snd]. split.
            { split_and!; try assumption; try (cbn; congruence). cbn. split; [congruence|exact Hk]. }
            { split; [reflexivity|]. intros _ v0 _ _ p Hp. inversion Hp. }
          * rewrite (bool_decide_false (oval v = VNone)) by exact Nn. rewrite bool_decide_false by congruence. cbn [negb fst snd]. split.
            { split_and!; try assumption; try (cbn; congruence). cbn. split; [reflexivity|exact Hk]. }
            { split; [reflexivity|]. intros _ v0 _ _ p Hp. inversion Hp. }
      - split.
        + destruct st.1 as [c|] eqn:Ec.
          * rewrite (attr_overwritten init h st c Hi), Ec, N.eqb_refl. unfold rec1. destruct Hc as [Hp Hk]. cbn [orb negb].
            rewrite bool_decide_true by exact Hp. cbn [negb fst]. unfold inv1. rewrite Ec. split_and!; try assumption; congruence.
          * unfold inv1. rewrite Ec. split_and!; try assumption; congruence.
        + split; [|intros _ v H; discriminate]. intros _. destruct st.1 as [c|] eqn:Ec; [|exact I].
          rewrite (attr_overwritten init h st c Hi), Ec, N.eqb_refl. unfold rec1. destruct Hc as [Hp Hk]. cbn [orb negb].
          rewrite bool_decide_true by exact Hp. reflexivity.
    Qed.
  End attr.

  Lemma load_groups_attr x (known : obj -> Prop) : group_var x -> (forall g, nomod groups x g) -> (forall v, known0 x v -> known v) ->
    (forall a b, known a -> known b -> oid a = oid b -> a = b) ->
    forall l init hist conf w' hist' conf' st,
    load_groups e inv groups o l init (hist, conf) = Ok (w', (hist', conf')) -> inv1 x known init (hx hist x) st ->
    inv1 x known w' (hx hist' x) (foldl (astep x) st l) /\ (conf' = [] -> conf = [] /\ aoks x st l).
  Proof.
    intros Hx Hmod Hk Hid. induction l as [|g l IH]; intros init hist conf w' hist' conf' st E Hi; cbn in E.
    { injection E as <- <- <-. cbn. auto. }
    destruct (load_group e inv groups g (Some init)) as [w|] eqn:El; cbn in E; [|discriminate].
    destruct (exported_variables group_cls w) as [vs|] eqn:Ev; cbn in E; [|discriminate]. apply exported_ok in Ev as ->.
    destruct (step_attr x Hx Hmod known Hk Hid g init w (hx hist x) st El Hi) as [Hi' Hok].
    assert (Hw : wf w) by apply Hi'.
    destruct (record_all_spec o g init (exported group_cls w) (exported_nodup _ _ Hw) hist conf) as [H1 H2].
    destruct (record_all o g (Some init) (Some g) (exported group_cls w) (hist, conf)) as [hist1 conf1]. cbn [fst snd] in H1, H2.
    eapply IH in E; [|rewrite H1; exact Hi']. destruct E as [E1 E2]. split; [exact E1|].
    intros Hc. destruct (E2 Hc) as [Hc1 Ha]. apply H2 in Hc1 as [-> Hn]. split; [reflexivity|]. split; [|exact Ha].
    apply Hok. destruct (dget x (exported group_cls w)) eqn:Ex; [|exact I]. apply Hn. exact Ex.
  Qed.

  (** ** No conflicts at all *)
  Section complete.
    Variable known : pystr -> obj -> Prop.
    Hypothesis Hmod : forall x g, nomod groups x g.
    Hypothesis Hknown : forall x v, known0 x v -> known x v.
    Hypothesis Hid : forall x a b, known x a -> known x b -> oid a = oid b -> a = b.
    (** no names with a special meaning are assigned *)
    Hypothesis Hplain : forall x g, x ∈ base_attrs -> gasg groups g x = None /\ inventory_value e inv x = None.

    Definition inv_all (init : wrapper) (hist : history) (st : pystr -> option obj * list pystr) : Prop :=
      wf init /\ (forall x, group_var x -> inv1 x (known x) init (hx hist x) (st x)) /\
      (forall x, x ∈ base_attrs -> x <> lit "module" -> dget x (exported group_cls init) = None) /\
      (exists c, dget (lit "module") (exported group_cls init) = Some c /\ is_module c = false /\
         get_attr group_cls init (lit "module") = Some (FObj c) /\
         (hx hist (lit "module") = [] \/ prevv (hx hist (lit "module")) = oval c)).

    Lemma exported_usable w x v : wf w -> dget x (exported group_cls w) = Some v -> private x = false /\ x <> lit "name".
    Proof.
      intros Hw E. unfold exported in E. rewrite dget_filter in E by (apply vars_nodup; exact Hw).
      destruct (dget x (vars w)) as [v'|]; [|discriminate]. cbn in E.
      destruct (is_exported group_cls x v') eqn:Ex; [|discriminate]. unfold is_exported in Ex.
      destruct (private x); [discriminate|]. split; [reflexivity|]. intros ->. cbn in Ex. discriminate.
    Qed.

    Lemma load_groups_complete : forall l init hist st, inv_all init hist st -> NoDup l ->
      (forall x, group_var x -> aoks x (st x) l) -> forall w' st', load_groups e inv groups o l init (hist, []) = Ok (w', st') -> st'.2 = [].
    Proof.
      induction l as [|g l IH]; intros init hist st Hi Hn Ha w' st' E; cbn in E.
      { injection E as <- <-. reflexivity. }
      destruct (load_group e inv groups g (Some init)) as [w|] eqn:El; cbn in E; [|discriminate].
      destruct (exported_variables group_cls w) as [vs|] eqn:Ev; cbn in E; [|discriminate]. apply exported_ok in Ev as ->.
      destruct Hi as (Hw0 & Hvar & Hbase & (c & Hc1 & Hc2 & Hc3 & Hc4)).
      pose proof El as El'. apply load_group_get in El' as (Hw & mo & m & Ew & Hmn & Hm); [|exact Hgroups|exact Hw0].
      assert (Hmodule : dget (lit "module") m = Some c).
      { rewrite Hm by discriminate. destruct (Hplain (lit "module") g) as [-> _]; [unfold base_attrs; left|]. rewrite Hc1. reflexivity. }
      assert (Hmodule' : dget (lit "module") (exported group_cls w) = Some c).
      { unfold exported. rewrite dget_filter by (apply vars_nodup; exact Hw). rewrite Ew. unfold vars. cbn [w_module].
        rewrite dget_dupdate, dget_rev, Hmodule by exact Hmn. cbn [fst snd]. unfold is_exported. rewrite Hc2. reflexivity. }
      assert (Hbase' : forall x, x ∈ base_attrs -> x <> lit "module" -> dget x (exported group_cls w) = None).
      { intros x Hx Hne. unfold exported. rewrite dget_filter by (apply vars_nodup; exact Hw).
        assert (Hnx : x <> lit "name").
        { intros ->. apply str_in_true in Hx. vm_compute in Hx. discriminate. }
        rewrite Ew, vars_wrap by assumption. rewrite dget_rev by exact Hmn. rewrite Hm by assumption.
        destruct (Hplain x g Hx) as [-> Hni]. rewrite Hbase by assumption. rewrite Hni. destruct (str_eqb g s_all); reflexivity. }
      destruct (record_all_spec o g init (exported group_cls w) (exported_nodup _ _ Hw) hist []) as [H1 H2].
      destruct (record_all o g (Some init) (Some g) (exported group_cls w) (hist, [])) as [hist1 conf1]. cbn [fst snd] in H1, H2.
      apply NoDup_cons in Hn as [_ Hn].
      assert (Hov : overwritten (Some init) (lit "module") c = false).
      { unfold overwritten. rewrite Hc3, N.eqb_refl. reflexivity. }
      assert (Hc : conf1 = []).
      { apply H2. split; [reflexivity|]. intros y v Ey. destruct (exported_usable _ _ _ Hw Ey) as [Hp Hnm].
        destruct (decide (y = lit "module")) as [->|Hne].
        - rewrite Hmodule' in Ey. apply (inj Some) in Ey as <-. rewrite Hov. unfold rec1. cbn [orb].
          destruct Hc4 as [-> | ->].
          + cbn. destruct (negb _); reflexivity.
          + rewrite bool_decide_true by reflexivity. reflexivity.
        - destruct (decide (y ∈ base_attrs)) as [Hb|Hb]; [rewrite Hbase' in Ey by assumption; discriminate|].
          assert (Hgv : group_var y) by (split_and!; assumption).
          destruct (step_attr y Hgv (Hmod y) (known y) (Hknown y) (Hid y) g init w (hx hist y) (st y) El (Hvar y Hgv)) as [_ Hok].
          rewrite Ey in Hok. apply Hok. apply (Ha y Hgv). }
      subst conf1. refine (IH w hist1 (fun x => astep x (st x) g) _ Hn _ _ _ E).
      - split; [exact Hw|]. split_and!.
        + intros x Hgv. destruct (step_attr x Hgv (Hmod x) (known x) (Hknown x) (Hid x) g init w (hx hist x) (st x) El (Hvar x Hgv)) as [Hi _].
          rewrite H1. exact Hi.
        + exact Hbase'.
        + exists c. split_and!; [exact Hmodule'|exact Hc2| |].
          * rewrite Ew. unfold get_attr. cbn [w_module]. rewrite Hmodule. reflexivity.
          * right. rewrite H1, Hmodule', Hov. unfold rec1. cbn [orb].
            destruct (decide (prevv (hx hist (lit "module")) = oval c)) as [Ep|Np].
            { rewrite bool_decide_true by exact Ep. exact Ep. }
            { rewrite bool_decide_false by exact Np. cbn [negb fst]. unfold prevv. rewrite last_snoc. reflexivity. }
      - intros x Hgv. apply (Ha x Hgv).
    Qed.
  End complete.
End vars.

(** ** The beginning: variables of the declaration of the host *)
Section early.
  Variable e : env.
  Variable o : order.
  Variable host : pystr.
  Variable d : hostdecl.
  Definition early_ns : ns := (lit "host", opaque e (lit "decl:" ++ host)) :: hd_vars d.

  Lemma record_early vs : NoDup vs.*1 -> forall hist,
    let st := record_all o s_early None (Some s_early) vs (hist, []) in
    (forall x, (forall v, dget x vs = Some v -> hx hist x = []) ->
       match dget x vs with
       | Some v => exists b, hx st.1 x = [Snapshot b s_early (oval v)]
       | None => hx st.1 x = hx hist x end) /\ st.2 = [].
  Proof.
    unfold record_all. induction vs as [|[k v] vs IH]; intros Hn hist; cbn [foldl]; cbv zeta.
    { cbn. auto. }
    cbn in Hn. apply NoDup_cons in Hn as [Hk Hn]. unfold record_change at 2. cbn [fst snd].
    match goal with |- context [foldl _ (dset k ?l hist, _) vs] => set (hist1 := dset k l hist) end.
    rewrite app_nil_r. destruct (IH Hn hist1) as [H1 H2]. split; [|exact H2].
    intros x Hx. cbn [dget] in Hx |- *. destruct (str_eqb_spec x k) as [Ex|Hne].
    - subst x. specialize (H1 k). destruct (dget k vs) eqn:E.
      { exfalso. apply Hk. apply dget_Some_in in E. apply elem_of_list_fmap. eexists (_, _). split; [reflexivity|exact E]. }
      rewrite H1 by discriminate. unfold hist1, hx. rewrite dget_dset_same.
      specialize (Hx v eq_refl). unfold hx in Hx. destruct (dget k hist); [subst l|]; eexists; reflexivity.
    - specialize (H1 x). assert (Hh : hx hist1 x = hx hist x).
      { unfold hx, hist1. rewrite dget_dset_other by exact Hne. reflexivity. }
      rewrite Hh in H1. apply H1. intros w Ew. apply (Hx w Ew).
  Qed.

  Hypothesis Hnd : NoDup early_ns.*1.

  Lemma early_wf : wf (early_wrapper e host d).
  Proof. split; cbn [w_dict w_module early_wrapper]; [apply (bool_decide_unpack _); vm_compute; exact I|]. apply dupdate_nodup. constructor. Qed.
  Lemma early_vars x : x <> lit "module" -> x <> lit "name" -> dget x (vars (early_wrapper e host d)) = dget x early_ns.
  Proof.
    intros Hm Hn. unfold vars, early_wrapper. cbn [w_module]. cbn in Hnd. apply NoDup_cons in Hnd as [Hh Hv].
    rewrite dget_dupdate_nodup by (apply dupdate_nodup; constructor).
    rewrite dget_dupdate_nodup by exact Hv. unfold early_ns. cbn [dget].
    destruct (str_eqb_spec x (lit "host")) as [->|Hne].
    - rewrite (proj2 (dget_None _ _) Hh). reflexivity.
    - destruct (dget x (hd_vars d)); [reflexivity|]. rewrite dget_instance by exact Hm. cbn [w_dict dget].
      rewrite (proj2 (str_eqb_false _ _) Hn), (proj2 (str_eqb_false _ _) Hne). reflexivity.
  Qed.
  Definition early_st (x : pystr) : option obj * list pystr :=
    (dget x early_ns, match dget x early_ns with Some _ => [s_early] | None => [] end).
  Lemma early_inv x (known : obj -> Prop) : group_var x -> (forall v, dget x early_ns = Some v -> is_module v = false /\ known v) ->
    inv1 x known (early_wrapper e host d) (hx (early_history e o host d).1 x) (early_st x).
  Proof.
    intros Hx Hk. destruct (record_early early_ns Hnd []) as [H1 _]. fold (early_history e o host d) in H1.
    change (record_all o s_early None (Some s_early) early_ns ([], [])) with (early_history e o host d) in H1.
    specialize (H1 x ltac:(intros; reflexivity)).
    assert (Hv : dget x (vars (early_wrapper e host d)) = dget x early_ns).
    { apply early_vars; [|apply Hx]. intros ->. apply (proj2 (proj2 Hx)). unfold base_attrs. left. }
    split_and!; [apply early_wf| |exact Hv| |].
    - rewrite exported_plain; [exact Hv|apply early_wf|apply Hx| |cbn; apply not_elem_of_nil|].
      + cbn [c_annot group_cls]. rewrite elem_of_list_singleton. apply Hx.
      + intros v Ev. rewrite Hv in Ev. apply (Hk v Ev).
    - unfold early_st. cbn [snd]. destruct (dget x early_ns); [destruct H1 as [b ->]; reflexivity|rewrite H1; reflexivity].
    - unfold early_st. cbn [fst]. destruct (dget x early_ns) as [v|]; [|exact H1]. destruct H1 as [b ->]. split; [reflexivity|apply (Hk v eq_refl)].
  Qed.
  Lemma early_conf : (early_history e o host d).2 = [].
  Proof. apply (record_early early_ns Hnd []). Qed.
End early.
