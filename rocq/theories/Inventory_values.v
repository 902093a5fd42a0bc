(** Precedence of definitions; independence of the order of unrelated groups. *)
From Coq Require Import Lia ZifyBool ZifyNat.
From Verif Require Import Base Paths Urls Wrapper Spec_Wrapper Wrapper_proofs Ranks Spec_Ranks Ranks_proofs Dict_proofs Inventory
  Spec_Inventory Inventory_proofs Inventory_proofs2 Inventory_vars.

Lemma latest_app l1 l2 : latest (l1 ++ l2) = match latest l2 with Some v => Some v | None => latest l1 end.
Proof.
  induction l1 as [|a l1 IH]; cbn; [destruct (latest l2); reflexivity|]. rewrite IH.
  destruct (latest l2); [reflexivity|]. reflexivity.
Qed.
Lemma latest_in l v : latest l = Some v -> Some v ∈ l.
Proof.
  induction l as [|a l IH]; cbn; [discriminate|]. destruct (latest l) as [w|].
  - intros E. right. apply IH. exact E.
  - intros ->. left.
Qed.

Definition host_groups (l : loaded) (d : hostdecl) : list pystr :=
  List.filter (fun g => str_in g (hd_groups d)) (o_names (l_order l)).

Lemma group_var_ne_module x : group_var x -> x <> lit "module".
Proof. intros (_ & _ & H) ->. apply H. unfold base_attrs. left. Qed.
Lemma exported_not_module c w x v : wf w -> dget x (exported c w) = Some v -> is_module v = false /\ dget x (vars w) = Some v.
Proof.
  intros Hw E. unfold exported in E. rewrite dget_filter in E by (apply vars_nodup; exact Hw).
  destruct (dget x (vars w)) as [v'|]; [|discriminate]. cbn in E.
  destruct (is_exported c x v') eqn:Ex; [|discriminate]. injection E as <-. unfold is_exported in Ex.
  destruct (is_module v'); [rewrite orb_true_r in Ex; discriminate|auto].
Qed.

Section values.
  Variable e : env.
  Variable A : pystr -> option ns.
  Hypothesis HA : files_constant e A.
  Variable inv : wrapper.
  Hypothesis Hinv : wf inv.
  Variable groups : list (pystr * groupdecl).
  Hypothesis Hgroups : forall k d, dget k groups = Some d -> gd_name d = k.
  Variable x : pystr.
  Hypothesis Hx : group_var x.
  Hypothesis Hmod : forall g, nomod e A inv groups x g.

  Definition nxt (cur : option obj) (g : pystr) : option obj :=
    match eff e A inv groups x g cur with Some v => Some v | None => cur end.

  Lemma value_step g init w : load_group e inv groups g (Some init) = Ok w -> wf init ->
    wf w /\ dget x (exported group_cls w) = nxt (dget x (exported group_cls init)) g.
  Proof.
    intros E Hi. pose proof E as E'. apply (load_group_get e A HA inv Hinv) in E' as (Hw & mo & m & Ew & Hmn & Hm); [|assumption..].
    split; [exact Hw|]. pose proof (group_var_ne_module x Hx) as Hne. destruct Hx as (Hp & Hn & Hb).
    assert (Hv : dget x (vars w) = nxt (dget x (exported group_cls init)) g).
    { rewrite Ew, vars_wrap by assumption. rewrite dget_rev, Hm by assumption. unfold nxt, eff.
      destruct (gasg e A groups g x); [reflexivity|]. destruct (dget x (exported group_cls init)); [reflexivity|].
      destruct (str_eqb g s_all); [destruct (inventory_value e inv x)|]; reflexivity. }
    rewrite <- Hv. apply exported_plain; [exact Hw|exact Hp| |cbn; apply not_elem_of_nil|].
    { cbn [c_annot group_cls]. rewrite elem_of_list_singleton. exact Hn. }
    intros v Ev. rewrite Hv in Ev. unfold nxt in Ev. destruct (eff e A inv groups x g _) as [v'|] eqn:Ee.
    - injection Ev as <-. destruct (Hmod g) as [M1 M2]. unfold eff in Ee. destruct (gasg e A groups g x) eqn:Eg; [apply M1; congruence|].
      destruct (dget x (exported group_cls init)); [discriminate|]. destruct (str_eqb g s_all); [apply M2; exact Ee|discriminate].
    - apply (exported_not_module group_cls init x v Hi Ev).
  Qed.
  Lemma load_groups_value o : forall l init st w st', load_groups e inv groups o l init st = Ok (w, st') -> wf init ->
    wf w /\ dget x (exported group_cls w) = foldl nxt (dget x (exported group_cls init)) l.
  Proof.
    induction l as [|g l IH]; intros init st w st' E Hi; cbn in E.
    { injection E as <- <-. auto. }
    destruct (load_group e inv groups g (Some init)) as [w1|] eqn:El; cbn in E; [|discriminate].
    destruct (exported_variables group_cls w1) as [vs|] eqn:Ev; cbn in E; [|discriminate].
    apply value_step in El as [Hw1 E1]; [|exact Hi]. apply IH in E as [Hw E2]; [|exact Hw1].
    split; [exact Hw|]. rewrite E2, E1. reflexivity.
  Qed.
  Lemma nxt_latest : forall l cur, foldl nxt cur l =
    latest ((if str_in s_all l then inventory_value e inv x else None) :: cur :: List.map (fun g => gasg e A groups g x) l).
  Proof.
    induction l as [|g l IH]; intros cur; cbn [foldl].
    { cbn. destruct cur; reflexivity. }
    rewrite IH. cbn [latest List.map]. destruct (latest (List.map _ l)) as [v|]; [reflexivity|].
    unfold nxt, eff. destruct (gasg e A groups g x) as [v|]; [reflexivity|].
    change (str_in s_all (g :: l)) with (str_eqb s_all g || str_in s_all l).
    destruct cur as [v|]; [reflexivity|]. destruct (str_eqb_spec g s_all) as [->|Hne].
    - rewrite str_eqb_refl. cbn [orb]. destruct (inventory_value e inv x); [reflexivity|]. destruct (str_in s_all l); reflexivity.
    - rewrite (proj2 (str_eqb_false s_all g)) by congruence. reflexivity.
  Qed.
End values.

Section host.
  Variable e : env.
  Variable A : pystr -> option ns.
  Hypothesis HA : files_constant e A.

  Lemma host_fields_keys h n : (host_fields e h n).*1 = host_members.
  Proof. reflexivity. Qed.
  Lemma load_host_get hosts host d init w : dget host hosts = Some d -> load_host e hosts host init = Ok w -> wf init ->
    exists n, hd_name d = Some n /\ wf w /\
    forall x, host_var x -> dget x (vars w) =
      match assigned A (host_path e d n) x with Some v => Some v | None => dget x (exported group_cls init) end.
  Proof.
    intros Ed E Hi. unfold load_host in E. rewrite Ed in E. destruct (hd_name d) as [n|] eqn:En; [|discriminate].
    exists n. split; [reflexivity|]. destruct (exported_variables group_cls init) as [vs|] eqn:Ev; cbn in E; [|discriminate].
    apply exported_ok in Ev as ->. cbn in E.
    match type of E with context [run_module e ?f ?p ?m] => destruct (run_module e f p m) as [m'|] eqn:Er; [|discriminate] end.
    cbn in E. apply Ok_inj in E. apply (run_module_get e A HA) in Er as [Hn Hm].
    assert (Hmn : NoDup m'.*1).
    { apply Hn, dupdate_nodup. apply (bool_decide_unpack _). vm_compute. exact I. }
    assert (Hw : wf w).
    { rewrite <- E. split; [|exact Hmn]. apply (bool_decide_unpack _). vm_compute. exact I. }
    split; [exact Hw|]. intros x (Hg & Hh & Hm2). pose proof (group_var_ne_module x Hg) as Hne.
    rewrite dget_vars by exact Hw. rewrite <- E. cbn [w_module]. rewrite Hm.
    assert (Hp : match hd_file d with
                 | Some f => path_join (e_base e) f
                 | None => path_join3 (e_base e) (e_hosts_dir e) (n ++ lit ".py") end = host_path e d n).
    { unfold host_path. reflexivity. }
    rewrite Hp. destruct (assigned A (host_path e d n) x); [reflexivity|].
    rewrite dget_dupdate_nodup by (apply exported_nodup; exact Hi).
    destruct (dget x (exported group_cls init)); [reflexivity|].
    rewrite elem_of_app in Hm2.
    assert (N1 : dget x (host_fields e d n) = None) by (apply dget_None; rewrite host_fields_keys; tauto).
    match goal with |- match dget x ?l with _ => _ end = _ => assert (N2 : dget x l = None) end.
    { apply dget_None. intros H. apply Hm2, elem_of_app. exact H. }
    rewrite N2, dget_instance by exact Hne. cbn [w_dict]. exact N1.
  Qed.

  Variable inv : wrapper.
  Hypothesis Hinv : wf inv.
  Definition contributions (l : loaded) (d : hostdecl) (n x : pystr) : list (option obj) :=
    [inventory_value e inv x; dget x (hd_vars d)] ++
    List.map (fun g => assigned A (group_path e (l_groups l) g) x) (host_groups l d) ++
    [assigned A (host_path e d n) x].

  Lemma host_all hs gs l host d : accepted hs gs l -> dget host (l_hosts l) = Some d -> s_all ∈ host_groups l d /\ hd_name d = Some host.
  Proof.
    intros Ha Hd. destruct (acc_hosts _ _ _ Ha) as [HF _]. apply dget_Some_in in Hd.
    apply elem_of_list_lookup in Hd as [i Hi]. destruct (Forall2_lookup_r _ _ _ _ _ HF Hi) as (h & _ & Hent).
    destruct Hent as (Hn & _ & Hg & _). split; [|exact Hn]. unfold host_groups. apply elem_of_list_In, filter_In. split.
    - apply elem_of_list_In, (acc_names _ _ _ Ha). unfold group_exists. auto.
    - apply str_in_true, Hg. auto.
  Qed.

  Theorem host_values hs gs l host d w hist x :
    accepted hs gs l -> dget host (l_hosts l) = Some d ->
    NoDup (lit "host" :: (hd_vars d).*1) -> host_var x ->
    (forall v p, assigned A p x = Some v -> is_module v = false) ->
    (forall v, inventory_value e inv x = Some v \/ dget x (hd_vars d) = Some v -> is_module v = false) ->
    instanciate_host e inv l host = Ok (w, hist) ->
    forall v, own w x v <-> latest (contributions l d host x) = Some v.
  Proof.
    intros Hacc Hd Hnd Hx Hm1 Hm2 E v. unfold instanciate_host in E. rewrite Hd in E.
    fold (host_groups l d) in E.
    destruct (load_groups e inv (l_groups l) (l_order l) (host_groups l d) _ _) as [[init [h c]]|] eqn:El; cbn in E; [|discriminate].
    destruct c; [|discriminate].
    destruct (load_host e (l_hosts l) host init) as [w'|] eqn:Eh; cbn in E; [|discriminate].
    destruct (exported_variables host_cls w') as [vs|]; cbn in E; [|discriminate]. injection E as -> _.
    assert (Hg : forall k dd, dget k (l_groups l) = Some dd -> gd_name dd = k).
    { intros k dd Hk. apply (acc_file _ _ _ Hacc). exact Hk. }
    assert (Hgv : group_var x) by apply Hx.
    apply (load_groups_value e A HA inv Hinv (l_groups l) Hg x Hgv) in El as [Hwi Hval]; [| |apply early_wf].
    2: { intros g. split; [intros v0 Hv0; eapply Hm1; exact Hv0|intros v0 Hv0; apply Hm2; auto]. }
    destruct (load_host_get _ _ _ _ _ Hd Eh Hwi) as (n & Hn & Hw & Hvars).
    destruct (host_all _ _ _ _ _ Hacc Hd) as [Hall Hname]. rewrite Hname in Hn. apply (inj Some) in Hn as <-.
    rewrite own_vars by (exact Hw || apply group_var_ne_module; exact Hgv). rewrite Hvars by exact Hx. rewrite Hval.
    rewrite (nxt_latest e A inv (l_groups l) x), (proj2 (str_in_true _ _) Hall).
    assert (Hearly : dget x (exported group_cls (early_wrapper e host d)) = dget x (hd_vars d)).
    { assert (Hev : dget x (vars (early_wrapper e host d)) = dget x (hd_vars d)).
      { rewrite early_vars; [|exact Hnd|apply group_var_ne_module; exact Hgv|apply Hgv]. unfold early_ns. cbn [dget].
        rewrite (proj2 (str_eqb_false _ _) (proj1 (proj2 Hx))). reflexivity. }
      rewrite exported_plain; [exact Hev|apply early_wf|apply Hgv| |cbn; apply not_elem_of_nil|].
      - cbn [c_annot group_cls]. rewrite elem_of_list_singleton. apply Hgv.
      - intros v0 Hv0. apply Hm2. rewrite Hev in Hv0. auto. }
    rewrite Hearly. unfold contributions.
    rewrite (assoc_L app), latest_app. cbn [latest].
    destruct (assigned A (host_path e d host) x); reflexivity.
  Qed.
End host.
