(** Acceptance of declarations, and the resulting order. *)
From Coq Require Import Lia ZifyBool ZifyNat.
From Verif Require Import Base Urls Wrapper Ranks Spec_Ranks Ranks_proofs Dict_proofs Inventory Spec_Inventory Inventory_proofs.

Section decls.
  Variable e : env.
  Hypothesis Hset : set_ok e.

  (** ** Hosts *)
  Lemma preprocess_host_ok H h H' : preprocess_host e H h = Ok H' ->
    exists nd, H' = H ++ [nd] /\ host_entry h nd /\ nd.1 ∉ H.*1.
  Proof.
    unfold preprocess_host. intros E.
    destruct h as [u|d| |]; cbn in E; try discriminate.
    - destruct (extract_hostname (qualify_url u)) as [n|] eqn:En; cbn in E; [|discriminate].
      destruct (dhas n H) eqn:Eh; [discriminate|]. injection E as <-. apply dhas_false in Eh.
      rewrite dset_absent by assumption. eexists. split_and!; [reflexivity| |assumption].
      cbn. split_and!; try reflexivity; [|apply Hset|assumption].
      intros g. rewrite (in_set e Hset). rewrite elem_of_list_singleton. tauto.
    - destruct (hd_name d) as [n|] eqn:Ed; cbn in E.
      + destruct (dhas n H) eqn:Eh; [discriminate|]. injection E as <-. apply dhas_false in Eh.
        rewrite dset_absent by assumption. eexists. split_and!; [reflexivity| |assumption].
        cbn. rewrite Ed. split_and!; try reflexivity; [|apply Hset].
        intros g. rewrite (in_set e Hset), elem_of_app, elem_of_list_singleton. tauto.
      + destruct (hd_url d) as [u|] eqn:Eu; cbn in E; [|discriminate].
        destruct (extract_hostname (qualify_url u)) as [n|] eqn:En; cbn in E; [|discriminate].
        destruct (dhas n H) eqn:Eh; [discriminate|]. injection E as <-. apply dhas_false in Eh.
        rewrite dset_absent by assumption. eexists. split_and!; [reflexivity| |assumption].
        cbn. rewrite Ed, Eu. split_and!; try reflexivity; [|apply Hset|eauto].
        intros g. rewrite (in_set e Hset), elem_of_app, elem_of_list_singleton. tauto.
  Qed.
  Lemma preprocess_hosts_ok l : forall H H', preprocess_hosts e H l = Ok H' ->
    exists H2, H' = H ++ H2 /\ Forall2 host_entry l H2 /\ (NoDup H.*1 -> NoDup H'.*1).
  Proof.
    induction l as [|h l IH]; intros H H' E; cbn in E.
    { injection E as <-. exists []. rewrite app_nil_r. split_and!; auto. }
    destruct (preprocess_host e H h) as [H1|] eqn:E1; cbn in E; [|discriminate].
    apply preprocess_host_ok in E1 as (nd & -> & He & Hn). apply IH in E as (H2 & -> & HF & Hnd).
    exists (nd :: H2). split_and!; [rewrite <- (assoc_L app); reflexivity|constructor; assumption|].
    intros Hd. apply Hnd. rewrite fmap_app. apply NoDup_app. split_and!; [assumption| |apply NoDup_singleton].
    intros x Hx ->%elem_of_list_singleton. contradiction.
  Qed.

  (** ** Groups *)
  Definition plain_decl (n : pystr) : groupdecl := GroupDecl n None [] [].
  Definition finish G : list (pystr * groupdecl) :=
    let G := dset s_early (plain_decl s_early) G in
    if dhas s_all G then G else dset s_all (GroupDecl s_all None [s_early] []) G.

  Section finish.
    Variable ds : list groupdecl.
    Hypothesis Hnd : NoDup (List.map gd_name ds).
    Notation G0 := (List.map (norm e) ds).
    Notation G := (finish G0).
    Notation names := (List.map gd_name ds).

    Lemma all_early : s_all <> s_early.
    Proof. discriminate. Qed.

    Lemma finish_get g : dget g G =
      if decide (g = s_early) then Some (plain_decl s_early)
      else if decide (g = s_all /\ s_all ∉ names) then Some (GroupDecl s_all None [s_early] []) else dget g G0.
    Proof.
      unfold finish. destruct (dhas s_all (dset s_early (plain_decl s_early) G0)) eqn:E.
      - apply dhas_true in E. rewrite elem_of_dset_keys, norm_keys in E. destruct E as [E|E]; [discriminate|].
        rewrite dget_dset. destruct (decide (g = s_early)); [reflexivity|].
        rewrite decide_False; [reflexivity|tauto].
      - apply dhas_false in E. rewrite elem_of_dset_keys, norm_keys in E. rewrite !dget_dset.
        destruct (decide (g = s_all)) as [->|Hg].
        + rewrite decide_False by discriminate. rewrite decide_True; [reflexivity|]. tauto.
        + destruct (decide (g = s_early)); [reflexivity|]. rewrite decide_False; [reflexivity|tauto].
    Qed.
    Lemma finish_keys g : g ∈ G.*1 <-> g ∈ names \/ g = s_all \/ g = s_early.
    Proof.
      rewrite <- dget_is_Some, finish_get. destruct (decide (g = s_early)) as [->|].
      { split; [auto|]. eauto. }
      destruct (decide (g = s_all /\ s_all ∉ names)) as [[-> _]|Hn]; [split; eauto|].
      rewrite dget_is_Some, norm_keys. split; [auto|]. intros [H|[->|H]]; [assumption| |contradiction].
      destruct (decide (s_all ∈ names)); [assumption|tauto].
    Qed.
    Lemma norm_get g d : dget g G0 = Some d <-> exists d0, d0 ∈ ds /\ gd_name d0 = g /\ d = (norm e d0).2.
    Proof.
      split.
      - intros H. apply dget_Some_in in H. apply elem_of_list_fmap in H as (d0 & E & Hin).
        unfold norm in E. injection E as -> ->. exists d0. split_and!; auto.
      - intros (d0 & Hin & <- & ->). apply dget_in; [rewrite norm_keys; exact Hnd|].
        apply elem_of_list_fmap. exists d0. split; [reflexivity|exact Hin].
    Qed.
    Lemma finish_wf : wfG G.
    Proof.
      assert (Hk : NoDup G.*1).
      { unfold finish. destruct (dhas s_all _); repeat apply dset_nodup; rewrite norm_keys; exact Hnd. }
      split; [exact Hk|]. intros k d Hin. apply dget_in in Hin; [|exact Hk]. rewrite finish_get in Hin.
      destruct (decide (k = s_early)) as [->|]; [apply (inj Some) in Hin as <-; reflexivity|].
      destruct (decide (k = s_all /\ s_all ∉ names)) as [[-> _]|]; [apply (inj Some) in Hin as <-; reflexivity|].
      apply norm_get in Hin as (d0 & _ & <- & ->). reflexivity.
    Qed.
    Definition direct' (u v : pystr) : Prop :=
      (exists d, d ∈ ds /\ gd_name d = v /\ v <> s_early /\ (u ∈ gd_after d \/ (v <> s_all /\ u = s_all))) \/
      (exists d, d ∈ ds /\ gd_name d = u /\ u <> s_early /\ v ∈ gd_before d) \/
      (u = s_early /\ v = s_all /\ s_all ∉ names).
    Lemma finish_pre_after u v : pre_after G v u <-> direct' u v.
    Proof.
      unfold pre_after, direct'. setoid_rewrite finish_get. split.
      - intros [(d & E & Hu)|(d & E & Hv)].
        + destruct (decide (v = s_early)); [apply (inj Some) in E as <-; inversion Hu|].
          destruct (decide (v = s_all /\ s_all ∉ names)) as [[-> Hn]|].
          { apply (inj Some) in E as <-. apply elem_of_list_singleton in Hu as ->. auto. }
          apply norm_get in E as (d0 & Hd0 & <- & ->). cbn [norm snd gd_after] in Hu. rewrite (in_set e Hset), elem_of_app in Hu.
          left. exists d0. split_and!; auto. destruct Hu as [Hu|Hu]; [auto|].
          destruct (str_eqb_spec (gd_name d0) s_all); [inversion Hu|]. apply elem_of_list_singleton in Hu. auto.
        + destruct (decide (u = s_early)); [apply (inj Some) in E as <-; inversion Hv|].
          destruct (decide (u = s_all /\ s_all ∉ names)) as [[-> Hn]|]; [apply (inj Some) in E as <-; inversion Hv|].
          apply norm_get in E as (d0 & Hd0 & <- & ->). cbn [norm snd gd_before] in Hv. rewrite (in_set e Hset) in Hv.
          right. left. exists d0. auto.
      - intros [(d & Hd & <- & Hne & Hu)|[(d & Hd & <- & Hne & Hv)|(-> & -> & Hn)]].
        + left. exists (norm e d).2. rewrite decide_False by assumption. rewrite decide_False.
          2: { intros [E H]. apply H. rewrite <- E. apply elem_of_list_fmap. exists d. auto. }
          split; [apply norm_get; eauto|]. cbn [norm snd gd_after gd_before]. rewrite (in_set e Hset), elem_of_app.
          destruct Hu as [Hu|[Ha ->]]; [auto|]. right. rewrite (proj2 (str_eqb_false _ _) Ha). left.
        + right. exists (norm e d).2. rewrite decide_False by assumption. rewrite decide_False.
          2: { intros [E H]. apply H. rewrite <- E. apply elem_of_list_fmap. exists d. auto. }
          split; [apply norm_get; eauto|]. cbn [norm snd gd_after gd_before]. rewrite (in_set e Hset). exact Hv.
        + left. exists (GroupDecl s_all None [s_early] []). rewrite decide_False by discriminate.
          rewrite decide_True by auto. split; [reflexivity|]. left.
    Qed.
    Lemma finish_closed : closedG G <->
      forall d x, d ∈ ds -> gd_name d <> s_early -> x ∈ gd_after d \/ x ∈ gd_before d -> x ∈ G.*1.
    Proof.
      unfold closedG. split.
      - intros H d x Hd Hne Hx. apply (H (gd_name d) (norm e d).2).
        + apply dget_Some_in. rewrite finish_get, decide_False by assumption. rewrite decide_False; [apply norm_get; eauto|].
          intros [E Hn]. apply Hn. rewrite <- E. apply elem_of_list_fmap. eauto.
        + cbn [norm snd gd_after gd_before]. rewrite !(in_set e Hset), elem_of_app. tauto.
      - intros H k d x Hin Hx. apply dget_in in Hin; [|apply finish_wf]. rewrite finish_get in Hin.
        destruct (decide (k = s_early)); [apply (inj Some) in Hin as <-; destruct Hx as [Hx|Hx]; inversion Hx|].
        destruct (decide (k = s_all /\ s_all ∉ names)) as [[-> _]|].
        { apply (inj Some) in Hin as <-. destruct Hx as [Hx|Hx]; [|inversion Hx]. apply elem_of_list_singleton in Hx as ->.
          apply finish_keys. auto. }
        apply norm_get in Hin as (d0 & Hd0 & <- & ->). cbn [norm snd gd_after gd_before] in Hx. rewrite !(in_set e Hset), elem_of_app in Hx.
        destruct Hx as [[Hx|Hx]|Hx]; [eauto| |eauto].
        destruct (str_eqb (gd_name d0) s_all); [inversion Hx|]. apply elem_of_list_singleton in Hx as ->.
        apply finish_keys. auto.
    Qed.
  End finish.

  (** the declarations in effect *)
  Definition effective hosts (gs : option (list groupspec)) (ds : list groupdecl) : Prop :=
    match gs with
    | Some l => List.map spec_decl l = List.map Some ds
    | None => ds = List.map plain_decl (e_set e (List.concat (List.map (fun h : pystr * hostdecl => hd_groups h.2) hosts)))
    end.

  Lemma preprocess_groups_ok hosts gs G : preprocess_groups e hosts gs = Ok G <->
    exists ds, effective hosts gs ds /\ NoDup (List.map gd_name ds) /\ G = finish (List.map (norm e) ds).
  Proof.
    unfold preprocess_groups.
    assert (Hdef : List.map spec_decl (default_groups e hosts) = List.map Some
      (List.map plain_decl (e_set e (List.concat (List.map (fun h : pystr * hostdecl => hd_groups h.2) hosts))))).
    { unfold default_groups. rewrite !map_map. reflexivity. }
    set (l := match gs with Some l => l | None => default_groups e hosts end).
    split.
    - destruct (preprocess_group_list e [] l) as [G1|] eqn:E; cbn; [|discriminate]. intros [= <-].
      apply preprocess_list_ok in E as (ds & E1 & -> & Hn). exists ds. cbn in Hn. split_and!.
      + unfold effective. subst l. destruct gs as [l|]; [exact E1|]. rewrite Hdef in E1.
        apply (f_equal (List.map (fun o : option groupdecl => match o with Some d => d | None => plain_decl [] end))) in E1.
        rewrite !map_map in E1. cbn in E1. rewrite !map_id in E1. symmetry. exact E1.
      + rewrite <- (norm_keys e). apply Hn. constructor.
      + reflexivity.
    - intros (ds & He & Hn & ->). rewrite (preprocess_list_complete e l ds []); [reflexivity| |exact Hn].
      subst l. unfold effective in He. destruct gs as [l|]; [exact He|]. rewrite Hdef, <- He. reflexivity.
  Qed.

  Lemma declares_spec s n a b : declares s n a b <-> exists d, spec_decl s = Some d /\ gd_name d = n /\ gd_after d = a /\ gd_before d = b.
  Proof.
    split.
    - intros [m|d]; cbn; eauto 6.
    - intros (d & E & <- & <- & <-). destruct s as [m|d'| |]; cbn in E; try discriminate; injection E as <-; constructor.
  Qed.
  Lemma effective_in l ds d : List.map spec_decl l = List.map Some ds -> d ∈ ds <-> exists s, s ∈ l /\ spec_decl s = Some d.
  Proof.
    intros E. split.
    - intros Hd. assert (H : Some d ∈ List.map spec_decl l) by (rewrite E; apply elem_of_list_fmap; eauto).
      apply elem_of_list_fmap in H as (s & Hs & Hin). eauto.
    - intros (s & Hin & Hs). assert (H : Some d ∈ List.map Some ds).
      { rewrite <- E. apply elem_of_list_fmap. eauto. }
      apply elem_of_list_fmap in H as (d' & [= ->] & Hd). exact Hd.
  Qed.

  Section spec.
    Variable hs : list hostspec.
    Variable gs : option (list groupspec).
    Variable hosts : list (pystr * hostdecl).
    Hypothesis Hh : Forall2 host_entry hs hosts.
    Variable ds : list groupdecl.
    Hypothesis He : effective hosts gs ds.

    Lemma host_in_l h : h ∈ hs -> exists nd, nd ∈ hosts /\ host_entry h nd.
    Proof.
      intros Hin. apply elem_of_list_lookup in Hin as [i Hi]. destruct (Forall2_lookup_l _ _ _ _ _ Hh Hi) as (nd & Hnd & H).
      exists nd. split; [eapply elem_of_list_lookup_2; exact Hnd|exact H].
    Qed.
    Lemma host_in_r nd : nd ∈ hosts -> exists h, h ∈ hs /\ host_entry h nd.
    Proof.
      intros Hin. apply elem_of_list_lookup in Hin as [i Hi]. destruct (Forall2_lookup_r _ _ _ _ _ Hh Hi) as (h & Hx & H).
      exists h. split; [eapply elem_of_list_lookup_2; exact Hx|exact H].
    Qed.
    Lemma declared_names g : declared hs gs g <-> g ∈ List.map gd_name ds.
    Proof.
      unfold declared, effective in *. destruct gs as [l|].
      - setoid_rewrite declares_spec. rewrite elem_of_list_fmap. split.
        + intros (s & a & b & Hs & d & E & <- & _). exists d. split; [reflexivity|]. apply (effective_in _ _ _ He). eauto.
        + intros (d & -> & Hd). apply (effective_in _ _ _ He) in Hd as (s & Hs & E). exists s, (gd_after d), (gd_before d). eauto 6.
      - rewrite He, map_map. cbn. rewrite map_id, (in_set e Hset).
        rewrite elem_of_list_In, in_concat. setoid_rewrite in_map_iff. setoid_rewrite <- elem_of_list_In. split.
        + intros (h & Hin & Hg). destruct (host_in_l h Hin) as ([n d] & Hnd & Hent).
          exists (hd_groups d). split; [exists (n, d); auto|]. apply Hent. exact Hg.
        + intros (x & (nd & <- & Hnd) & Hg). destruct (host_in_r nd Hnd) as (h & Hin & Hent).
          exists h. split; [exact Hin|]. destruct nd as [n d]. apply Hent. exact Hg.
    Qed.
    Lemma direct_spec u v : direct hs gs u v <-> direct' ds u v.
    Proof.
      unfold direct, direct'. rewrite declared_names, declared_names. unfold effective in He. destruct gs as [l|].
      - split.
        + intros [(l' & s & a & b & [= <-] & Hs & Hd & Hu & Hne)|[(l' & s & a & b & [= <-] & Hs & Hd & Hv & Hne)|[(-> & Hd & Ha & Hb)|(-> & -> & Hn)]]].
          * apply declares_spec in Hd as (d & E & <- & <- & <-). left. exists d. split_and!; auto. apply (effective_in _ _ _ He). eauto.
          * apply declares_spec in Hd as (d & E & <- & <- & <-). right. left. exists d. split_and!; auto. apply (effective_in _ _ _ He). eauto.
          * apply elem_of_list_fmap in Hd as (d & -> & Hd). left. exists d. auto 6.
          * auto 8.
        + intros [(d & Hd & <- & Hne & [Hu|[Ha ->]])|[(d & Hd & <- & Hne & Hv)|(-> & -> & Hn)]].
          * left. apply (effective_in _ _ _ He) in Hd as (s & Hs & E). exists l, s, (gd_after d), (gd_before d).
            split_and!; auto. apply declares_spec. eauto.
          * right. right. left. split_and!; auto. apply elem_of_list_fmap. eauto.
          * right. left. apply (effective_in _ _ _ He) in Hd as (s & Hs & E). exists l, s, (gd_after d), (gd_before d).
            split_and!; auto. apply declares_spec. eauto.
          * auto 8.
      - assert (Hp : forall d, d ∈ ds -> gd_after d = [] /\ gd_before d = []).
        { intros d Hd. rewrite He in Hd. apply elem_of_list_fmap in Hd as (n & -> & _). auto. }
        split.
        + intros [(l' & s & a & b & [=] & _)|[(l' & s & a & b & [=] & _)|[(-> & Hd & Ha & Hb)|(-> & -> & Hn)]]].
          * apply elem_of_list_fmap in Hd as (d & -> & Hd). left. exists d. auto 6.
          * auto 8.
        + intros [(d & Hd & <- & Hne & [Hu|[Ha ->]])|[(d & Hd & <- & Hne & Hv)|(-> & -> & Hn)]].
          * rewrite (proj1 (Hp d Hd)) in Hu. inversion Hu.
          * right. right. left. split_and!; auto. apply elem_of_list_fmap. eauto.
          * rewrite (proj2 (Hp d Hd)) in Hv. inversion Hv.
          * auto 8.
    Qed.
    Lemma mentioned_spec : (forall g, mentioned hs gs g -> group_exists hs gs g) <->
      (forall n h g, (n, h) ∈ hosts -> g ∈ hd_groups h -> g ∈ List.map gd_name ds \/ g = s_all \/ g = s_early) /\
      (forall d x, d ∈ ds -> gd_name d <> s_early -> x ∈ gd_after d \/ x ∈ gd_before d -> x ∈ List.map gd_name ds \/ x = s_all \/ x = s_early).
    Proof.
      unfold group_exists. setoid_rewrite declared_names. split.
      - intros H. split.
        + intros n h g Hin Hg. destruct (host_in_r _ Hin) as (hsp & Hs & Hent).
          destruct Hent as (_ & _ & Hgr & _). destruct (proj1 (Hgr g) Hg) as [Hx| ->]; [|auto]. apply H. left. eauto.
        + intros d x Hd Hne Hx. unfold effective in He. destruct gs as [l|].
          * apply (effective_in _ _ _ He) in Hd as (s & Hs & E). apply H. right.
            exists l, s, (gd_name d), (gd_after d), (gd_before d). split_and!; auto. apply declares_spec. eauto.
          * rewrite He in Hd. apply elem_of_list_fmap in Hd as (n & -> & _). destruct Hx as [Hx|Hx]; inversion Hx.
      - intros [H1 H2] g [(h & Hin & Hg)|(l & s & n & a & b & E & Hs & Hd & Hne & Hx)].
        + destruct (host_in_l _ Hin) as ([n d] & Hnd & Hent). apply (H1 n d g Hnd). apply Hent. auto.
        + apply declares_spec in Hd as (d & Ed & <- & <- & <-). apply (H2 d g); [|assumption..].
          unfold effective in He. rewrite E in He. apply (effective_in _ _ _ He). eauto.
    Qed.
  End spec.

  Lemma specs_ok_spec hosts gs : specs_ok gs <-> exists ds, effective hosts gs ds /\ NoDup (List.map gd_name ds).
  Proof.
    unfold specs_ok, effective. destruct gs as [l|]; split.
    - intros H. destruct (H l eq_refl) as [H1 H2].
      assert (Hds : exists ds, List.map spec_decl l = List.map Some ds).
      { clear H H2. induction l as [|s l IH]; [exists []; reflexivity|].
        destruct IH as [ds IH]; [intros; apply H1; right; assumption|].
        destruct (H1 s) as (n & a & b & Hd); [left|]. apply declares_spec in Hd as (d & E & _).
        exists (d :: ds). cbn. congruence. }
      destruct Hds as [ds E]. exists ds. split; [exact E|]. apply NoDup_alt. intros i j x Hi Hj.
      assert (G : forall k, List.map gd_name ds !! k = Some x -> exists s d, l !! k = Some s /\ spec_decl s = Some d /\ gd_name d = x).
      { intros k Hk. change (List.map gd_name ds) with (gd_name <$> ds) in Hk. apply list_lookup_fmap_Some in Hk as (d & Hd & ->).
        assert (Hs : (spec_decl <$> l) !! k = Some (Some d)).
        { change (spec_decl <$> l) with (List.map spec_decl l). rewrite E. change (List.map Some ds) with (Some <$> ds).
          rewrite list_lookup_fmap, Hd. reflexivity. }
        apply list_lookup_fmap_Some in Hs as (s & Hs & Es). eauto. }
      destruct (G i Hi) as (si & di & Hsi & Edi & Eni), (G j Hj) as (sj & dj & Hsj & Edj & Enj).
      eapply (H2 i j si sj x); [exact Hsi|exact Hsj| |]; apply declares_spec; eauto.
    - intros (ds & E & Hn) l' [= <-]. split.
      + intros s Hs. assert (H : spec_decl s ∈ List.map Some ds) by (rewrite <- E; apply elem_of_list_fmap; eauto).
        apply elem_of_list_fmap in H as (d & Ed & _). exists (gd_name d), (gd_after d), (gd_before d). apply declares_spec. eauto.
      + intros i j si sj n a b a' b' Hi Hj Hdi Hdj.
        apply declares_spec in Hdi as (di & Ei & <- & _). apply declares_spec in Hdj as (dj & Ej & En & _).
        assert (G : forall k s d, l !! k = Some s -> spec_decl s = Some d -> List.map gd_name ds !! k = Some (gd_name d)).
        { intros k s d Hk Es. change (List.map gd_name ds) with (gd_name <$> ds). rewrite list_lookup_fmap.
          assert (Hs : (Some <$> ds) !! k = Some (Some d)).
          { change (Some <$> ds) with (List.map Some ds). rewrite <- E. change (List.map spec_decl l) with (spec_decl <$> l).
            rewrite list_lookup_fmap, Hk. cbn. congruence. }
          apply list_lookup_fmap_Some in Hs as (d' & -> & [= ->]). reflexivity. }
        pose proof (G _ _ _ Hi Ei) as Gi. pose proof (G _ _ _ Hj Ej) as Gj. rewrite En in Gj.
        eapply NoDup_lookup; eassumption.
    - intros _. eexists. split; [reflexivity|]. rewrite map_map. cbn. rewrite map_id. apply Hset.
    - intros _ l [=].
  Qed.

  Lemma path_equiv {T} (E1 E2 : T -> T -> Prop) : (forall u v, E1 u v <-> E2 u v) -> forall u n v, path E1 u n v <-> path E2 u n v.
  Proof.
    intros H u n v. split; induction 1; try constructor; econstructor; try eassumption; apply H; assumption.
  Qed.
  Lemma cyclic_equiv {T} (E1 E2 : T -> T -> Prop) : (forall u v, E1 u v <-> E2 u v) -> cyclic E1 <-> cyclic E2.
  Proof. intros H. unfold cyclic. setoid_rewrite (path_equiv E1 E2 H). reflexivity. Qed.
  Lemma depth_equiv {T} (E1 E2 : T -> T -> Prop) : (forall u v, E1 u v <-> E2 u v) -> forall v n, depth E1 v n <-> depth E2 v n.
  Proof. intros H v n. unfold depth. setoid_rewrite (path_equiv E1 E2 H). reflexivity. Qed.
  Lemma height_equiv {T} (E1 E2 : T -> T -> Prop) : (forall u v, E1 u v <-> E2 u v) -> forall v n, height E1 v n <-> height E2 v n.
  Proof. intros H v n. unfold height. setoid_rewrite (path_equiv E1 E2 H). reflexivity. Qed.
  Lemma longest_equiv {T} (E1 E2 : T -> T -> Prop) : (forall u v, E1 u v <-> E2 u v) -> forall n, longest E1 n <-> longest E2 n.
  Proof. intros H n. unfold longest. setoid_rewrite (path_equiv E1 E2 H). reflexivity. Qed.

  Lemma map_file (f : pystr * groupdecl -> groupdecl) G g d : (forall kd, gd_name (f kd) = gd_name kd.2 /\ gd_file (f kd) = gd_file kd.2) ->
    dget g (List.map (fun kd => (kd.1, f kd)) G) = Some d -> exists d0, dget g G = Some d0 /\ gd_name d = gd_name d0 /\ gd_file d = gd_file d0.
  Proof.
    intros Hf. rewrite dget_map_keys. destruct (dget g G) as [d0|]; [|discriminate]. cbn. intros [= <-].
    exists d0. destruct (Hf (g, d0)). auto.
  Qed.
  Lemma merge_file G g d : dget g (merge_dependencies e G) = Some d -> exists d0, dget g G = Some d0 /\ gd_name d = gd_name d0 /\ gd_file d = gd_file d0.
  Proof.
    unfold merge_dependencies. intros E4. unfold merge4 in E4.
    apply (map_file (fun kd => GroupDecl (gd_name kd.2) (gd_file kd.2) (gd_after kd.2) (e_set e (gd_before kd.2)))) in E4 as (d3 & E3 & N4 & F4); [|auto].
    destruct (merge3_grows_gen (merge2 e (merge1 G)) (merge2 e (merge1 G))) as [_ H3]. destruct (H3 _ _ E3) as (d2 & E2 & N3 & F3 & _).
    unfold merge2 in E2.
    apply (map_file (fun kd => GroupDecl (gd_name kd.2) (gd_file kd.2) (e_set e (gd_after kd.2)) [])) in E2 as (d1 & E1 & N2 & F2); [|auto].
    destruct (merge1_grows_gen G G) as [_ H1]. destruct (H1 _ _ E1) as (d0 & E0 & N1 & F1 & _).
    exists d0. split_and!; congruence.
  Qed.

  (** what an accepted set of declarations gives *)
  Record accepted hs gs (l : loaded) : Prop := {
    acc_hosts : Forall2 host_entry hs (l_hosts l) /\ NoDup (l_hosts l).*1;
    acc_names : NoDup (o_names (l_order l)) /\ forall g, g ∈ o_names (l_order l) <-> group_exists hs gs g;
    acc_keys : forall g, g ∈ (l_groups l).*1 <-> group_exists hs gs g;
    acc_file : forall g d, dget g (l_groups l) = Some d -> gd_name d = g /\ forall f, gd_file d = Some f <-> has_file gs g f;
    acc_sorted : sorted (o_min (l_order l)) (o_names (l_order l));
    acc_min : forall v, group_exists hs gs v -> exists n, o_min (l_order l) v = Z.of_nat n /\ depth (direct hs gs) v n;
    acc_max : exists N, longest (direct hs gs) N /\ forall v, group_exists hs gs v ->
      exists h, height (direct hs gs) v h /\ (o_max (l_order l) v = Z.of_nat N - Z.of_nat h)%Z;
    acc_ok : groups_ok hs gs
  }.

  Theorem load_decls_spec hs gs :
    match load_decls e hs gs with
    | Ok l => accepted hs gs l
    | Err _ => (exists x, preprocess_hosts e [] hs = Err x) \/ ~ groups_ok hs gs
    end.
  Proof.
    unfold load_decls. destruct (preprocess_hosts e [] hs) as [hosts|] eqn:Eh; cbn; [|left; eauto].
    apply preprocess_hosts_ok in Eh as (H2 & E2 & HF & Hnd). cbn in E2. subst H2.
    specialize (Hnd ltac:(constructor)).
    destruct (preprocess_groups e hosts gs) as [G|] eqn:Eg; cbn.
    2: { right. intros (Hs & _ & _). apply (specs_ok_spec hosts) in Hs as (ds & He & Hn).
         assert (Hg : preprocess_groups e hosts gs = Ok (finish (List.map (norm e) ds))) by (apply preprocess_groups_ok; eauto).
         congruence. }
    apply preprocess_groups_ok in Eg as (ds & He & Hn & ->). set (G := finish (List.map (norm e) ds)).
    pose proof (finish_wf ds Hn) as Hwf. fold G in Hwf.
    pose proof (mentioned_spec hs gs hosts HF ds He) as Hment.
    destruct (ensure_declared hosts G) as [[]|] eqn:Ee; cbn.
    2: { right. intros (_ & Hm & _). apply Hment in Hm as [Hm1 Hm2].
         assert (Hens : ensure_declared hosts G = Ok tt); [|congruence]. apply ensure_ok. split.
         - intros n h g Hin Hg. apply finish_keys. eauto.
         - apply finish_closed; [exact Hn|]. intros d x Hd Hne Hx. apply finish_keys. eauto. }
    apply ensure_ok in Ee as [Hhg Hcl].
    assert (Hm : forall g, mentioned hs gs g -> group_exists hs gs g).
    { apply Hment. split.
      - intros n h g Hin Hg. apply (finish_keys ds). eauto.
      - intros d x Hd Hne Hx. apply (finish_keys ds). apply (proj1 (finish_closed ds Hn) Hcl d x Hd Hne Hx). }
    assert (Hs : specs_ok gs) by (apply (specs_ok_spec hosts); eauto).
    set (M := merge_dependencies e G). destruct (merge_spec e Hset G Hwf) as [HK _]. fold M in HK.
    assert (Hedge : forall u v, edge_of M.*1 (befores M) u v <-> direct hs gs u v).
    { intros u v. unfold M. rewrite (merge_edge e Hset G u v Hwf Hcl). unfold G. rewrite (finish_pre_after ds Hn).
      symmetry. apply (direct_spec hs gs hosts HF ds He). }
    destruct (detect_self M) as [[]|] eqn:Ed; cbn.
    2: { right. intros (_ & _ & Hac). assert (Hd : detect_self M = Ok tt); [|congruence].
         apply (detect_self_acyclic e Hset G Hwf Hcl). fold M. rewrite (cyclic_equiv _ _ Hedge). exact Hac. }
    assert (Hexists : forall g, g ∈ M.*1 <-> group_exists hs gs g).
    { intros g. rewrite HK. unfold G. rewrite finish_keys. unfold group_exists. rewrite (declared_names hs gs hosts HF ds He). reflexivity. }
    assert (Hne : M.*1 <> []).
    { intros Hnil. assert (Hin : s_all ∈ M.*1) by (apply Hexists; unfold group_exists; auto). rewrite Hnil in Hin. inversion Hin. }
    pose proof (order_spec M (merge_graph e Hset G Hwf Hcl) Hne) as Hord.
    destruct (topological_order M) as [o|]; cbn.
    2: { right. intros (_ & _ & Hac). apply Hac. apply (cyclic_equiv _ _ Hedge), Hord. }
    destruct Hord as (Hac & Hperm & Hsort & Hmin & N & HN & Hmax).
    split; cbn.
    - auto.
    - split; [rewrite Hperm, HK; apply Hwf|]. intros g. rewrite Hperm. apply Hexists.
    - exact Hexists.
    - intros g d' Hd'. apply (merge_file G) in Hd' as (d & Hd & En & Ef). rewrite En, Ef. clear En Ef.
      unfold G in Hd. rewrite finish_get in Hd. unfold has_file. unfold effective in He.
      destruct (decide (g = s_early)) as [->|Hge].
      { apply (inj Some) in Hd as <-. split; [reflexivity|]. intros f. split; [discriminate|]. intros (? & ? & _ & _ & _ & H & _). contradiction. }
      destruct (decide (g = s_all /\ s_all ∉ List.map gd_name ds)) as [[-> Hall]|Hna].
      { apply (inj Some) in Hd as <-. split; [reflexivity|]. intros f. split; [discriminate|].
        intros (l & d0 & -> & Hin & Hn0 & _ & _). exfalso. apply Hall. rewrite <- Hn0. apply elem_of_list_fmap. exists d0. split; [reflexivity|].
        apply (effective_in _ _ _ He). exists (GDecl d0). auto. }
      apply (norm_get ds Hn) in Hd as (d0 & Hd0 & <- & ->). split; [reflexivity|]. intros f. cbn [norm snd gd_file].
      destruct gs as [l|].
      + split.
        * intros Ef. apply (effective_in _ _ _ He) in Hd0 as (sp & Hsp & Esp). destruct sp; cbn in Esp; try discriminate.
          { apply (inj Some) in Esp as <-. discriminate. }
          apply (inj Some) in Esp as <-. exists l, d. split_and!; auto.
        * intros (l' & d1 & [= <-] & Hin & Hn1 & _ & Ef).
          assert (Hd1 : d1 ∈ ds) by (apply (effective_in _ _ _ He); exists (GDecl d1); auto).
          enough (d0 = d1) by congruence. clear - Hn Hd0 Hd1 Hn1. induction ds as [|c ds IH]; [inversion Hd0|].
          cbn in Hn. apply NoDup_cons in Hn as [Hc Hn]. apply elem_of_cons in Hd0 as [->|Hd0], Hd1 as [->|Hd1]; auto.
          { exfalso. apply Hc. rewrite <- Hn1. apply elem_of_list_fmap. eauto. }
          { exfalso. apply Hc. rewrite Hn1. apply elem_of_list_fmap. eauto. }
      + split; [|intros (l & d1 & [=] & _)]. rewrite He in Hd0. apply elem_of_list_fmap in Hd0 as (n & -> & _). discriminate.
    - exact Hsort.
    - intros v Hv. apply Hexists in Hv. destruct (Hmin v Hv) as (n & ? & ?). exists n. split; [assumption|].
      apply (depth_equiv _ _ Hedge). assumption.
    - exists N. split; [apply (longest_equiv _ _ Hedge), HN|]. intros v Hv. apply Hexists in Hv.
      destruct (Hmax v Hv) as (h & ? & ?). exists h. split; [|assumption]. apply (height_equiv _ _ Hedge). assumption.
    - split_and!; [exact Hs|exact Hm|]. intros Hc. apply Hac. apply (cyclic_equiv _ _ Hedge). exact Hc.
  Qed.
End decls.
