(** The history of a variable and its authors. *)
From Coq Require Import Lia ZifyBool ZifyNat.
From Verif Require Import Base Paths Urls Wrapper Spec_Wrapper Wrapper_proofs Ranks Dict_proofs Inventory Spec_Inventory
  Inventory_proofs Inventory_proofs2 Inventory_vars Inventory_values Inspect Spec_Inspect.
Local Open Scope nat_scope.

(** ** The names of the last part of a history *)
Fixpoint cn (l : list snapshot) (acc : list pystr) : list pystr :=
  match l with
  | [] => acc
  | s :: r => if sn_def s then sn_actor s :: acc else cn r (sn_actor s :: acc)
  end.
Lemma cn_acc l : forall acc, cn l acc = cn l [] ++ acc.
Proof.
  induction l as [|s l IH]; intros acc; [reflexivity|]. cbn [cn]. destruct (sn_def s); [reflexivity|].
  rewrite IH, (IH [sn_actor s]), <- app_assoc. reflexivity.
Qed.
Lemma cn_snoc h s : cn (rev (h ++ [s])) [] = if sn_def s then [sn_actor s] else cn (rev h) [] ++ [sn_actor s].
Proof. rewrite rev_app_distr. cbn [rev app cn]. destruct (sn_def s); [reflexivity|apply cn_acc]. Qed.

(** ** Recording *)
Definition upd (g : pystr) (ov : bool) (v : obj) (h : list snapshot) : list snapshot :=
  let modif := negb (bool_decide (prevv h = oval v)) in
  if ov || modif then h ++ [Snapshot (negb (modif && negb ov)) g (oval v)] else h.
Lemma change_hist o g grp init x v st y :
  hx (record_change o g (Some init) grp x v st).1 y =
  if decide (y = x) then upd g (overwritten (Some init) x v) v (hx st.1 x) else hx st.1 y.
Proof.
  destruct st as [hist conf]. unfold record_change, upd. rewrite previous_hx. cbn [fst].
  destruct (overwritten (Some init) x v || negb (bool_decide (prevv (hx hist x) = oval v))) eqn:E; cbn [fst].
  - unfold hx at 1. rewrite dget_dset. destruct (decide (y = x)) as [->|]; reflexivity.
  - destruct (decide (y = x)) as [->|]; reflexivity.
Qed.
Lemma all_hist o g grp init vs : NoDup vs.*1 -> forall st y,
  hx (record_all o g (Some init) grp vs st).1 y =
  match dget y vs with
  | Some v => upd g (overwritten (Some init) y v) v (hx st.1 y)
  | None => hx st.1 y
  end.
Proof.
  unfold record_all. induction vs as [|[k v] vs IH]; intros Hn st y; [reflexivity|].
  cbn in Hn. apply NoDup_cons in Hn as [Hk Hn]. cbn [foldl fst snd]. rewrite (IH Hn), change_hist. cbn [dget].
  destruct (str_eqb_spec y k) as [->|Hne].
  - rewrite decide_True by reflexivity. rewrite (proj2 (dget_None _ _) Hk). reflexivity.
  - rewrite decide_False by exact Hne. reflexivity.
Qed.

(** ** Authors *)
Definition step (x : pystr) (st : option obj * list pystr) (mv : pystr * ns) : option obj * list pystr :=
  match dget x mv.2 with
  | None => (None, [])
  | Some v => (Some v, match st.1 with
                       | Some o => if decide (oid o = oid v) then if decide (oval o = oval v) then st.2 else st.2 ++ [mv.1] else [mv.1]
                       | None => [mv.1]
                       end)
  end.
Lemma authors_fold x l : forall b acc, authors x b acc l = (foldl (step x) (b, acc) l).2.
Proof.
  induction l as [|[m vs] l IH]; intros b acc; [reflexivity|]. cbn [authors foldl]. unfold step at 2. cbn [fst snd].
  destruct (dget x vs) as [v|]; apply IH.
Qed.
(** what may come, given the present binding *)
Definition to_come (x : pystr) (b : option obj) (l : moments) : Prop :=
  match b with
  | Some _ => forall m vs, (m, vs) ∈ l -> exists v, dget x vs = Some v
  | None => steady x l
  end.
Lemma to_come_cons x b m vs l : to_come x b ((m, vs) :: l) ->
  (forall v, dget x vs = Some v -> b = None -> oval v <> VNone) /\ (dget x vs = None -> b = None) /\ to_come x (dget x vs) l.
Proof.
  destruct b as [o|]; cbn [to_come].
  - intros H. destruct (H m vs ltac:(left)) as [v E]. split; [discriminate|]. split; [congruence|]. rewrite E. cbn.
    intros m' vs' K. apply (H m' vs'). right. exact K.
  - intros (pre & post & E & H1 & H2 & H3). destruct pre as [|[m' vs'] pre].
    + cbn [app] in E. subst post. destruct (H2 m vs ltac:(left)) as [v Ev]. split.
      { intros v' Ev' _. apply (H3 m vs v' eq_refl Ev'). }
      split; [reflexivity|]. rewrite Ev. cbn. intros m' vs' K. apply (H2 m' vs'). right. exact K.
    + injection E as <- <- ->. pose proof (H1 m vs ltac:(left)) as En. rewrite En. split; [discriminate|]. split; [reflexivity|].
      exists pre, post. split; [reflexivity|]. split; [|split; assumption]. intros m' vs' K. apply (H1 m' vs'). right. exact K.
Qed.

Definition matches (st : option obj * list pystr) (h : list snapshot) : Prop :=
  match st.1 with
  | None => h = [] /\ st.2 = []
  | Some o => h <> [] /\ prevv h = oval o /\ cn (rev h) [] = st.2
  end.

Lemma matches_step x m init c w vs st h l :
  wf init -> wf w -> private x = false -> x <> lit "module" -> vs = exported c w ->
  st.1 = dget x (exported group_cls init) -> to_come x st.1 ((m, vs) :: l) -> matches st h ->
  matches (step x st (m, vs)) (match dget x vs with Some v => upd m (overwritten (Some init) x v) v h | None => h end).
Proof.
  intros Hi Hw Hp Hx -> Hb Hc Hm. apply to_come_cons in Hc as (C1 & C2 & _). destruct st as [b acc]. cbn [fst snd] in *.
  unfold step. cbn [fst snd]. destruct (dget x (exported c w)) as [v|] eqn:Ev; cbn [matches fst snd].
  2:{ specialize (C2 eq_refl). subst b. rewrite C2 in Hm. unfold matches in Hm. cbn [fst snd] in Hm.
      unfold matches. cbn [fst snd]. split; [apply Hm|reflexivity]. }
  unfold matches. cbn [fst snd]. destruct b as [o|].
  - unfold matches in Hm. cbn [fst snd] in Hm. destruct Hm as (Hne & Hpv & Hcn).
    assert (Ho : overwritten (Some init) x v = negb (oid o =? oid v)%N).
    { unfold overwritten. rewrite get_attr_vars by assumption. symmetry in Hb. rewrite dget_exported in Hb by assumption.
      destruct (dget x (vars init)) as [o'|]; [|discriminate]. destruct (is_exported group_cls x o'); [|discriminate].
      injection Hb as ->. reflexivity. }
    rewrite Ho. unfold upd. rewrite Hpv. destruct (decide (oid o = oid v)) as [Eo|No].
    + replace (oid o =? oid v)%N with true by (symmetry; apply N.eqb_eq; exact Eo). cbn [negb orb].
      destruct (decide (oval o = oval v)) as [Ew|Nw].
      * rewrite bool_decide_true by exact Ew. cbn [negb orb]. split; [exact Hne|]. split; [congruence|exact Hcn].
      * rewrite bool_decide_false by exact Nw. cbn [negb orb andb]. split; [intros E; apply app_eq_nil in E as [_ E]; discriminate|].
        split; [unfold prevv; rewrite last_snoc; reflexivity|]. rewrite cn_snoc. cbn [sn_def sn_actor]. rewrite Hcn. reflexivity.
    + replace (oid o =? oid v)%N with false by (symmetry; apply N.eqb_neq; exact No). cbn [negb orb].
      split; [intros E; apply app_eq_nil in E as [_ E]; discriminate|]. split; [unfold prevv; rewrite last_snoc; reflexivity|].
      rewrite cn_snoc. rewrite andb_false_r. cbn [negb sn_def sn_actor]. reflexivity.
  - unfold matches in Hm. cbn [fst snd] in Hm. destruct Hm as [-> ->]. specialize (C1 v eq_refl eq_refl).
    unfold upd. cbn [prevv last]. rewrite bool_decide_false by (unfold prevv; cbn; congruence). cbn [negb]. rewrite orb_true_r.
    split; [discriminate|]. split; [reflexivity|]. cbn [app rev]. cbn [cn sn_def sn_actor]. destruct (negb (true && negb (overwritten (Some init) x v))); reflexivity.
Qed.

(** ** Loading *)
Section loading.
  Variable e : env.
  Variable inv : wrapper.
  Hypothesis Hinv : wf inv.
  Hypothesis Hfiles : files_dict e.
  Variable groups : list (pystr * groupdecl).

  Lemma run_dict file dflt m m' : run_module e file dflt m = Ok m' -> NoDup m.*1 -> NoDup m'.*1.
  Proof.
    unfold run_module. set (p := match file with Some f => path_join (e_base e) f | None => dflt end).
    destruct (e_files e p) as [f|] eqn:E; intros H Hn; [eapply Hfiles; eassumption|].
    destruct file; [discriminate|]. apply Ok_inj in H. subst. exact Hn.
  Qed.
  Lemma load_group_wf g init w : load_group e inv groups g (Some init) = Ok w -> wf w.
  Proof.
    intros H. unfold load_group in H. destruct (dget g groups) as [d|]; [|discriminate].
    match type of H with (mbind _ ?a) = _ => destruct a as [m0|] eqn:E0; [|discriminate] end. cbn [mbind result_bind] in H.
    match type of H with (mbind _ ?a) = _ => destruct a as [m1|] eqn:E1; [|discriminate] end. cbn [mbind result_bind] in H.
    match type of H with (mbind _ ?a) = _ => destruct a as [m2|] eqn:E2; [|discriminate] end. cbn [mbind result_bind] in H.
    apply Ok_inj in H. subst w. split; [apply NoDup_singleton|]. eapply run_dict; [exact E2|].
    assert (N0 : NoDup m0.*1).
    { destruct (str_eqb (gd_name d) s_all).
      - destruct (exported_variables inventory_cls inv); [|discriminate]. cbn [mbind result_bind] in E0. apply Ok_inj in E0. subst m0.
        apply dupdate_nodup, dset_nodup, NoDup_singleton.
      - apply Ok_inj in E0. subst m0. apply NoDup_singleton. }
    destruct (exported_variables group_cls init); [|discriminate]. cbn [mbind result_bind] in E1. apply Ok_inj in E1. subst m1.
    apply dupdate_nodup, N0.
  Qed.
  Lemma load_host_wf hosts host init w : load_host e hosts host init = Ok w -> wf w.
  Proof.
    intros H. unfold load_host in H. destruct (dget host hosts) as [d|]; [|discriminate]. destruct (hd_name d) as [n|]; [|discriminate].
    match type of H with (mbind _ ?a) = _ => destruct a as [m1|] eqn:E1; [|discriminate] end. cbn [mbind result_bind] in H.
    match type of H with (mbind _ ?a) = _ => destruct a as [m2|] eqn:E2; [|discriminate] end. cbn [mbind result_bind] in H.
    apply Ok_inj in H. subst w. split; [apply (bool_decide_unpack _); vm_compute; exact I|]. eapply run_dict; [exact E2|].
    apply dupdate_nodup. apply (bool_decide_unpack _). vm_compute. exact I.
  Qed.

  (** the state of [x] after the groups *)
  Lemma chain_matches o x : private x = false -> x <> lit "module" -> forall gs init st final st' rest b acc,
    load_groups e inv groups o gs init st = Ok (final, st') -> wf init -> b = dget x (exported group_cls init) ->
    exists ms, chain e inv groups init gs ms final /\ wf final /\ ms.*1 = gs /\
      (to_come x b (ms ++ rest) -> matches (b, acc) (hx st.1 x) ->
       let s := foldl (step x) (b, acc) ms in s.1 = dget x (exported group_cls final) /\ to_come x s.1 rest /\ matches s (hx st'.1 x)).
  Proof.
    intros Hp Hx. induction gs as [|g gs IH]; intros init st final st' rest b acc H Hi Hb; cbn [load_groups] in H.
    - apply Ok_inj in H. injection H as <- <-. exists []. split; [constructor|]. split; [exact Hi|]. split; [reflexivity|].
      cbn [app foldl fst]. intros Hc Hm. split; [exact Hb|]. split; [exact Hc|exact Hm].
    - destruct (load_group e inv groups g (Some init)) as [w|] eqn:Eg; [|discriminate]. cbn [mbind result_bind] in H.
      destruct (exported_variables group_cls w) as [vs|] eqn:Ev; [|discriminate]. cbn [mbind result_bind] in H.
      pose proof (load_group_wf _ _ _ Eg) as Hw. pose proof (exported_ok _ _ _ Ev) as Evs.
      set (s1 := step x (b, acc) (g, vs)).
      assert (E1 : s1.1 = dget x (exported group_cls w)).
      { unfold s1, step. cbn [fst snd]. rewrite <- Evs. destruct (dget x vs); reflexivity. }
      destruct (IH w _ final st' rest s1.1 s1.2 H Hw E1) as (ms & Hch & Hf & Hk & Hgo).
      exists ((g, vs) :: ms). split; [econstructor; eassumption|]. split; [exact Hf|]. split; [cbn; rewrite Hk; reflexivity|].
      intros Hc Hm. cbn [app] in Hc. cbn [foldl].
      fold s1. rewrite (surjective_pairing s1). apply Hgo.
      + apply to_come_cons in Hc as (_ & _ & Hc). rewrite E1, <- Evs. exact Hc.
      + rewrite <- surjective_pairing. unfold s1. rewrite all_hist by (rewrite Evs; apply exported_nodup, Hw).
        eapply (matches_step x g init group_cls w vs (b, acc) (hx st.1 x)); try eassumption.
  Qed.
End loading.

(** ** Actors *)
Definition actors_in (S : list pystr) (hist : history) : Prop :=
  forall k l, dget k hist = Some l -> l <> [] /\ forall s, s ∈ l -> sn_actor s ∈ S.
Lemma change_actors S o g init grp x v st : g ∈ S -> actors_in S st.1 -> actors_in S (record_change o g init grp x v st).1.
Proof.
  intros Hg H. destruct st as [hist conf]. unfold record_change. cbn [fst] in H.
  match goal with |- context [if ?c then _ else _] => destruct c end; [|exact H]. cbn [fst].
  intros k l. rewrite dget_dset. destruct (decide (k = x)) as [->|].
  - intros [= <-]. split; [intros E; apply app_eq_nil in E as [_ E]; discriminate|].
    intros s Hs. apply elem_of_app in Hs as [Hs|Hs].
    + destruct (dget x hist) as [l0|] eqn:E; [apply (proj2 (H x l0 E)), Hs|apply elem_of_nil in Hs; destruct Hs].
    + apply elem_of_list_singleton in Hs as ->. exact Hg.
  - apply H.
Qed.
Lemma all_actors S o g init grp vs : forall st, g ∈ S -> actors_in S st.1 -> actors_in S (record_all o g init grp vs st).1.
Proof.
  unfold record_all. induction vs as [|[k v] vs IH]; intros st Hg H; [exact H|]. cbn [foldl]. apply IH; [exact Hg|].
  apply change_actors; assumption.
Qed.
Lemma groups_actors S e inv groups o gs : forall init st final st', load_groups e inv groups o gs init st = Ok (final, st') ->
  (forall g, g ∈ gs -> g ∈ S) -> actors_in S st.1 -> actors_in S st'.1.
Proof.
  induction gs as [|g gs IH]; intros init st final st' H Hs Ha; cbn [load_groups] in H.
  - apply Ok_inj in H. injection H as <- <-. exact Ha.
  - destruct (load_group e inv groups g (Some init)) as [w|]; [|discriminate]. cbn [mbind result_bind] in H.
    destruct (exported_variables group_cls w) as [vs|]; [|discriminate]. cbn [mbind result_bind] in H.
    eapply IH; [exact H|intros g' Hg'; apply Hs; right; exact Hg'|]. apply all_actors; [apply Hs; left|exact Ha].
Qed.

(** ** A host *)
Section host.
  Variable e : env.
  Variable inv : wrapper.
  Hypothesis Hinv : wf inv.
  Hypothesis Hfiles : files_dict e.
  Variable l : loaded.
  Variable host : pystr.
  Variable d : hostdecl.
  Hypothesis Hd : dget host (l_hosts l) = Some d.
  Hypothesis Hnd : NoDup (lit "host" :: (hd_vars d).*1).
  Definition in_order : list pystr := List.filter (fun g => str_in g (hd_groups d)) (o_names (l_order l)).

  Lemma host_life w hist : instanciate_host e inv l host = Ok (w, hist) ->
    exists ms, life e inv l host d in_order w ms /\ wf w /\ ms.*1 = s_early :: in_order ++ [host] /\
      actors_in (s_early :: in_order ++ [host]) hist /\
      forall x, host_var x -> (forall v, dget x (hd_vars d) = Some v -> is_module v = false) -> steady x ms ->
        matches (foldl (step x) (None, []) ms) (hx hist x).
  Proof.
    intros H. unfold instanciate_host in H. rewrite Hd in H. fold in_order in H.
    destruct (load_groups e inv (l_groups l) (l_order l) in_order (early_wrapper e host d) (early_history e (l_order l) host d))
      as [[init [hist1 conf]]|] eqn:Eg; [|discriminate]. cbn [mbind result_bind] in H.
    destruct conf; [|discriminate].
    destruct (load_host e (l_hosts l) host init) as [w'|] eqn:Eh; [|discriminate]. cbn [mbind result_bind] in H.
    destruct (exported_variables host_cls w') as [vs|] eqn:Ev; [|discriminate]. cbn [mbind result_bind] in H.
    apply Ok_inj in H. injection H as -> <-.
    pose proof (load_host_wf e Hfiles _ _ _ _ Eh) as Hw. pose proof (exported_ok _ _ _ Ev) as Evs.
    pose proof (early_wf e host d) as He.
    assert (Hact : actors_in (s_early :: in_order ++ [host]) (early_history e (l_order l) host d).1).
    { unfold early_history. apply all_actors; [left|]. intros k h E. discriminate. }
    (* a variable, to get at the list of moments *)
    destruct (chain_matches e inv Hfiles (l_groups l) (l_order l) (lit "a") eq_refl ltac:(discriminate) in_order (early_wrapper e host d)
      _ init _ [] _ [] Eg He eq_refl) as (ms & Hch & Hi & Hk & _).
    exists ((s_early, exported group_cls (early_wrapper e host d)) :: ms ++ [(host, vs)]).
    split. { exists ms, init, vs. split; [exact Hch|]. split; [exact Eh|]. split; [exact Ev|reflexivity]. }
    split; [exact Hw|]. split.
    { cbn. rewrite fmap_app, Hk. reflexivity. }
    split.
    { apply all_actors; [right; apply elem_of_app; right; left|]. cbn [fst].
      eapply (groups_actors _ _ _ _ _ _ _ _ _ _ Eg); [|exact Hact]. intros g Hg. right. apply elem_of_app. left. exact Hg. }
    intros x Hx Hmod Hs. pose proof (proj1 Hx) as Hgx. pose proof (group_var_ne_module x Hgx) as Hxm. pose proof (proj1 Hgx) as Hp.
    set (ev := exported group_cls (early_wrapper e host d)) in *.
    set (s0 := step x (None, []) (s_early, ev)).
    assert (E0 : s0.1 = dget x ev) by (unfold s0, step; cbn [fst snd]; destruct (dget x ev); reflexivity).
    assert (Hnd' : NoDup (early_ns e host d).*1) by exact Hnd.
    assert (Hve : dget x ev = dget x (early_ns e host d)).
    { pose proof (early_vars e host d Hnd' x Hxm (proj1 (proj2 Hgx))) as Hve. unfold ev. rewrite dget_exported, Hve by exact He.
      destruct (dget x (early_ns e host d)) as [v|] eqn:Ee; [|reflexivity].
      assert (Hin : is_exported group_cls x v = true).
      { unfold is_exported. rewrite Hp. cbn [c_annot c_own group_cls orb].
        replace (str_in x [lit "name"]) with false by (symmetry; apply str_in_false; rewrite elem_of_list_singleton; apply Hgx).
        replace (str_in x []) with false by reflexivity. cbn [orb].
        unfold early_ns in Ee. cbn [dget] in Ee. destruct (str_eqb_spec x (lit "host")) as [Eh'|Nh]; [destruct (proj1 (proj2 Hx) Eh')|].
        rewrite (Hmod v Ee). reflexivity. }
      rewrite Hin. reflexivity. }
    assert (Hm0 : matches s0 (hx (early_history e (l_order l) host d).1 x)).
    { destruct (record_early (l_order l) (early_ns e host d) Hnd' []) as [H1 _]. specialize (H1 x ltac:(intros; reflexivity)).
      change (record_all (l_order l) s_early None (Some s_early) (early_ns e host d) ([], [])) with (early_history e (l_order l) host d) in H1.
      unfold s0, step, matches. cbn [fst snd]. rewrite Hve. destruct (dget x (early_ns e host d)) as [v|]; cbn [fst snd].
      - destruct H1 as [b ->]. split; [discriminate|]. split; [reflexivity|]. cbn. destruct b; reflexivity.
      - split; [exact H1|reflexivity]. }
    change (foldl (step x) (None, []) ((s_early, ev) :: ms ++ [(host, vs)])) with (foldl (step x) s0 (ms ++ [(host, vs)])).
    pose proof (to_come_cons x None s_early ev (ms ++ [(host, vs)]) Hs) as (_ & _ & Hc). rewrite <- E0 in Hc.
    destruct (chain_matches e inv Hfiles (l_groups l) (l_order l) x Hp Hxm in_order (early_wrapper e host d)
      _ init _ [(host, vs)] s0.1 s0.2 Eg He E0) as (ms' & Hch' & _ & _ & Hgo).
    assert (ms' = ms) as ->.
    { clear - Hch Hch'. revert ms Hch. induction Hch' as [|i g gs w1 vs1 ms1 f1 L1 X1 C1 IH]; intros ms H; inversion H; subst; [reflexivity|].
      replace w1 with w in * by congruence. replace vs1 with vs in * by congruence. f_equal. apply IH. assumption. }
    rewrite <- surjective_pairing in Hgo.
    specialize (Hgo Hc Hm0). cbv zeta in Hgo. destruct Hgo as (F1 & F2 & F3).
    rewrite foldl_app. cbn [foldl]. rewrite all_hist by (rewrite Evs; apply exported_nodup, Hw).
    cbn [fst] in F3 |- *. eapply (matches_step x host init host_cls w vs); try eassumption.
  Qed.
End host.
