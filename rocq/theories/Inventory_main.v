(** The results about inventories in terms of the specification. *)
From Coq Require Import Lia ZifyBool ZifyNat.
From Verif Require Import Base Paths Urls Wrapper Spec_Wrapper Wrapper_proofs Ranks Spec_Ranks Ranks_proofs Dict_proofs Inventory
  Spec_Inventory Inventory_proofs Inventory_proofs2 Inventory_vars Inventory_values Inventory_ties Inventory_orders Inventory_accept.

Lemma preprocess_hosts_iff e hs : set_ok e -> (exists H, preprocess_hosts e [] hs = Ok H) <-> hosts_ok hs.
Proof.
  intros Hset. split.
  - intros [H E]. apply (preprocess_hosts_ok e Hset) in E as (H2 & -> & HF & Hnd). cbn in *.
    exists H2.*1. split; [|apply Hnd; constructor]. clear Hnd. induction HF as [|h [n d] hs H2 Hh HF IH]; [constructor|].
    constructor; [|exact IH]. destruct Hh as (_ & _ & _ & _ & Hh). destruct h as [u|d0| |]; cbn in Hh |- *; try contradiction; apply Hh.
  - intros (names & HF & Hn).
    assert (G : forall H, (forall n, n ∈ names -> n ∉ H.*1) -> exists H', preprocess_hosts e H hs = Ok H').
    2: { apply (G []). intros n _ Hin. inversion Hin. }
    induction HF as [|h n hs names Hh HF IH]; intros H Hdis; cbn [preprocess_hosts]; [eauto|].
    apply NoDup_cons in Hn as [Hn1 Hn].
    assert (Hs : exists nd, preprocess_host e H h = Ok (H ++ [nd]) /\ nd.1 = n).
    { assert (Hnew : dhas n H = false) by (apply dhas_false, Hdis; left).
      unfold preprocess_host. destruct h as [u|d| |]; cbn in Hh; try contradiction; cbn.
      - rewrite Hh. cbn. rewrite Hnew. eexists (_, _). split; [f_equal; apply dset_absent; apply dhas_false; exact Hnew|reflexivity].
      - destruct (hd_name d) as [m|]; cbn.
        + subst m. rewrite Hnew. eexists (_, _). split; [f_equal; apply dset_absent; apply dhas_false; exact Hnew|reflexivity].
        + destruct Hh as (u & -> & Hu). cbn. rewrite Hu. cbn. rewrite Hnew.
          eexists (_, _). split; [f_equal; apply dset_absent; apply dhas_false; exact Hnew|reflexivity]. }
    destruct Hs as (nd & -> & En). cbn. apply IH; [exact Hn|]. intros m Hm. rewrite fmap_app, elem_of_app. cbn. rewrite elem_of_list_singleton, En.
    intros [Hin| ->]; [|contradiction]. apply (Hdis m); [right; exact Hm|exact Hin].
Qed.

Theorem load_accepts e hs gs : set_ok e -> (exists l, load_decls e hs gs = Ok l) <-> hosts_ok hs /\ groups_ok hs gs.
Proof.
  intros Hset. pose proof (load_decls_spec e Hset hs gs) as H. split.
  - intros [l E]. rewrite E in H. split; [|apply (acc_ok _ _ _ H)].
    apply (preprocess_hosts_iff e hs Hset). unfold load_decls in E. destruct (preprocess_hosts e [] hs) eqn:Eh; [eauto|discriminate].
  - intros [H1 H2]. destruct (load_decls e hs gs) as [l|x]; [eauto|]. exfalso. apply (preprocess_hosts_iff e hs Hset) in H1 as [H' E].
    destruct H as [[y H]|H]; [congruence|contradiction].
Qed.

Lemma load_accepted e hs gs l : set_ok e -> load_decls e hs gs = Ok l -> accepted hs gs l.
Proof. intros Hset E. pose proof (load_decls_spec e Hset hs gs) as H. rewrite E in H. exact H. Qed.

Theorem load_order e hs gs l : set_ok e -> load_decls e hs gs = Ok l ->
  let order := o_names (l_order l) in
  NoDup order /\ (forall g, g ∈ order <-> group_exists hs gs g) /\ (forall u v, direct hs gs u v -> precedes order u v).
Proof.
  intros Hset E. apply load_accepted in E as Ha; [|exact Hset]. cbv zeta. destruct (acc_names _ _ _ Ha) as [H1 H2].
  split_and!; [exact H1|exact H2|]. intros u v Hd.
  assert (Hex : group_exists hs gs u /\ group_exists hs gs v).
  { destruct (acc_ok _ _ _ Ha) as (_ & Hm & _). unfold mentioned in Hm.
    destruct Hd as [(k & s & a & b & Eg & Hs & Hdc & Hu & Hne)|[(k & s & a & b & Eg & Hs & Hdc & Hv & Hne)|[(-> & Hv & _)|(-> & -> & _)]]].
    - split; [apply Hm; right; exists k, s, v, a, b; auto 10|]. left. unfold declared. rewrite Eg. eauto 10.
    - split; [|apply Hm; right; exists k, s, u, a, b; auto 10]. left. unfold declared. rewrite Eg. eauto 10.
    - split; [apply all_exists|left; exact Hv].
    - split; [apply early_exists|apply all_exists]. }
  apply (sorted_precedes (o_min (l_order l))).
  - apply (acc_sorted _ _ _ Ha).
  - apply H2. apply Hex.
  - apply H2. apply Hex.
  - apply (rank_lt _ _ _ Ha); [apply Hex..|exact Hd].
Qed.

Theorem load_hosts e hs gs l : set_ok e -> load_decls e hs gs = Ok l -> Forall2 host_entry hs (l_hosts l) /\ NoDup (l_hosts l).*1.
Proof. intros Hset E. apply load_accepted in E as Ha; [|exact Hset]. apply (acc_hosts _ _ _ Ha). Qed.

Section accept.
  Variable e : env.
  Variable A : pystr -> option ns.
  Variable inv : wrapper.
  Variable hs : list hostspec.
  Variable gs : option (list groupspec).
  Variable l : loaded.
  Variable host : pystr.
  Variable d : hostdecl.
  (** a host whose variables are just constants *)
  Record simple_host : Prop := {
    sh_set : set_ok e;
    sh_load : load_decls e hs gs = Ok l;
    sh_host : dget host (l_hosts l) = Some d;
    sh_constant : files_constant e A;
    sh_inv : wf inv /\ exists vs, exported_variables inventory_cls inv = Ok vs;
    sh_early : s_early ∉ hd_groups d;
    sh_vars : NoDup (lit "host" :: (hd_vars d).*1);
    sh_ordinary : ordinary e A inv d;
    sh_files : files_exist e l d;
    sh_objects : forall x, objects_ok (var_object e A inv d x) }.

  Lemma defines_object x p v : defines e A inv l d x p v -> var_object e A inv d x v.
  Proof.
    intros [[_ H]|[[_ H]|(_ & _ & _ & H)]]; unfold var_object; [auto|eauto|auto].
  Qed.
  Lemma defines_exists x p v : simple_host -> defines e A inv l d x p v -> group_exists hs gs p.
  Proof.
    intros S Dp. pose proof (load_accepted _ _ _ _ (sh_set S) (sh_load S)) as Ha.
    destruct (D_in e A inv hs gs l Ha host d (sh_host S) x p v Dp) as [->|Hp]; [apply early_exists|]. apply (host_groups_exist _ _ _ Ha d p Hp).
  Qed.

  Theorem accepted_iff : simple_host -> (forall x, fresh e A inv l d x) ->
    (exists w hist, instanciate_host e inv l host = Ok (w, hist)) <->
    ~ exists x p q v w, defines e A inv l d x p v /\ defines e A inv l d x q w /\ p <> q /\ clash hs gs p q.
  Proof.
    intros S Hf. pose proof (load_accepted _ _ _ _ (sh_set S) (sh_load S)) as Ha.
    rewrite (accept_iff e A (sh_constant S) inv (proj1 (sh_inv S)) hs gs l Ha host d (sh_host S) (sh_early S) (sh_vars S)
      (sh_ordinary S) (proj2 (sh_inv S)) (sh_files S) (sh_objects S) Hf).
    assert (Hrank : forall x p q v w, defines e A inv l d x p v -> defines e A inv l d x q w ->
      clash hs gs p q <-> (p = s_early \/ q <> s_early /\ (o_min (l_order l) p <= o_min (l_order l) q)%Z) /\
        (o_min (l_order l) q <= o_max (l_order l) p)%Z).
    { intros x p q v w Dp Dq. pose proof (defines_exists _ _ _ S Dp) as Ep. pose proof (defines_exists _ _ _ S Dq) as Eq.
      destruct (acc_min _ _ _ Ha p Ep) as (dp & -> & Hdp). destruct (acc_min _ _ _ Ha q Eq) as (dq & -> & Hdq).
      destruct (acc_max _ _ _ Ha) as (N & HN & Hmax). destruct (Hmax p Ep) as (hp & Hhp & ->). split.
      - intros (N' & dp' & dq' & hp' & HN' & Hdp' & Hdq' & Hhp' & Ho & Hle).
        rewrite (depth_unique _ _ _ _ Hdp' Hdp), (depth_unique _ _ _ _ Hdq' Hdq) in Ho. rewrite (depth_unique _ _ _ _ Hdq' Hdq), (height_unique _ _ _ _ Hhp' Hhp) in Hle.
        assert (N' = N).
        { destruct HN as [(u1 & v1 & P1) U1], HN' as [(u2 & v2 & P2) U2]. pose proof (U1 _ _ _ P2). pose proof (U2 _ _ _ P1). lia. }
        subst N'. split; [|lia]. destruct Ho as [?|[? ?]]; [auto|]. right. split; [assumption|lia].
      - intros [Ho Hle]. exists N, dp, dq, hp. split_and!; try assumption; [|lia]. destruct Ho as [?|[? ?]]; [auto|]. right. split; [assumption|lia]. }
    split.
    - intros H (x & p & q & v & w & Dp & Dq & Hpq & Hc). apply (Hrank _ _ _ _ _ Dp Dq) in Hc as [Ho Hle].
      destruct (sh_ordinary S x v (defines_object _ _ _ Dp)) as [Hgv Hne]. pose proof (H x Hgv Hne p q v w Dp Dq Hpq Ho). lia.
    - intros H x Hgv Hne p q v w Dp Dq Hpq Ho. apply Z.nle_gt. intros Hle. apply H. exists x, p, q, v, w. split_and!; auto.
      apply (Hrank _ _ _ _ _ Dp Dq). auto.
  Qed.

  (** [p] lies on a longest chain *)
  Definition on_longest (p : pystr) : Prop :=
    exists N dp hp, longest (direct hs gs) N /\ depth (direct hs gs) p dp /\ height (direct hs gs) p hp /\ dp + hp = N.

  Theorem dependants_override : simple_host -> (forall x, fresh e A inv l d x) ->
    (forall x p q v w, defines e A inv l d x p v -> defines e A inv l d x q w -> p <> q ->
       on_longest p /\ on_longest q /\ exists n, path (direct hs gs) p (S n) q \/ p <> s_early /\ path (direct hs gs) q (S n) p) ->
    exists w hist, instanciate_host e inv l host = Ok (w, hist).
  Proof.
    intros S Hf H. apply accepted_iff; [assumption..|]. intros (x & p & q & v & w & Dp & Dq & Hpq & (N & dp & dq & hp & HN & Hdp & Hdq & Hhp & Ho & Hle)).
    destruct (H x p q v w Dp Dq Hpq) as ((N' & dp' & hp' & HN' & Hdp' & Hhp' & Eq) & _ & n & Hpath).
    rewrite (depth_unique _ _ _ _ Hdp' Hdp), (height_unique _ _ _ _ Hhp' Hhp) in Eq.
    assert (N' = N).
    { destruct HN as [(u1 & v1 & P1) U1], HN' as [(u2 & v2 & P2) U2]. pose proof (U1 _ _ _ P2). pose proof (U2 _ _ _ P1). lia. }
    subst N'.
    assert (Hdd : forall a b da db m, path (direct hs gs) a (Datatypes.S m) b -> depth (direct hs gs) a da -> depth (direct hs gs) b db -> da < db).
    { intros a b da db m Hp [[u Hu] _] [_ Hb]. pose proof (Hb u (da + Datatypes.S m) ltac:(eapply path_app; eassumption)). lia. }
    destruct Hpath as [Hp|[Hne Hp]].
    - pose proof (Hdd _ _ _ _ _ Hp Hdp Hdq). lia.
    - pose proof (Hdd _ _ _ _ _ Hp Hdq Hdp). destruct Ho as [->|[_ ?]]; [congruence|lia].
  Qed.

  Theorem same_depth_conflict : simple_host -> (forall x, fresh e A inv l d x) ->
    forall x p q v w n, defines e A inv l d x p v -> defines e A inv l d x q w -> p <> q -> p <> s_early -> q <> s_early ->
    depth (direct hs gs) p n -> depth (direct hs gs) q n -> ~ exists w hist, instanciate_host e inv l host = Ok (w, hist).
  Proof.
    intros S Hf x p q v w n Dp Dq Hpq Hp Hq Hdp Hdq. rewrite accepted_iff by assumption. intros H. apply H.
    exists x, p, q, v, w. split_and!; auto. pose proof (load_accepted _ _ _ _ (sh_set S) (sh_load S)) as Ha.
    destruct (acc_max _ _ _ Ha) as (N & HN & Hmax). destruct (Hmax p (defines_exists _ _ _ S Dp)) as (h & Hh & _).
    exists N, n, n, h. split_and!; auto. destruct Hdp as [[u Hu] _], Hh as [[t Ht] _]. apply HN with (u := u) (v := t). eapply path_app; eassumption.
  Qed.
End accept.
