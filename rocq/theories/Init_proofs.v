(** Lemmas about [fora --init]. *)
From stdpp Require Import gmap.
From Coq Require Import Lia.
From Verif Require Import Base Utf8 Paths Sys Spec_Sys Sys_proofs Walk_proofs Dispatcher Coreutils Init Spec_Init.
Local Open Scope nat_scope.

(** ** Paths *)
Definition plain_name (c : pystr) : bool := negb (str_eqb c (lit ".")) && negb (str_eqb c (lit "..")).
(** [p] is a relative path of these names *)
Definition spells (p : pystr) (rel : list pystr) : bool :=
  bool_decide (comps p = rel) && bool_decide (rstrip_slash p = p) && negb (isabs p) && negb (has_char nul p) &&
  match p with [] => false | _ => true end && forallb plain_name rel.

Lemma plain_name_not c : plain_name c = true -> str_eqb c (lit ".") = false /\ str_eqb c (lit "..") = false.
Proof. unfold plain_name. intros H. apply andb_true_iff in H as [H1 H2]. rewrite negb_true_iff in H1, H2. auto. Qed.
Lemma below_cons d c l : below d (c :: l) = below (c :: d) l.
Proof. unfold below. cbn [rev]. rewrite <- app_assoc. reflexivity. Qed.
Lemma below_nil d : below d [] = d. Proof. reflexivity. Qed.
Lemma below_inj d a b : below d a = below d b -> a = b.
Proof. unfold below. intros H. apply app_inv_tail in H. rewrite <- (rev_involutive a), <- (rev_involutive b). now f_equal. Qed.

(** without links a walk stays on the names *)
Lemma walk_names fs f b : forall l cur, forallb plain_name l = true ->
  (forall l1 l2, l = l1 ++ l2 -> l1 <> [] -> no_link (fs !! below cur l1)) ->
  walk fs f b cur l = Ok (below cur l) \/ exists e, walk fs f b cur l = Err e.
Proof.
  induction l as [|c l IH]; intros cur Hp Hl; [left; rewrite walk_unfold; reflexivity|].
  cbn [forallb] in Hp. apply andb_true_iff in Hp as [Hc Hp]. apply plain_name_not in Hc as [H1 H2].
  rewrite walk_unfold, H1, H2, below_cons.
  pose proof (Hl [c] l eq_refl ltac:(discriminate)) as Hn. rewrite below_cons, below_nil in Hn.
  destruct (fs !! (c :: cur)) as [n|] eqn:E; [|destruct l; [left; reflexivity|right; eauto]].
  destruct (n_kind n) eqn:K.
  - destruct l; [left; reflexivity|right; eauto].
  - apply IH; [assumption|]. intros l1 l2 -> H. rewrite <- below_cons. eapply Hl; [reflexivity|discriminate].
  - exfalso. eapply Hn; [reflexivity|exact K].
  - destruct l; [left; reflexivity|right; eauto].
Qed.
Lemma walk_dirs fs f b : forall l cur, forallb plain_name l = true ->
  (forall l1 l2, l = l1 ++ l2 -> l1 <> [] -> l2 <> [] -> is_dir (fs !! below cur l1)) -> no_link (fs !! below cur l) ->
  walk fs f b cur l = Ok (below cur l).
Proof.
  induction l as [|c l IH]; intros cur Hp Hd Hl; [rewrite walk_unfold; reflexivity|].
  cbn [forallb] in Hp. apply andb_true_iff in Hp as [Hc Hp]. apply plain_name_not in Hc as [H1 H2].
  rewrite walk_unfold, H1, H2, below_cons. rewrite below_cons in Hl.
  destruct l as [|c2 l].
  - rewrite below_nil in *. destruct (fs !! (c :: cur)) as [n|] eqn:E; [|reflexivity].
    destruct (n_kind n) eqn:K; try reflexivity; [rewrite walk_unfold; reflexivity|]. exfalso. eapply Hl; [reflexivity|exact K].
  - destruct (Hd [c] (c2 :: l) eq_refl ltac:(discriminate) ltac:(discriminate)) as (n & E & K). rewrite below_cons, below_nil in E.
    rewrite E, K. apply IH; [assumption| |assumption]. intros l1 l2 H Hne1 Hne2. rewrite <- below_cons. apply (Hd (c :: l1) l2); [cbn; f_equal; exact H|discriminate|assumption].
Qed.

Lemma spells_inv p rel : spells p rel = true ->
  comps p = rel /\ rstrip_slash p = p /\ isabs p = false /\ has_char nul p = false /\ (match p with [] => false | _ => true end) = true /\ forallb plain_name rel = true.
Proof.
  unfold spells. rewrite !andb_true_iff, !negb_true_iff, !bool_decide_eq_true. tauto.
Qed.
Lemma resolve_spells fs cwd p rel f : spells p rel = true -> resolve fs cwd p f = walk fs f max_links cwd rel.
Proof.
  intros H. apply spells_inv in H as (H1 & _ & H3 & H4 & H5 & _). unfold resolve. rewrite H4, H3, H1. destruct p; [discriminate|reflexivity].
Qed.
Lemma resolve_stays fs cwd p rel f : spells p rel = true ->
  (forall l1 l2, rel = l1 ++ l2 -> l1 <> [] -> no_link (fs !! below cwd l1)) ->
  resolve fs cwd p f = Ok (below cwd rel) \/ exists e, resolve fs cwd p f = Err e.
Proof. intros H Hl. rewrite (resolve_spells _ _ _ _ _ H). apply walk_names; [apply spells_inv in H; tauto|exact Hl]. Qed.
Lemma resolve_dirs fs cwd p rel f : spells p rel = true ->
  (forall l1 l2, rel = l1 ++ l2 -> l1 <> [] -> l2 <> [] -> is_dir (fs !! below cwd l1)) -> no_link (fs !! below cwd rel) ->
  resolve fs cwd p f = Ok (below cwd rel).
Proof. intros H Hd Hl. rewrite (resolve_spells _ _ _ _ _ H). apply walk_dirs; [apply spells_inv in H; tauto|exact Hd|exact Hl]. Qed.

(** ** One action *)
Definition path_of (a : action) : pystr := match a with Mkdir p => p | Write p _ => p end.
Definition encodable (a : action) : bool := match a with Mkdir _ => true | Write _ t => match utf8_encode t with Some _ => true | None => false end end.
(** the effect on the file at the path of an action: nothing, or what it is for *)
Definition effect (a : action) (o o' : option node) (done : bool) : Prop :=
  match a with
  | Mkdir _ => (o' = o \/ (o = None /\ is_dir o')) /\ (done = true -> is_dir o')
  | Write _ t => (o' = o \/ ((o = None \/ exists b, has_bytes o b) /\ exists b, has_bytes o' b)) /\
                 (done = true -> has_text o' t \/ (o' = o /\ exists n k, o = Some n /\ n_kind n = KOther k))
  end.
Lemma unaffected_fs s s' : unaffected s s' -> o_fs s' = o_fs s. Proof. intros ->. reflexivity. Qed.
Lemma unaffected_cwd s s' : unaffected s s' -> o_cwd s' = o_cwd s. Proof. intros ->. reflexivity. Qed.
Lemma only_set fs s : only_files s (set_fs fs s). Proof. reflexivity. Qed.

Section One.
  Context (umask : N).
  Definition outcome (a : action) (P : place) (s s' : os) (done : bool) : Prop :=
    only_files s s' /\ (forall pl, pl <> P -> o_fs s' !! pl = o_fs s !! pl) /\ effect a (o_fs s !! P) (o_fs s' !! P) done.

  Lemma stat_inv p f s r s' : sys_stat p f s = (r, s') -> unaffected s s' /\
    (forall n, r = Ok n -> exists pl, resolve (o_fs s) (o_cwd s) p f = Ok pl /\ o_fs s !! pl = Some n).
  Proof.
    intros H. unfold sys_stat in H. apply syscall_inv in H as (s0 & Hs0 & [(n & -> & ->)|H]); [split; [assumption|discriminate]|].
    injection H as <- <-. split; [assumption|]. intros n Hn. rewrite (unaffected_fs _ _ Hs0), (unaffected_cwd _ _ Hs0) in Hn.
    destruct (resolve_node (o_fs s) (o_cwd s) p f) as [[pl m]|e] eqn:E; [|discriminate Hn].
    apply resolve_node_split in E as [E1 E2]. exists pl. injection Hn as ->. auto.
  Qed.

  Lemma mkdir_inv d rel s r s' : spells d rel = true ->
    (forall l1 l2, rel = l1 ++ l2 -> l1 <> [] -> no_link (o_fs s !! below (o_cwd s) l1)) ->
    do_mkdir (here umask s) d s = (r, s') ->
    (exists e, r = Err e /\ unaffected s s') \/
    (r = Ok tt /\ o_fs s !! below (o_cwd s) rel = None /\ only_files s s' /\ exists n, n_kind n = KDir /\ o_fs s' = <[below (o_cwd s) rel := n]> (o_fs s)).
  Proof.
    intros Hp Hl H. unfold do_mkdir in H. apply syscall_inv in H as (s0 & Hs0 & [(n & -> & ->)|H]); [left; eauto|].
    rewrite (unaffected_fs _ _ Hs0) in H. cbn [here p_cwd] in H.
    replace (rstrip_slash d) with d in H by (symmetry; apply spells_inv in Hp; tauto).
    destruct (resolve_stays (o_fs s) (o_cwd s) d rel false Hp Hl) as [E|[e E]]; rewrite E in H; [|injection H as <- <-; left; eauto].
    destruct (o_fs s !! below (o_cwd s) rel) eqn:El; injection H as <- <-; [left; eauto|right].
    split_and!; [reflexivity|reflexivity| |].
    - eapply only_files_trans; [apply unaffected_only; exact Hs0|apply only_set].
    - eexists. split; [|reflexivity]. reflexivity.
  Qed.

  Lemma act_spec a rel s r s' : spells (path_of a) rel = true -> encodable a = true ->
    (forall l1 l2, rel = l1 ++ l2 -> l1 <> [] -> no_link (o_fs s !! below (o_cwd s) l1)) -> rel <> [] ->
    act umask a s = (r, s') -> outcome a (below (o_cwd s) rel) s s' (is_ok r).
  Proof.
    intros Hp Henc Hl Hne H. set (P := below (o_cwd s) rel).
    assert (Hsame : forall s1, unaffected s s1 -> forall done, (done = true -> effect a (o_fs s !! P) (o_fs s !! P) true) -> outcome a P s s1 done).
    { intros s1 Hu done Hd. split; [apply unaffected_only; exact Hu|]. rewrite (unaffected_fs _ _ Hu). split; [reflexivity|].
      destruct a; cbn [effect] in *; (split; [left; reflexivity|]); intros ->; apply Hd; reflexivity. }
    destruct a as [d|f t]; cbn [act path_of] in *.
    - unfold create_dir in H. destruct (do_mkdir (here umask s) d s) as [r1 s1] eqn:E.
      apply (mkdir_inv d rel) in E; [|assumption|assumption].
      destruct E as [(e & -> & Hu)|(-> & Hno & Ho & n & K & Ef)].
      + assert (Herr : forall e' s2, unaffected s s2 -> outcome (Mkdir d) P s s2 (is_ok (Err (A := unit) e'))) by (intros; apply Hsame; [assumption|discriminate]).
        destruct e; try (injection H as <- <-; apply Herr; assumption).
        destruct (_ =? ENOENT)%Z; [injection H as <- <-; apply Herr; assumption|].
        destruct (sys_stat d true s1) as [r2 s2] eqn:E2. apply stat_inv in E2 as [Hu2 E2].
        assert (Hu3 : unaffected s s2) by (eapply unaffected_trans; eassumption).
        destruct r2 as [n|e2]; [|injection H as <- <-; apply Herr; assumption].
        destruct (n_kind n) eqn:K; injection H as <- <-; try (apply Herr; assumption).
        apply Hsame; [assumption|]. intros _. split; [left; reflexivity|]. intros _.
        destruct (E2 n eq_refl) as (pl & Er & En). rewrite (unaffected_fs _ _ Hu), (unaffected_cwd _ _ Hu) in Er. rewrite (unaffected_fs _ _ Hu) in En.
        destruct (resolve_stays (o_fs s) (o_cwd s) d rel true Hp Hl) as [E|[e E]]; rewrite E in Er; [|discriminate].
        injection Er as <-. exists n. auto.
      + injection H as <- <-. split; [exact Ho|]. fold P in Ef. rewrite Ef. split; [intros pl Hpl; apply lookup_insert_ne; intros <-; apply Hpl; reflexivity|].
        rewrite lookup_insert. split; [right; split; [exact Hno|]|intros _]; exists n; auto.
    - unfold write_file in H. apply bind_inv in H.
      cbn [encodable] in Henc. destruct (utf8_encode t) as [b|] eqn:Hb; [|discriminate].
      assert (Hopen : forall r1 s1, sys_open_write f s = (r1, s1) ->
        (exists e, r1 = Err e /\ unaffected s s1) \/
        (r1 = Ok P /\ unaffected s s1 /\ exists n k, o_fs s !! P = Some n /\ n_kind n = KOther k) \/
        (r1 = Ok P /\ (o_fs s !! P = None \/ exists b, has_bytes (o_fs s !! P) b) /\ only_files s s1 /\
           exists n, n_kind n = KFile [] /\ o_fs s1 = <[P := n]> (o_fs s))).
      { intros r1 s1 E. unfold sys_open_write in E. apply syscall_inv in E as (s0 & Hs0 & [(n & -> & ->)|E]); [left; eauto|].
        rewrite (unaffected_fs _ _ Hs0), (unaffected_cwd _ _ Hs0) in E.
        destruct (resolve_stays (o_fs s) (o_cwd s) f rel true Hp Hl) as [Er|[e Er]]; rewrite Er in E; [|injection E as <- <-; left; eauto].
        fold P in E. destruct (o_fs s !! P) as [n|] eqn:El.
        - destruct (n_kind n) eqn:K; injection E as <- <-; [right; right|left; eauto|left; eauto|right; left; eauto 8].
          split_and!; [reflexivity|right; exists content, n; auto| |eexists; split; [|reflexivity]; reflexivity].
          eapply only_files_trans; [apply unaffected_only; exact Hs0|apply only_set].
        - injection E as <- <-. right; right. split_and!; [reflexivity|left; reflexivity| |eexists; split; [|reflexivity]; reflexivity].
          eapply only_files_trans; [apply unaffected_only; exact Hs0|apply only_set]. }
      destruct H as [(pl & s1 & E1 & H)|(e & E1 & ->)]; apply Hopen in E1.
      + unfold sys_write in H.
        assert (Hf : unaffected s1 (next_fault s1).2) by (unfold next_fault; destruct (o_faults s1); [apply unaffected_refl|reflexivity]).
        destruct (next_fault s1) as [ft s0]. cbn [snd] in Hf.
        destruct E1 as [(e & Heq & _)|[(Heq & Hu & n & k & El & K)|(Heq & Hold & Ho & n & K & Ef)]]; [discriminate| |]; injection Heq as ->.
        * rewrite (unaffected_fs _ _ Hf), (unaffected_fs _ _ Hu), El, K in H.
          assert (Hu2 : unaffected s s0) by (eapply unaffected_trans; eassumption).
          destruct ft; injection H as <- <-; apply Hsame; try assumption; [|discriminate].
          intros _. split; [left; reflexivity|]. intros _. right. eauto 8.
        * rewrite (unaffected_fs _ _ Hf), Ef, lookup_insert, K in H.
          assert (Hfin : forall m c done, n_kind m = KFile c -> (done = true -> c = b) -> outcome (Write f t) P s (set_fs (<[P:=m]> (o_fs s)) s0) done).
          { intros m c done Km Hc. split; [|split].
            - eapply only_files_trans; [exact Ho|]. eapply only_files_trans; [apply unaffected_only; exact Hf|apply only_set].
            - intros pl Hpl. cbn. apply lookup_insert_ne. intros <-. apply Hpl. reflexivity.
            - cbn [o_fs set_fs effect]. rewrite lookup_insert. split; [right; split; [exact Hold|exists c, m; auto]|].
              intros Hd. left. exists b. split; [exact Hb|]. exists m. rewrite <- (Hc Hd). auto. }
          destruct ft; injection H as <- <-; rewrite insert_insert; eapply Hfin; cbn; try reflexivity; discriminate.
      + destruct E1 as [(e' & _ & Hu)|[(Heq & _)|(Heq & _)]]; try discriminate. apply Hsame; [assumption|discriminate].
  Qed.

  Definition free_for (a : action) (o : option node) : Prop := match a with Mkdir _ => free_dir o | Write _ _ => free_file o end.
  Lemma free_no_link a o : free_for a o -> no_link o.
  Proof.
    destruct a; cbn; intros [->|H] n t E; try discriminate.
    - destruct H as (m & -> & K). injection E as <-. congruence.
    - destruct H as (b & m & -> & K). injection E as <-. congruence.
  Qed.
  Lemma act_ok a rel s : o_faults s = [] -> spells (path_of a) rel = true -> encodable a = true ->
    (forall l1 l2, rel = l1 ++ l2 -> l1 <> [] -> l2 <> [] -> is_dir (o_fs s !! below (o_cwd s) l1)) ->
    free_for a (o_fs s !! below (o_cwd s) rel) ->
    exists s', act umask a s = (Ok tt, s') /\ o_faults s' = [].
  Proof.
    intros H0 Hp Henc Hd Hf. pose proof (free_no_link _ _ Hf) as Hl.
    assert (Hr : forall f, resolve (o_fs s) (o_cwd s) (path_of a) f = Ok (below (o_cwd s) rel)) by (intros f; apply resolve_dirs; assumption).
    destruct a as [d|f t]; cbn [act path_of free_for] in *.
    - unfold create_dir, do_mkdir. rewrite syscall_ok by assumption. cbn [here p_cwd].
      replace (rstrip_slash d) with d by (symmetry; apply spells_inv in Hp; tauto). rewrite Hr.
      destruct Hf as [E|(n & E & K)]; rewrite E.
      + eexists. split; [reflexivity|exact H0].
      + change ((EEXIST =? ENOENT)%Z) with false. cbn [oserr].
        unfold sys_stat. rewrite syscall_ok by assumption. unfold resolve_node. rewrite Hr. cbn [mbind result_bind]. rewrite E. cbn. rewrite K. eexists. split; [reflexivity|exact H0].
    - unfold write_file. cbn [encodable] in Henc. destruct (utf8_encode t) as [b|]; [|discriminate].
      assert (Ho : exists s1 n, sys_open_write f s = (Ok (below (o_cwd s) rel), s1) /\ o_faults s1 = [] /\ o_fs s1 !! below (o_cwd s) rel = Some n /\ n_kind n = KFile []).
      { unfold sys_open_write. rewrite syscall_ok by assumption. rewrite Hr. destruct Hf as [E|(c & n & E & K)]; rewrite E; [|rewrite K];
        (do 2 eexists; split; [reflexivity|]; split; [exact H0|]; cbn; rewrite lookup_insert; split; [reflexivity|reflexivity]). }
      destruct Ho as (s1 & n & E1 & F1 & El & K). rewrite (bind_ok _ _ _ _ _ E1). unfold sys_write, next_fault. rewrite F1, El, K.
      eexists. split; [reflexivity|exact F1].
  Qed.
End One.

(** ** All actions *)
(** every path of a layout lies in a directory that was made before *)
Fixpoint orderly (done : list (list pystr)) (l : list action) : bool :=
  match l with
  | [] => true
  | a :: r =>
      let rel := comps (path_of a) in
      spells (path_of a) rel && encodable a && negb (bool_decide (rel = [])) &&
      forallb (fun k => bool_decide (take k rel ∈ done)) (seq 1 (pred (length rel))) &&
      negb (bool_decide (rel ∈ done)) && forallb (fun b => negb (bool_decide (rel = comps (path_of b)))) r &&
      orderly (match a with Mkdir _ => rel :: done | Write _ _ => done end) r
  end.
Definition rel_of (a : action) : list pystr := comps (path_of a).
Lemma orderly_cons done a r : orderly done (a :: r) = true ->
  spells (path_of a) (rel_of a) = true /\ encodable a = true /\ rel_of a <> [] /\
  (forall l1 l2, rel_of a = l1 ++ l2 -> l1 <> [] -> l2 <> [] -> l1 ∈ done) /\ rel_of a ∉ done /\
  (forall b, b ∈ r -> rel_of a <> rel_of b) /\
  orderly (match a with Mkdir _ => rel_of a :: done | Write _ _ => done end) r = true.
Proof.
  cbn [orderly]. fold (rel_of a). rewrite !andb_true_iff, !negb_true_iff, !bool_decide_eq_false. intros ((((((H1 & H2) & H3) & H4) & H5) & H6) & H7).
  split_and!; try assumption.
  - intros l1 l2 E Hn1 Hn2. rewrite forallb_forall in H4. specialize (H4 (length l1)). rewrite bool_decide_eq_true, E, take_app in H4. apply H4.
    apply in_seq. rewrite app_length. destruct l1; [congruence|]. destruct l2; [congruence|]. cbn. lia.
  - intros b Hb E. rewrite forallb_forall in H6. apply elem_of_list_In in Hb. specialize (H6 b Hb). rewrite negb_true_iff, bool_decide_eq_false in H6. exact (H6 E).
Qed.

Section All.
  Context (umask : N).
  Lemma effect_no_link a o o' d : effect a o o' d -> no_link o -> no_link o'.
  Proof.
    destruct a; cbn; intros [[->|[_ H]] _] Ho; try assumption.
    - destruct H as (n & -> & K). intros m t E. injection E as <-. congruence.
    - destruct H as (b & n & -> & K). intros m u E. injection E as <-. congruence.
  Qed.
  Lemma acts_spec : forall l done s r s', orderly done l = true ->
    (forall rel, rel ∈ done \/ rel ∈ map rel_of l -> no_link (o_fs s !! below (o_cwd s) rel)) ->
    acts umask l s = (r, s') ->
    only_files s s' /\ (forall pl, (forall a, a ∈ l -> pl <> below (o_cwd s) (rel_of a)) -> o_fs s' !! pl = o_fs s !! pl) /\
    (forall a, a ∈ l -> effect a (o_fs s !! below (o_cwd s) (rel_of a)) (o_fs s' !! below (o_cwd s) (rel_of a)) (is_ok r)).
  Proof.
    induction l as [|a l IH]; intros done s r s' Hw Hl H.
    - injection H as <- <-. split_and!; [apply only_files_refl|reflexivity|]. intros a Ha. apply elem_of_nil in Ha as [].
    - apply orderly_cons in Hw as (Hs & He & Hne & Hpre & Hnd & Hdis & Hw). cbn [acts] in H. apply bind_inv in H.
      assert (Hpath : forall l1 l2, rel_of a = l1 ++ l2 -> l1 <> [] -> no_link (o_fs s !! below (o_cwd s) l1)).
      { intros l1 l2 E Hn1. destruct l2 as [|c l2].
        - rewrite app_nil_r in E. subst l1. apply Hl. right. left.
        - apply Hl. left. eapply Hpre; [exact E|assumption|discriminate]. }
      assert (Hrest : forall b, b ∈ l -> below (o_cwd s) (rel_of b) <> below (o_cwd s) (rel_of a)).
      { intros b Hb E. apply below_inj in E. eapply Hdis; [exact Hb|congruence]. }
      destruct H as [([] & s1 & E & H)|(e & E & ->)].
      + pose proof (act_spec umask a _ s _ s1 Hs He Hpath Hne E) as (Ho & Hout & Heff).
        assert (Ec : o_cwd s1 = o_cwd s) by (rewrite Ho; reflexivity).
        apply IH with (done := match a with Mkdir _ => rel_of a :: done | Write _ _ => done end) in H; [|exact Hw|].
        * rewrite Ec in H. destruct H as (Ho2 & Hout2 & Heff2). split_and!.
          -- eapply only_files_trans; eassumption.
          -- intros pl Hpl. rewrite Hout2; [apply Hout; apply Hpl; left|]. intros b Hb. apply Hpl. right. exact Hb.
          -- intros b Hb. apply elem_of_cons in Hb as [->|Hb].
             ++ rewrite Hout2; [|intros b Hb Eb; apply (Hrest b Hb); congruence].
                destruct a; cbn [effect] in *; destruct Heff as [H1 H2]; split; try exact H1; intros _; apply H2; reflexivity.
             ++ rewrite <- (Hout (below (o_cwd s) (rel_of b))) by (apply Hrest; exact Hb). apply Heff2. exact Hb.
        * intros rel Hrel. rewrite Ec. destruct (decide (rel = rel_of a)) as [->|Hd].
          -- eapply effect_no_link; [exact Heff|]. apply Hl. right. left.
          -- rewrite Hout by (intros E2; apply Hd; eapply below_inj; exact E2). apply Hl. destruct Hrel as [Hrel|Hrel]; [|right; right; exact Hrel].
             left. destruct a; [|exact Hrel]. apply elem_of_cons in Hrel as [?|?]; [congruence|assumption].
      + pose proof (act_spec umask a _ s _ s' Hs He Hpath Hne E) as (Ho & Hout & Heff). split_and!; [exact Ho| |].
        * intros pl Hpl. apply Hout. apply Hpl. left.
        * intros b Hb. apply elem_of_cons in Hb as [->|Hb]; [exact Heff|]. rewrite Hout by (apply Hrest; exact Hb).
          destruct b; cbn; (split; [left; reflexivity|discriminate]).
  Qed.
  Lemma acts_ok : forall l done s, o_faults s = [] -> orderly done l = true ->
    (forall rel, rel ∈ done -> is_dir (o_fs s !! below (o_cwd s) rel)) ->
    (forall a, a ∈ l -> free_for a (o_fs s !! below (o_cwd s) (rel_of a))) ->
    exists s', acts umask l s = (Ok tt, s').
  Proof.
    induction l as [|a l IH]; intros done s H0 Hw Hd Hf; [eexists; reflexivity|].
    apply orderly_cons in Hw as (Hs & He & Hne & Hpre & Hnd & Hdis & Hw).
    destruct (act_ok umask a _ s H0 Hs He) as (s1 & E & F1).
    { intros l1 l2 E H1 H2. apply Hd. eapply Hpre; eassumption. } { apply Hf. left. }
    assert (Hpath : forall l1 l2, rel_of a = l1 ++ l2 -> l1 <> [] -> no_link (o_fs s !! below (o_cwd s) l1)).
    { intros l1 l2 E1 Hn1. destruct l2 as [|c l2].
      - rewrite app_nil_r in E1. subst l1. eapply free_no_link. apply Hf. left.
      - destruct (Hd l1) as (n & E2 & K); [eapply Hpre; [exact E1|assumption|discriminate]|]. rewrite E2. intros m t E3. injection E3 as <-. congruence. }
    pose proof (act_spec umask a _ s _ s1 Hs He Hpath Hne E) as (Ho & Hout & Heff).
    assert (Ec : o_cwd s1 = o_cwd s) by (rewrite Ho; reflexivity).
    cbn [acts]. rewrite (bind_ok _ _ _ _ _ E). eapply IH; [exact F1|exact Hw| |].
    - intros rel Hrel. rewrite Ec. assert (Hold : rel ∈ done -> is_dir (o_fs s1 !! below (o_cwd s) rel)).
      { intros Hr. rewrite Hout; [apply Hd; exact Hr|]. intros E2. apply below_inj in E2. congruence. }
      destruct a; [|apply Hold; exact Hrel]. apply elem_of_cons in Hrel as [->|Hrel]; [|apply Hold; exact Hrel].
      destruct Heff as [_ Heff]. apply Heff. reflexivity.
    - intros b Hb. rewrite Ec, Hout; [apply Hf; right; exact Hb|]. intros E2. apply below_inj in E2. eapply Hdis; [exact Hb|congruence].
  Qed.
End All.
