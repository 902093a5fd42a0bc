(** C84: what [fora --init] leaves behind. *)
From stdpp Require Import gmap.
From Coq Require Import Lia.
From Verif Require Import Base Utf8 Paths Sys Spec_Sys Sys_proofs Walk_proofs Spec_Tree Tree_dry Dispatcher Coreutils Init Spec_Init Init_proofs.
Local Open Scope nat_scope.

(** ** The tables of the specification agree with the program *)
Definition made (l : list action) : list (list pystr) := flat_map (fun a => match a with Mkdir _ => [rel_of a] | _ => [] end) l.
Definition written (l : list action) : list (list pystr) := flat_map (fun a => match a with Write _ _ => [rel_of a] | _ => [] end) l.
Definition table_ok (layout : pystr) : bool :=
  match dget layout init_fns with
  | None => false
  | Some l => orderly [] l && bool_decide (made l = dirs_of layout) && bool_decide (written l = files_of layout) &&
              forallb (fun a => match a with Mkdir _ => true | Write _ t => bool_decide (text_of layout (rel_of a) = Some t) end) l
  end.
Lemma tables : forallb table_ok layouts = true.
Proof. vm_compute. reflexivity. Qed.
Lemma table layout : layout ∈ layouts -> exists l, dget layout init_fns = Some l /\ orderly [] l = true /\
  (forall rel, rel ∈ dirs_of layout <-> exists p, Mkdir p ∈ l /\ rel_of (Mkdir p) = rel) /\
  (forall rel, rel ∈ files_of layout <-> exists p t, Write p t ∈ l /\ rel_of (Write p t) = rel) /\
  (forall p t, Write p t ∈ l -> text_of layout (rel_of (Write p t)) = Some t).
Proof.
  intros H. pose proof tables as T. rewrite forallb_forall in T. apply elem_of_list_In in H. specialize (T layout H). unfold table_ok in T.
  destruct (dget layout init_fns) as [l|]; [|discriminate]. rewrite !andb_true_iff, !bool_decide_eq_true in T. destruct T as (((T1 & T2) & T3) & T4).
  exists l. split; [reflexivity|]. split; [exact T1|]. split_and!.
  - intros rel. rewrite <- T2. unfold made. rewrite elem_of_list_In, in_flat_map. split.
    + intros ([p|p t] & Ha & Hr); [|destruct Hr]. destruct Hr as [Hr|[]]. exists p. split; [apply elem_of_list_In; exact Ha|exact Hr].
    + intros (p & Ha & Hr). exists (Mkdir p). split; [apply elem_of_list_In; exact Ha|left; exact Hr].
  - intros rel. rewrite <- T3. unfold written. rewrite elem_of_list_In, in_flat_map. split.
    + intros ([p|p t] & Ha & Hr); [destruct Hr|]. destruct Hr as [Hr|[]]. exists p, t. split; [apply elem_of_list_In; exact Ha|exact Hr].
    + intros (p & t & Ha & Hr). exists (Write p t). split; [apply elem_of_list_In; exact Ha|left; exact Hr].
  - intros p t Ha. rewrite forallb_forall in T4. apply elem_of_list_In in Ha. specialize (T4 _ Ha). rewrite bool_decide_eq_true in T4. exact T4.
Qed.

(** ** Being asked *)
Lemma occupied_spec s : occupied s = true <-> ~ empty_dir s.
Proof.
  unfold occupied. rewrite existsb_exists. split.
  - intros ([pl n] & Hin & E) He. apply elem_of_list_In, elem_of_map_to_list in Hin. destruct pl as [|c d]; [discriminate|].
    cbn in E. apply bool_decide_eq_true in E. subst d. rewrite He in Hin. discriminate.
  - intros H. destruct (existsb (fun e : place * node => match e.1 with _ :: d => bool_decide (d = o_cwd s) | [] => false end) (map_to_list (o_fs s))) eqn:E;
      [apply existsb_exists in E; exact E|].
    exfalso. apply H. intros c. destruct (o_fs s !! (c :: o_cwd s)) as [n|] eqn:El; [|reflexivity]. exfalso.
    assert (true = false); [|discriminate]. rewrite <- E. symmetry. apply existsb_exists. exists (c :: o_cwd s, n).
    split; [apply elem_of_list_In, elem_of_map_to_list; exact El|]. cbn. apply bool_decide_eq_true. reflexivity.
Qed.
Lemma lower_char c d : (97 <= d <= 122)%N -> (if (65 <=? c)%N && (c <=? 90)%N then (c + 32)%N else c) = d -> c = d \/ c = (d - 32)%N.
Proof. intros Hd. destruct (_ && _) eqn:E; [|auto]. intros H. right. lia. Qed.
Lemma accepts t : str_eqb (lower t) (lit "y") || str_eqb (lower t) (lit "yes") = true <-> t ∈ yes.
Proof.
  split.
  - intros H. apply orb_true_iff in H as [H|H]; apply bool_decide_eq_true in H; unfold lower in H.
    + destruct t as [|c [|? ?]]; try discriminate. injection H as H. apply lower_char in H; [|lia]. destruct H as [->| ->]; unfold yes; [left|right; left].
    + destruct t as [|c1 [|c2 [|c3 [|? ?]]]]; try discriminate. injection H as H1 H2 H3.
      apply lower_char in H1; [|lia]. apply lower_char in H2; [|lia]. apply lower_char in H3; [|lia].
      assert (D : bool_decide ([c1; c2; c3] ∈ yes) = true) by (destruct H1 as [->| ->], H2 as [->| ->], H3 as [->| ->]; vm_compute; reflexivity).
      apply bool_decide_eq_true in D. exact D.
  - intros H. assert (F : forallb (fun t => str_eqb (lower t) (lit "y") || str_eqb (lower t) (lit "yes")) yes = true) by (vm_compute; reflexivity).
    rewrite forallb_forall in F. apply F, elem_of_list_In, H.
Qed.

Lemma init_inv umask layout answer s r s' : layout ∈ layouts -> init_deploy_structure umask layout answer s = (r, s') ->
  exists l s1, dget layout init_fns = Some l /\ unaffected s s1 /\ (o_faults s = [] -> o_faults s1 = []) /\
   ((unaffected s s' /\ exists n, r = Err (oserr n) /\ o_faults s <> []) \/
    (~ empty_dir s /\ answer = None /\ r = Err EOFError /\ s' = s1) \/
    (~ empty_dir s /\ (exists t, answer = Some t /\ t ∉ yes) /\ r = Err (SystemExit 1) /\ s' = s1) \/
    ((empty_dir s \/ exists t, answer = Some t /\ t ∈ yes) /\
       ((acts umask l s1 = (Ok tt, s') /\ r = Err (SystemExit 0)) \/ (exists e, acts umask l s1 = (Err e, s') /\ r = Err e)))).
Proof.
  intros Hlay H. destruct (table layout Hlay) as (l & El & _). unfold init_deploy_structure in H. rewrite El in H.
  apply bind_inv in H. destruct H as [(some & s1 & E & H)|(e & E & ->)].
  - assert (Hf : o_faults s = [] -> o_faults s1 = []) by (intros F; unfold scandir, syscall, next_fault in E; rewrite F in E; injection E as _ <-; exact F).
    unfold scandir in E. apply syscall_inv in E as (s0 & Hs0 & [(n & E & _)|E]); [discriminate|]. injection E as <- <-.
    exists l, s0. split; [exact El|]. split; [exact Hs0|]. split; [exact Hf|]. right.
    assert (Eo : occupied s0 = occupied s) by (unfold occupied; rewrite (unaffected_fs _ _ Hs0), (unaffected_cwd _ _ Hs0); reflexivity).
    rewrite Eo in H. destruct (occupied s) eqn:O.
    + apply occupied_spec in O. destruct answer as [t|]; [|injection H as <- <-; left; auto]. right.
      destruct (str_eqb (lower t) (lit "y") || str_eqb (lower t) (lit "yes")) eqn:Y.
      * right. apply accepts in Y. split; [right; eauto|]. rewrite (bind_ok (pure tt) _ _ tt _ eq_refl) in H. apply bind_inv in H as [([] & s2 & E & H)|(e & E & ->)]; [left|right; eauto].
        injection H as <- <-. auto.
      * left. injection H as <- <-. split_and!; auto. exists t. split; [reflexivity|]. intros Hy. apply accepts in Hy. congruence.
    + right. right. split. { left. intros c; destruct (o_fs s !! (c :: o_cwd s)) eqn:Ec; [|reflexivity]; exfalso;
        assert (~ empty_dir s) as Hn by (intros He; rewrite He in Ec; discriminate); apply occupied_spec in Hn; congruence. }
      rewrite (bind_ok (pure tt) _ _ tt _ eq_refl) in H. apply bind_inv in H as [([] & s2 & E & H)|(e & E & ->)]; [left|right; eauto].
      injection H as <- <-. auto.
  - exists l, s. split; [exact El|]. split; [apply unaffected_refl|]. split; [auto|]. left. unfold scandir, syscall, next_fault in E.
    destruct (o_faults s) as [|[|n k] fl] eqn:F; [discriminate| |]; [discriminate|]. injection E as <- <-. split; [apply unaffected_set|]. exists n. split; [reflexivity|discriminate].
Qed.

(** no system call raises SystemExit *)
Definition calm {A} (m : M A) : Prop := forall s e s', m s = (Err e, s') -> forall c, e <> SystemExit c.
Lemma calm_syscall {A} (m : M A) : calm m -> calm (syscall m).
Proof. intros H s e s' E c. apply syscall_inv in E as (s0 & _ & [(n & E & _)|E]); [injection E as ->; discriminate|exact (H _ _ _ E c)]. Qed.
Lemma calm_resolve fs cwd p f e : resolve fs cwd p f = Err e -> forall c, e <> SystemExit c.
Proof. intros H c. apply resolve_err in H as [(_ & m & ->)|(_ & [->|[->| ->]])]; discriminate. Qed.
Lemma calm_node fs cwd p f e : resolve_node fs cwd p f = Err e -> forall c, e <> SystemExit c.
Proof. intros H c. apply resolve_node_err in H as [(_ & m & ->)|(_ & [->|[->| ->]])]; discriminate. Qed.
Lemma calm_mkdir p d : calm (do_mkdir p d).
Proof.
  apply calm_syscall. intros s e s' E. destruct (resolve _ _ _ _) eqn:Er; [|injection E as -> _; eapply calm_resolve; exact Er].
  destruct (_ !! _); [|discriminate]. injection E as <- _. intros c. discriminate.
Qed.
Lemma calm_stat p f : calm (sys_stat p f).
Proof. apply calm_syscall. intros s e s' E. injection E as E _. destruct (resolve_node _ _ _ _) eqn:Er; [discriminate|]. injection E as <-. eapply calm_node; exact Er. Qed.
Lemma calm_open f : calm (sys_open_write f).
Proof.
  apply calm_syscall. intros s e s' E c. destruct (resolve _ _ _ _) as [pl|] eqn:Er; [|injection E as -> _; eapply calm_resolve; exact Er].
  destruct (o_fs s !! pl) as [n|]; [|discriminate]. destruct (n_kind n); try discriminate; injection E as <- _; discriminate.
Qed.
Lemma calm_act umask a : calm (act umask a).
Proof.
  destruct a as [d|f t]; cbn [act]; intros s e s' H c.
  - unfold create_dir in H. destruct (do_mkdir (here umask s) d s) as [[u|e1] s1] eqn:E; [discriminate|]. pose proof (calm_mkdir _ _ _ _ _ E c) as H1.
    destruct e1; try (injection H as <- <-; exact H1). destruct (_ =? ENOENT)%Z; [injection H as <- <-; discriminate|].
    destruct (sys_stat d true s1) as [[n|e2] s2] eqn:E2.
    + destruct (n_kind n); [injection H as <- _; discriminate|discriminate H|injection H as <- _; discriminate|injection H as <- _; discriminate].
    + injection H as <- _. destruct (ignorable e2); [discriminate|]. exact (calm_stat _ _ _ _ _ E2 c).
  - unfold write_file in H. apply bind_inv in H as [(pl & s1 & E & H)|(e1 & E & Ee)].
    + destruct (utf8_encode t); [|injection H as <- _; discriminate]. unfold sys_write in H. destruct (next_fault s1) as [[|n k] s2]; [discriminate|]. injection H as <- _. discriminate.
    + injection Ee as ->. exact (calm_open _ _ _ _ E c).
Qed.
Lemma acts_no_exit umask : forall l s s' c, acts umask l s <> (Err (SystemExit c), s').
Proof.
  induction l as [|a l IH]; intros s s' c H; [discriminate|]. cbn [acts] in H. apply bind_inv in H as [([] & s1 & E & H)|(e & E & Ee)]; [exact (IH _ _ _ H)|].
  injection Ee as <-. exact (calm_act umask a _ _ _ E c eq_refl).
Qed.

(** ** C84 *)
(** Without an answer that means yes nothing happens to a directory that is not empty. *)
Theorem C84_asked : forall umask layout answer s r s', layout ∈ layouts -> ~ empty_dir s -> (forall t, answer = Some t -> t ∉ yes) ->
  init_deploy_structure umask layout answer s = (r, s') ->
  unaffected s s' /\ (r = Err (SystemExit 1) \/ r = Err EOFError \/ exists n, r = Err (oserr n) /\ o_faults s <> []) /\
  (o_faults s = [] -> answer <> None -> r = Err (SystemExit 1)).
Proof.
  intros umask layout answer s r s' Hlay Hne Hno H. destruct (init_inv _ _ _ _ _ _ Hlay H) as (l & s1 & _ & Hu & _ & C).
  destruct C as [(Hu' & n & -> & F)|[(_ & -> & -> & ->)|[(_ & _ & -> & ->)|([He|(t & -> & Ht)] & _)]]].
  - split; [exact Hu'|]. split; [right; right; eauto|congruence].
  - split; [exact Hu|]. split; [auto|congruence].
  - split; [exact Hu|]. auto.
  - contradiction.
  - exfalso. exact (Hno t eq_refl Ht).
Qed.

Lemma free_all s layout l : layout ∈ layouts -> dget layout init_fns = Some l -> free s layout ->
  forall a, a ∈ l -> free_for a (o_fs s !! below (o_cwd s) (rel_of a)).
Proof.
  intros Hlay El [F1 F2] a Ha. destruct (table layout Hlay) as (l' & El' & _ & Hd & Hf & _). rewrite El in El'. injection El' as <-.
  destruct a as [p|p t]; cbn [free_for].
  - apply F1, Hd. eauto.
  - apply F2, Hf. eauto.
Qed.
Lemma unlinked_all s layout l : layout ∈ layouts -> dget layout init_fns = Some l -> unlinked s layout ->
  forall rel, rel ∈ map rel_of l -> no_link (o_fs s !! below (o_cwd s) rel).
Proof.
  intros Hlay El F rel Ha. destruct (table layout Hlay) as (l' & El' & _ & Hd & Hf & _). rewrite El in El'. injection El' as <-.
  apply elem_of_list_In, in_map_iff in Ha as (a & <- & Ha). apply elem_of_list_In in Ha. apply F, elem_of_app.
  destruct a as [p|p t]; [left; apply Hd; eauto|right; apply Hf; eauto].
Qed.
Lemma free_unlinked s layout : free s layout -> unlinked s layout.
Proof.
  intros [F1 F2] rel H. apply elem_of_app in H as [H|H].
  - apply (free_no_link (Mkdir [])). exact (F1 _ H).
  - apply (free_no_link (Write [] [])). exact (F2 _ H).
Qed.
Lemma orderly_distinct : forall l done a b, orderly done l = true -> a ∈ l -> b ∈ l -> rel_of a = rel_of b -> a = b.
Proof.
  induction l as [|x l IH]; intros done a b H Ha Hb E; [apply elem_of_nil in Ha as []|].
  apply orderly_cons in H as (_ & _ & _ & _ & _ & Hd & H). apply elem_of_cons in Ha as [->|Ha]; apply elem_of_cons in Hb as [->|Hb].
  - reflexivity.
  - exfalso. exact (Hd b Hb E).
  - exfalso. exact (Hd a Ha (eq_sym E)).
  - eapply IH; eassumption.
Qed.

(** what has happened to the file system: only paths of the layout were touched; there, files and directories appeared, and
    regular files got another content *)
Definition confined (s s' : os) (layout : pystr) : Prop :=
  only_files s s' /\
  (forall pl, (forall rel, rel ∈ dirs_of layout ++ files_of layout -> pl <> below (o_cwd s) rel) -> o_fs s' !! pl = o_fs s !! pl) /\
  (forall rel, rel ∈ dirs_of layout -> let pl := below (o_cwd s) rel in o_fs s' !! pl = o_fs s !! pl \/ (o_fs s !! pl = None /\ is_dir (o_fs s' !! pl))) /\
  (forall rel, rel ∈ files_of layout -> let pl := below (o_cwd s) rel in
     o_fs s' !! pl = o_fs s !! pl \/ (free_file (o_fs s !! pl) /\ exists b, has_bytes (o_fs s' !! pl) b)).
Lemma unaffected_confined s s' layout : unaffected s s' -> confined s s' layout.
Proof.
  intros Hu. unfold confined. rewrite (unaffected_fs _ _ Hu). split_and!; [apply unaffected_only; exact Hu|reflexivity| |]; intros rel _; left; reflexivity.
Qed.
Lemma ran umask layout l s s1 r s' : layout ∈ layouts -> dget layout init_fns = Some l -> unlinked s layout -> unaffected s s1 ->
  acts umask l s1 = (r, s') -> confined s s' layout /\
  (is_ok r = true -> (forall rel, rel ∈ dirs_of layout -> is_dir (o_fs s' !! below (o_cwd s) rel)) /\
     (forall rel, rel ∈ files_of layout -> (exists t, text_of layout rel = Some t /\ has_text (o_fs s' !! below (o_cwd s) rel) t) \/
        (exists n k, o_fs s !! below (o_cwd s) rel = Some n /\ n_kind n = KOther k))).
Proof.
  intros Hlay El Hl Hu H. destruct (table layout Hlay) as (l' & El' & Ho & Hd & Hf & Ht). rewrite El in El'. injection El' as <-.
  apply (acts_spec umask l []) in H; [|exact Ho|].
  2:{ intros rel [Hrel|Hrel]; [apply elem_of_nil in Hrel as []|]. rewrite (unaffected_fs _ _ Hu), (unaffected_cwd _ _ Hu). eapply unlinked_all; eassumption. }
  rewrite (unaffected_fs _ _ Hu), (unaffected_cwd _ _ Hu) in H. destruct H as (H1 & H2 & H3). split; [split_and!|].
  - eapply only_files_trans; [apply unaffected_only; exact Hu|exact H1].
  - intros pl Hpl. apply H2. intros a Ha. apply Hpl, elem_of_app. destruct a as [p|p t]; [left; apply Hd; eauto|right; apply Hf; eauto].
  - intros rel Hrel. apply Hd in Hrel as (p & Ha & <-). exact (proj1 (H3 _ Ha)).
  - intros rel Hrel. apply Hf in Hrel as (p & t & Ha & <-). exact (proj1 (H3 _ Ha)).
  - intros Hok. split; intros rel Hrel.
    + apply Hd in Hrel as (p & Ha & <-). exact (proj2 (H3 _ Ha) Hok).
    + apply Hf in Hrel as (p & t & Ha & <-). destruct (proj2 (H3 _ Ha) Hok) as [Hx|(_ & n & k & Hx)]; [left|right; eauto].
      exists t. split; [apply Ht; exact Ha|exact Hx].
Qed.

(** The whole layout appears if nothing is in the way and no system call fails, and nothing else changes. *)
Theorem C84_created : forall umask layout answer s r s', layout ∈ layouts -> o_faults s = [] -> free s layout ->
  (empty_dir s \/ exists t, answer = Some t /\ t ∈ yes) ->
  init_deploy_structure umask layout answer s = (r, s') ->
  r = Err (SystemExit 0) /\ confined s s' layout /\
  (forall rel, rel ∈ dirs_of layout -> is_dir (o_fs s' !! below (o_cwd s) rel)) /\
  (forall rel, rel ∈ files_of layout -> exists t, text_of layout rel = Some t /\ has_text (o_fs s' !! below (o_cwd s) rel) t).
Proof.
  intros umask layout answer s r s' Hlay H0 Hfree Hyes H. destruct (init_inv _ _ _ _ _ _ Hlay H) as (l & s1 & El & Hu & HF & C).
  destruct (table layout Hlay) as (l' & El' & Ho & _). rewrite El in El'. injection El' as <-.
  destruct C as [(_ & n & _ & F)|[(Hn & -> & _ & _)|[(Hn & (t & -> & Ht) & _ & _)|(_ & C)]]].
  - contradiction.
  - exfalso. destruct Hyes as [?|(t & ? & _)]; [contradiction|discriminate].
  - exfalso. destruct Hyes as [?|(u & E & Hy)]; [contradiction|]. injection E as <-. contradiction.
  - assert (Hrun : exists s2, acts umask l s1 = (Ok tt, s2)).
    { apply (acts_ok umask l []); [apply HF; exact H0|exact Ho|intros rel Hr; apply elem_of_nil in Hr as []|].
      intros a Ha. rewrite (unaffected_fs _ _ Hu), (unaffected_cwd _ _ Hu). eapply free_all; eassumption. }
    destruct Hrun as (s2 & E2). destruct C as [[E ->]|[e [E _]]]; [|congruence].
    destruct (ran umask layout l s s1 _ s' Hlay El (free_unlinked _ _ Hfree) Hu E) as [Hc Hok]. destruct (Hok eq_refl) as [Hd Hf].
    split_and!; [reflexivity|exact Hc|exact Hd|]. intros rel Hrel. destruct (Hf rel Hrel) as [?|(n & k & En & K)]; [assumption|]. exfalso.
    destruct (proj2 Hfree rel Hrel) as [E3|(b & m & E3 & K3)]; congruence.
Qed.
Print Assumptions C84_created.

(** In an empty directory nothing is in the way, and nobody is asked. *)
Lemma empty_free s layout : layout ∈ layouts -> empty_dir s -> rooted (o_fs s) -> free s layout.
Proof.
  intros Hlay He Hr. assert (H : forall rel, rel <> [] -> o_fs s !! below (o_cwd s) rel = None).
  { intros [|c rel] Hne; [congruence|]. rewrite below_cons. unfold below. apply rooted_below; [exact Hr|apply He]. }
  assert (Hn : forallb (fun lay => forallb (fun rel => negb (bool_decide (rel = []))) (dirs_of lay ++ files_of lay)) layouts = true) by (vm_compute; reflexivity).
  rewrite forallb_forall in Hn. apply elem_of_list_In in Hlay. specialize (Hn _ Hlay). rewrite forallb_forall in Hn.
  split; intros rel Hrel; left; apply H; (assert (Hx : In rel (dirs_of layout ++ files_of layout)) by (apply elem_of_list_In, elem_of_app; auto));
    specialize (Hn _ Hx); rewrite negb_true_iff, bool_decide_eq_false in Hn; exact Hn.
Qed.
Theorem C84_empty : forall umask layout answer s r s', layout ∈ layouts -> o_faults s = [] -> rooted (o_fs s) -> empty_dir s ->
  init_deploy_structure umask layout answer s = (r, s') ->
  r = Err (SystemExit 0) /\ only_files s s' /\
  (forall rel, rel ∈ dirs_of layout -> is_dir (o_fs s' !! below (o_cwd s) rel)) /\
  (forall rel, rel ∈ files_of layout -> exists t, text_of layout rel = Some t /\ has_text (o_fs s' !! below (o_cwd s) rel) t) /\
  (forall pl, is_Some (o_fs s' !! pl) -> is_Some (o_fs s !! pl) \/ exists rel, rel ∈ dirs_of layout ++ files_of layout /\ pl = below (o_cwd s) rel) /\
  (forall pl n, o_fs s !! pl = Some n -> o_fs s' !! pl = Some n).
Proof.
  intros umask layout answer s r s' Hlay H0 Hr He H. pose proof (empty_free s layout Hlay He Hr) as Hfree.
  destruct (C84_created umask layout answer s r s' Hlay H0 Hfree (or_introl He) H) as (-> & (Ho & Hout & Hcd & Hcf) & Hd & Hf).
  assert (Hnone : forall rel, rel ∈ dirs_of layout ++ files_of layout -> o_fs s !! below (o_cwd s) rel = None).
  { intros rel Hrel. assert (Hn : rel <> []).
    { intros ->. assert (Hn : forallb (fun lay => negb (bool_decide ([] ∈ dirs_of lay ++ files_of lay))) layouts = true) by (vm_compute; reflexivity).
      rewrite forallb_forall in Hn. apply elem_of_list_In in Hlay. specialize (Hn _ Hlay). rewrite negb_true_iff, bool_decide_eq_false in Hn. contradiction. }
    destruct rel as [|c rel]; [congruence|]. rewrite below_cons. unfold below. apply rooted_below; [exact Hr|apply He]. }
  assert (Hcase : forall pl, (exists rel, rel ∈ dirs_of layout ++ files_of layout /\ pl = below (o_cwd s) rel) \/ o_fs s' !! pl = o_fs s !! pl).
  { intros pl. destruct (decide (Exists (fun rel => pl = below (o_cwd s) rel) (dirs_of layout ++ files_of layout))) as [Hx|Hx].
    - left. apply Exists_exists in Hx. exact Hx.
    - right. apply Hout. intros rel Hrel E. apply Hx, Exists_exists. eauto. }
  split_and!; [reflexivity|exact Ho|exact Hd|exact Hf| |].
  - intros pl Hs. destruct (Hcase pl) as [Hx|Hx]; [right; exact Hx|left; rewrite <- Hx; exact Hs].
  - intros pl n E. destruct (Hcase pl) as [(rel & Hrel & ->)|Hx]; [rewrite Hnone in E by exact Hrel; discriminate|rewrite Hx; exact E].
Qed.
Print Assumptions C84_empty.

(** Exit status 0 means that everything is there, whatever fails on the way and whatever was there before. *)
Theorem C84_success : forall umask layout answer s s', layout ∈ layouts -> unlinked s layout ->
  init_deploy_structure umask layout answer s = (Err (SystemExit 0), s') ->
  (forall rel, rel ∈ dirs_of layout -> is_dir (o_fs s' !! below (o_cwd s) rel)) /\
  (forall rel, rel ∈ files_of layout -> (exists t, text_of layout rel = Some t /\ has_text (o_fs s' !! below (o_cwd s) rel) t) \/
     (exists n k, o_fs s !! below (o_cwd s) rel = Some n /\ n_kind n = KOther k)).
Proof.
  intros umask layout answer s s' Hlay Hl H. destruct (init_inv _ _ _ _ _ _ Hlay H) as (l & s1 & El & Hu & HF & C).
  destruct C as [(_ & n & E & _)|[(_ & _ & E & _)|[(_ & _ & E & _)|(_ & C)]]]; [discriminate E|discriminate E|discriminate E|].
  destruct C as [[E _]|(e & E & Ee)].
  - destruct (ran umask layout l s s1 _ s' Hlay El Hl Hu E) as [_ Hok]. exact (Hok eq_refl).
  - injection Ee as <-. exfalso. eapply acts_no_exit; exact E.
Qed.
Print Assumptions C84_success.

(** Full statement, false: only the current directory is changed, at the paths of the layout.
    [forall umask layout answer s r s', layout ∈ layouts -> init_deploy_structure umask layout answer s = (r, s') -> confined s s' layout]
    Missing: symbolic links among these paths, which are followed. *)
Theorem C84_confined_partial : forall umask layout answer s r s', layout ∈ layouts -> unlinked s layout ->
  init_deploy_structure umask layout answer s = (r, s') -> confined s s' layout.
Proof.
  intros umask layout answer s r s' Hlay Hl H. destruct (init_inv _ _ _ _ _ _ Hlay H) as (l & s1 & El & Hu & HF & C).
  destruct C as [(Hu' & _)|[(_ & _ & _ & ->)|[(_ & _ & _ & ->)|(_ & C)]]]; try (apply unaffected_confined; assumption).
  destruct C as [[E _]|(e & E & _)]; exact (proj1 (ran umask layout l s s1 _ s' Hlay El Hl Hu E)).
Qed.
Print Assumptions C84_confined_partial.

(** A link among the paths leads out of the directory: [deploy.py -> /etc/passwd] overwrites /etc/passwd. *)
Definition file_node (b : bytes) : node := Node (KFile b) 420 0 0 0 0.
Definition dir_node : node := Node KDir 493 0 0 0 0.
Definition link_node (t : pystr) : node := Node (KLink t) 511 0 0 0 0.
Definition system_with (fs : fsys) : os := OS [] [] [] [] fs 0 0 [] [lit "work"] 0 [].
Definition linked_fs : fsys := list_to_map [
  ([], dir_node); ([lit "work"], dir_node); ([lit "etc"], dir_node); ([lit "passwd"; lit "etc"], file_node (blit "root:x:0:0"));
  ([lit "deploy.py"; lit "work"], link_node (lit "/etc/passwd"))].
Definition linked : os := system_with linked_fs.
Definition housed (fs : fsys) (pl : place) : bool := match pl with [] => true | _ :: q => bool_decide (is_Some (fs !! q)) end.
Lemma housed_rooted fs : forallb (fun e => housed fs (fst e)) (map_to_list fs) = true -> rooted fs.
Proof.
  intros H x pl [n Hn]. rewrite forallb_forall in H. apply elem_of_map_to_list in Hn. apply elem_of_list_In in Hn. apply H in Hn. cbn in Hn.
  apply bool_decide_eq_true in Hn. exact Hn.
Qed.
Definition bytes_at (s : os) (pl : place) (b : bytes) : bool :=
  match o_fs s !! pl with Some n => match n_kind n with KFile c => bool_decide (c = b) | _ => false end | None => false end.
Lemma bytes_at_spec s pl b : bytes_at s pl b = true -> has_bytes (o_fs s !! pl) b.
Proof. unfold bytes_at. destruct (o_fs s !! pl) as [n|]; [|discriminate]. destruct (n_kind n) eqn:K; try discriminate. intros H%bool_decide_eq_true. subst. exists n. auto. Qed.
Theorem C84_confined_refuted : exists umask layout answer s s', layout ∈ layouts /\ o_faults s = [] /\ rooted (o_fs s) /\
  init_deploy_structure umask layout answer s = (Err (SystemExit 0), s') /\ ~ confined s s' layout /\
  exists pl b b', (forall rel, pl <> below (o_cwd s) rel) /\ has_bytes (o_fs s !! pl) b /\ has_bytes (o_fs s' !! pl) b' /\ b' <> b.
Proof.
  exists 18%N, (lit "dotfiles"), (Some (lit "y")), linked, (init_deploy_structure 18 (lit "dotfiles") (Some (lit "y")) linked).2.
  set (s' := (init_deploy_structure 18 (lit "dotfiles") (Some (lit "y")) linked).2).
  set (b' := match text_of (lit "dotfiles") [lit "deploy.py"] with Some t => match utf8_encode t with Some b => b | None => [] end | None => [] end).
  assert (Hout : forall rel, [lit "passwd"; lit "etc"] <> below (o_cwd linked) rel).
  { intros rel H. assert (E : last (below [lit "work"] rel) = Some (lit "work")) by (unfold below; apply last_snoc).
    change (o_cwd linked) with [lit "work"] in H. rewrite <- H in E. vm_compute in E. discriminate E. }
  assert (H1 : has_bytes (o_fs linked !! [lit "passwd"; lit "etc"]) (blit "root:x:0:0")) by (apply bytes_at_spec; vm_compute; reflexivity).
  assert (H2 : has_bytes (o_fs s' !! [lit "passwd"; lit "etc"]) b') by (apply bytes_at_spec; vm_compute; reflexivity).
  assert (H3 : b' <> blit "root:x:0:0").
  { assert (D : bool_decide (b' = blit "root:x:0:0") = false) by (vm_compute; reflexivity). apply bool_decide_eq_false in D. exact D. }
  split; [assert (D : bool_decide (lit "dotfiles" ∈ layouts) = true) by (vm_compute; reflexivity); apply bool_decide_eq_true in D; exact D|].
  split; [reflexivity|]. split; [apply housed_rooted; vm_compute; reflexivity|].
  split. { assert (E : (init_deploy_structure 18 (lit "dotfiles") (Some (lit "y")) linked).1 = Err (SystemExit 0)) by (vm_compute; reflexivity).
    subst s'. destruct (init_deploy_structure _ _ _ _) as [r s2]. cbn in *. subst r. reflexivity. }
  split.
  - intros (_ & Hc & _). specialize (Hc [lit "passwd"; lit "etc"]). rewrite Hc in H2 by (intros rel _; apply Hout).
    destruct H1 as (n1 & E1 & K1), H2 as (n2 & E2 & K2). rewrite E1 in E2. injection E2 as <-. rewrite K1 in K2.
    apply H3. symmetry. exact (f_equal (fun k => match k with KFile b => b | _ => [] end) K2).
  - exists [lit "passwd"; lit "etc"], (blit "root:x:0:0"), b'. auto.
Qed.
Print Assumptions C84_confined_refuted.

(** A second run leaves the files as they are, apart from their times. *)
Theorem C84_again : forall umask layout answer answer2 s r s' r2 s'', layout ∈ layouts -> o_faults s = [] -> free s layout ->
  (empty_dir s \/ exists t, answer = Some t /\ t ∈ yes) -> (exists t, answer2 = Some t /\ t ∈ yes) ->
  init_deploy_structure umask layout answer s = (r, s') -> o_faults s' = [] ->
  init_deploy_structure umask layout answer2 s' = (r2, s'') ->
  r2 = Err (SystemExit 0) /\ forall pl, n_kind <$> o_fs s'' !! pl = n_kind <$> o_fs s' !! pl.
Proof.
  intros umask layout answer answer2 s r s' r2 s'' Hlay H0 Hfree Hyes Hyes2 H F1 H2.
  destruct (C84_created _ _ _ _ _ _ Hlay H0 Hfree Hyes H) as (-> & (Ho & _) & Hd & Hf).
  assert (Ec : o_cwd s' = o_cwd s) by (rewrite Ho; reflexivity).
  assert (Hfree2 : free s' layout).
  { split; intros rel Hrel; rewrite Ec; right; [apply Hd; exact Hrel|]. destruct (Hf rel Hrel) as (t & _ & b & _ & Hb). exists b. exact Hb. }
  destruct (C84_created _ _ _ _ _ _ Hlay F1 Hfree2 (or_intror Hyes2) H2) as (-> & (Ho2 & Hout2 & _) & Hd2 & Hf2). split; [reflexivity|].
  intros pl. rewrite Ec in *.
  destruct (decide (Exists (fun rel => pl = below (o_cwd s) rel) (dirs_of layout ++ files_of layout))) as [Hx|Hx].
  - apply Exists_exists in Hx as (rel & Hrel & ->). apply elem_of_app in Hrel as [Hrel|Hrel].
    + destruct (Hd rel Hrel) as (n1 & E1 & K1), (Hd2 rel Hrel) as (n2 & E2 & K2). rewrite E1, E2. cbn. congruence.
    + destruct (Hf rel Hrel) as (t1 & T1 & b1 & B1 & n1 & E1 & K1), (Hf2 rel Hrel) as (t2 & T2 & b2 & B2 & n2 & E2 & K2). rewrite E1, E2. cbn. congruence.
  - rewrite Hout2; [reflexivity|]. intros rel Hrel E. apply Hx, Exists_exists. eauto.
Qed.
Print Assumptions C84_again.

(** ** The example scripts *)
Definition idc (c : N) : bool := ((97 <=? c) && (c <=? 122) || (c =? 95))%N.
Fixpoint word (t : pystr) : pystr * pystr :=
  match t with [] => ([], []) | c :: r => if idc c then let '(w, q) := word r in (c :: w, q) else ([], t) end.
Definition offered_at (t : pystr) : bool :=
  forallb (fun o : pystr * list pystr =>
    if startswith t (o.1 ++ lit ".") then
      match word (drop (length (o.1 ++ lit ".")) t) with
      | (w, c :: _) => if (c =? 40)%N then bool_decide (w ∈ o.2) else true
      | _ => true
      end
    else true) offers.
Fixpoint offered (t : pystr) : bool := offered_at t && match t with [] => true | _ :: r => offered r end.
Lemma word_ident f b : ident f -> word (f ++ lit "(" ++ b) = (f, lit "(" ++ b).
Proof.
  induction f as [|c f IH]; intros H; [reflexivity|]. apply Forall_cons in H as [Hc H]. cbn [app word].
  assert (E : idc c = true) by (unfold idc; destruct Hc as [Hc| ->]; [|reflexivity]; apply orb_true_iff; left; lia).
  rewrite E, (IH H). reflexivity.
Qed.
Lemma offered_app a t : offered (a ++ t) = true -> offered t = true.
Proof. induction a as [|c a IH]; [auto|]. cbn [app offered]. intros H. apply andb_true_iff in H as [_ H]. exact (IH H). Qed.
Lemma offered_sound t m f fs : offered t = true -> (m, fs) ∈ offers -> ident f -> calls t m f -> f ∈ fs.
Proof.
  intros H Hm Hf (a & b & ->). apply offered_app in H.
  assert (H1 : offered_at (m ++ lit "." ++ f ++ lit "(" ++ b) = true) by (destruct (m ++ _); apply andb_true_iff in H as [H _]; exact H).
  unfold offered_at in H1. rewrite forallb_forall in H1. apply elem_of_list_In in Hm. specialize (H1 _ Hm). cbn [fst snd] in H1.
  rewrite app_assoc in H1.
  assert (Es : startswith ((m ++ lit ".") ++ f ++ lit "(" ++ b) (m ++ lit ".") = true).
  { clear. generalize (m ++ lit "."). intros l. induction l as [|c l IH]; [destruct (_ ++ _); reflexivity|]. cbn. rewrite N.eqb_refl. exact IH. }
  rewrite Es, drop_app, word_ident in H1 by exact Hf. change (lit "(" ++ b) with (40%N :: b) in H1. cbn [N.eqb Pos.eqb] in H1.
  apply bool_decide_eq_true in H1. exact H1.
Qed.
(** Full statement, false: the scripts of all layouts only call functions that exist.
    [forall layout, layout ∈ layouts -> usable layout]
    Missing: the layouts dotfiles, modular and staging_prod. *)
Theorem C84_usable_partial : usable (lit "minimal") /\ usable (lit "flat").
Proof.
  assert (Hall : forall layout, forallb (fun rel => match text_of layout rel with Some t => offered t | None => true end) (files_of layout) = true -> usable layout).
  { intros layout H rel t m f fs Hrel Ht Hm Hf Hc. rewrite forallb_forall in H. apply elem_of_list_In in Hrel. specialize (H _ Hrel). rewrite Ht in H.
    eapply offered_sound; eassumption. }
  split; apply Hall; vm_compute; reflexivity.
Qed.
Print Assumptions C84_usable_partial.

Definition cut (k : nat) (w t : pystr) : bool := bool_decide (t = take k t ++ w ++ drop (k + length w) t).
Lemma unusable layout rel t m f fs k : text_of layout rel = Some t -> bool_decide (rel ∈ files_of layout) = true -> bool_decide ((m, fs) ∈ offers) = true ->
  forallb idc f = true -> cut k (m ++ lit "." ++ f ++ lit "(") t = true -> bool_decide (f ∈ fs) = false -> ~ usable layout.
Proof.
  intros Ht Hr Hm Hi Hc Hn Hu. apply bool_decide_eq_true in Hr, Hm. apply bool_decide_eq_false in Hn. apply Hn. eapply (Hu rel t m f fs); try assumption.
  - apply Forall_forall. intros c Hcin. rewrite forallb_forall in Hi. apply elem_of_list_In in Hcin. specialize (Hi _ Hcin). unfold idc in Hi. lia.
  - unfold cut in Hc. apply bool_decide_eq_true in Hc. exists (take k t), (drop (k + length (m ++ lit "." ++ f ++ lit "(")) t).
    etransitivity; [exact Hc|]. f_equal. rewrite <- !app_assoc. reflexivity.
Qed.
Definition offer (m : pystr) : list pystr := match dget m offers with Some l => l | None => [] end.
Definition dotfiles_deploy : pystr := match text_of (lit "dotfiles") [lit "deploy.py"] with Some t => t | None => [] end.
Theorem C84_usable_refuted : (exists layout, layout ∈ layouts /\ ~ usable layout) /\
  ~ usable (lit "dotfiles") /\ ~ usable (lit "modular") /\ ~ usable (lit "staging_prod").
Proof.
  assert (H1 : ~ usable (lit "dotfiles"))
    by (apply (unusable _ [lit "deploy.py"] dotfiles_deploy (lit "host") (lit "home_dir") (offer (lit "host")) 101); vm_compute; reflexivity).
  assert (H2 : ~ usable (lit "modular"))
    by (apply (unusable _ [tasks; example; lit "add_site.py"] nginx_add_site (lit "files") (lit "line_in_file") (offer (lit "files")) 200); vm_compute; reflexivity).
  assert (H3 : ~ usable (lit "staging_prod"))
    by (apply (unusable _ [tasks; example; lit "add_site.py"] nginx_add_site (lit "files") (lit "line_in_file") (offer (lit "files")) 200); vm_compute; reflexivity).
  split; [|auto]. exists (lit "modular"). split; [|exact H2].
  assert (D : bool_decide (lit "modular" ∈ layouts) = true) by (vm_compute; reflexivity). apply bool_decide_eq_true in D. exact D.
Qed.
Print Assumptions C84_usable_refuted.

(** ** Cases *)
Definition bare : os := system_with (list_to_map [([], dir_node); ([lit "work"], dir_node); ([lit "etc"], dir_node)]).
Definition busy : os := system_with (list_to_map [([], dir_node); ([lit "work"], dir_node); ([lit "hosts"; lit "work"], dir_node);
  ([lit "deploy.py"; lit "work"], file_node (blit "mine")); ([lit "notes"; lit "work"], file_node (blit "keep"))]).
Definition count (s : os) : nat := length (map_to_list (o_fs s)).
(** an empty directory: the five directories and eight files of the layout flat appear; the theorem's hypotheses hold *)
Example C84_case_empty : o_faults bare = [] /\ rooted (o_fs bare) /\ empty_dir bare /\
  (init_deploy_structure 18 (lit "flat") None bare).1 = Err (SystemExit 0) /\ count (init_deploy_structure 18 (lit "flat") None bare).2 = 3 + 5 + 8.
Proof.
  split; [reflexivity|]. split; [apply housed_rooted; vm_compute; reflexivity|]. split.
  { destruct (occupied bare) eqn:E; [vm_compute in E; discriminate E|]. intros c. destruct (o_fs bare !! (c :: o_cwd bare)) eqn:Ec; [|reflexivity]. exfalso.
    assert (~ empty_dir bare) as Hn by (intros He; rewrite He in Ec; discriminate). apply occupied_spec in Hn. congruence. }
  split; vm_compute; reflexivity.
Qed.
(** a directory in use: refused without a yes; with it deploy.py is replaced and other files are kept *)
Example C84_case_busy : occupied busy = true /\
  (init_deploy_structure 18 (lit "minimal") (Some (lit "n")) busy).1 = Err (SystemExit 1) /\
  (init_deploy_structure 18 (lit "minimal") (Some (lit "Yes")) busy).1 = Err (SystemExit 0) /\
  bytes_at (init_deploy_structure 18 (lit "minimal") (Some (lit "Yes")) busy).2 [lit "notes"; lit "work"] (blit "keep") = true /\
  bytes_at (init_deploy_structure 18 (lit "minimal") (Some (lit "Yes")) busy).2 [lit "deploy.py"; lit "work"] (blit "mine") = false.
Proof. split_and!; vm_compute; reflexivity. Qed.
(** a write that fails after three bytes: the run ends with an error, other files are kept *)
Example C84_case_fault : let s := set_faults [FOk; FOk; FOk; FErr 28 3] busy in
  (init_deploy_structure 18 (lit "minimal") (Some (lit "y")) s).1 <> Err (SystemExit 0) /\
  bytes_at (init_deploy_structure 18 (lit "minimal") (Some (lit "y")) s).2 [lit "notes"; lit "work"] (blit "keep") = true.
Proof. split; [vm_compute; discriminate|vm_compute; reflexivity]. Qed.
