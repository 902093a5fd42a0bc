(** What upload_dir plans for a local tree, and where the paths of the plan lead. *)
From Coq Require Import Lia ZifyBool ZifyN ZifyNat.
From stdpp Require Import gmap.
From Verif Require Import Base Utf8 Codec Spec_Codec Paths Sys Spec_Sys Sys_proofs Dispatcher Client Spec_Remote Control Spec_Control Op Files Walk_proofs Spec_Files Steps Spec_Tree.
Local Open Scope nat_scope.

(** ** Trees *)
Section induction.
  Variable P : ltree -> Prop.
  Hypothesis H1 : forall b, P (LFile b).
  Hypothesis H2 : forall es, Forall (fun e => P (snd e)) es -> P (LDir es).
  Hypothesis H3 : forall b, P (LLinkFile b).
  Hypothesis H4 : P LLinkDir.
  Hypothesis H5 : P LSpecial.
  Fixpoint ltree_ind' (t : ltree) : P t :=
    match t with
    | LFile b => H1 b
    | LDir es => H2 es ((fix go (es : list (pystr * ltree)) : Forall (fun e => P (snd e)) es :=
        match es with [] => Forall_nil_2 _ | e :: r => Forall_cons_2 _ _ _ (ltree_ind' (snd e)) (go r) end) es)
    | LLinkFile b => H3 b
    | LLinkDir => H4
    | LSpecial => H5
    end.
End induction.
Lemma l_isdir_like sub : l_isdir sub = true <-> dir_like sub.
Proof. split; [destruct sub; try discriminate; intros _; [left; eexists; reflexivity|right; reflexivity]|intros [[es ->]| ->]; reflexivity]. Qed.
Lemma l_content_like sub b : l_content sub = Some b <-> file_like sub b.
Proof. split; [destruct sub; try discriminate; intros [= ->]; [left|right]; reflexivity|intros [-> | ->]; reflexivity]. Qed.
Lemma tree_ok_in es n t : tree_ok (LDir es) -> (n, t) ∈ es -> tree_ok t.
Proof. intros H Hn rel es' Hi. apply (H (n :: rel)). econstructor; eassumption. Qed.
Lemma inside_app t rel sub : inside t rel sub -> forall rel' sub', inside sub rel' sub' -> inside t (rel ++ rel') sub'.
Proof. induction 1 as [t|es n t rel sub Hn Hi IH]; intros rel' sub' H; [exact H|]. econstructor; [exact Hn|]. apply IH. exact H. Qed.
Lemma inside_split t rel : forall rel' sub, inside t (rel ++ rel') sub -> exists mid, inside t rel mid /\ inside mid rel' sub.
Proof.
  revert t. induction rel as [|x rel IH]; intros t rel' sub H; [exists t; split; [constructor|exact H]|].
  cbn in H. inversion H as [|es n t' rel0 sub0 Hn Hi]; subst. destruct (IH _ _ _ Hi) as (mid & M1 & M2). exists mid. split; [econstructor; eassumption|exact M2].
Qed.
Lemma inside_names t rel sub : tree_ok t -> inside t rel sub -> Forall file_name rel.
Proof.
  intros Ht H. induction H as [t|es n t rel sub Hn Hi IH]; [constructor|]. constructor.
  - destruct (Ht [] es (inside_here _)) as [_ H]. eapply H. exact Hn.
  - apply IH. eapply tree_ok_in; eassumption.
Qed.
Lemma same_entry (es : list (pystr * ltree)) a b : NoDup es.*1 -> a ∈ es -> b ∈ es -> fst a = fst b -> a = b.
Proof.
  induction es as [|[x y] es IH]; intros Hnd Ha Hb E; [inversion Ha|]. cbn in Hnd. apply NoDup_cons in Hnd as [H1 H2].
  assert (Hno : forall c, c ∈ es -> fst c <> x) by (intros c Hc <-; destruct H1; apply elem_of_list_fmap; eauto).
  apply elem_of_cons in Ha as [-> |Ha]; apply elem_of_cons in Hb as [-> |Hb]; auto; [destruct (Hno b Hb); auto|destruct (Hno a Ha); auto].
Qed.
Lemma inside_unique t rel sub : tree_ok t -> inside t rel sub -> forall sub', inside t rel sub' -> sub' = sub.
Proof.
  intros Ht H. induction H as [t|es n t rel sub Hn Hi IH]; intros sub' H'; inversion H' as [|es' n' t' rel' sub0 Hn' Hi']; subst; [reflexivity|].
  destruct (Ht [] es (inside_here _)) as [Hnd _]. apply IH; [eapply tree_ok_in; eassumption|].
  assert (E := same_entry es (n, t') (n, t) Hnd Hn' Hn eq_refl). injection E as ->. exact Hi'.
Qed.
Lemma inside_parent t rel x sub : inside t (rel ++ [x]) sub -> exists es, inside t rel (LDir es) /\ (x, sub) ∈ es.
Proof.
  intros H. apply inside_split in H as (mid & M1 & M2). inversion M2 as [|es n t' rel0 sub0 Hn Hi]; subst. inversion Hi; subst. eauto.
Qed.

(** ** The plan as lists of names *)
Fixpoint rdirs (pre : list pystr) (t : ltree) {struct t} : list (list pystr) :=
  match t with
  | LDir es => List.map (fun n => pre ++ [n]) (dir_entries es) ++ List.concat (List.map (fun e => rdirs (pre ++ [fst e]) (snd e)) es)
  | _ => []
  end.
Fixpoint rfiles (pre : list pystr) (t : ltree) {struct t} : list (list pystr * option bytes) :=
  match t with
  | LDir es => List.map (fun e => (pre ++ [fst e], l_content (snd e))) (file_entries es) ++ List.concat (List.map (fun e => rfiles (pre ++ [fst e]) (snd e)) es)
  | _ => []
  end.
Lemma rdirs_in t : forall pre rel, rel ∈ rdirs pre t <-> exists r sub, rel = pre ++ r /\ r <> [] /\ inside t r sub /\ l_isdir sub = true.
Proof.
  induction t as [b|es IH|b| |] using ltree_ind'; intros pre rel;
    try (split; [intros H; inversion H|intros (r & sub & _ & Hr & Hi & _); inversion Hi; subst; contradiction]).
  cbn [rdirs]. rewrite elem_of_app, !elem_of_list_In, in_map_iff, in_concat. setoid_rewrite <- elem_of_list_In. split.
  - intros [(n & <- & Hn)|(l & Hl & Hrel)].
    + unfold dir_entries in Hn. apply elem_of_list_fmap in Hn as ([k v] & -> & Hn). apply elem_of_list_In, filter_In in Hn as [Hn Hd]. apply elem_of_list_In in Hn.
      exists [k], v. split; [reflexivity|]. split; [discriminate|]. split; [econstructor; [exact Hn|constructor]|exact Hd].
    + apply elem_of_list_In, in_map_iff in Hl as ([k v] & <- & Hk). apply elem_of_list_In in Hk. rewrite Forall_forall in IH. cbn [fst snd] in Hrel.
      apply (IH (k, v) Hk) in Hrel as (r & sub & -> & Hr & Hi & Hd). exists (k :: r), sub. rewrite <- app_assoc. split; [reflexivity|]. split; [discriminate|]. split; [econstructor; eassumption|exact Hd].
  - intros (r & sub & -> & Hr & Hi & Hd). inversion Hi as [|es' n t' r' sub' Hn Hi']; subst; [contradiction|]. destruct r' as [|y r'].
    + left. inversion Hi'; subst. exists n. split; [reflexivity|]. unfold dir_entries. apply elem_of_list_fmap. exists (n, sub). split; [reflexivity|]. apply elem_of_list_In, filter_In. rewrite <- elem_of_list_In. auto.
    + right. exists (rdirs (pre ++ [n]) t'). split.
      * apply elem_of_list_In, in_map_iff. exists (n, t'). split; [reflexivity|]. apply elem_of_list_In. exact Hn.
      * rewrite Forall_forall in IH. apply (IH (n, t') Hn). exists (y :: r'), sub. rewrite <- app_assoc. split; [reflexivity|]. split; [discriminate|]. auto.
Qed.
Lemma rfiles_in t : forall pre rel o, (rel, o) ∈ rfiles pre t <-> exists r sub, rel = pre ++ r /\ r <> [] /\ inside t r sub /\ l_isdir sub = false /\ o = l_content sub.
Proof.
  induction t as [b|es IH|b| |] using ltree_ind'; intros pre rel o;
    try (split; [intros H; inversion H|intros (r & sub & _ & Hr & Hi & _); inversion Hi; subst; contradiction]).
  cbn [rfiles]. rewrite elem_of_app, !elem_of_list_In, in_map_iff, in_concat. setoid_rewrite <- elem_of_list_In. split.
  - intros [([k v] & [= <- <-] & Hn)|(l & Hl & Hrel)].
    + unfold file_entries in Hn. apply elem_of_list_In, filter_In in Hn as [Hn Hd]. apply elem_of_list_In in Hn. cbn [fst snd] in *. apply negb_true_iff in Hd.
      exists [k], v. split; [reflexivity|]. split; [discriminate|]. split; [econstructor; [exact Hn|constructor]|auto].
    + apply elem_of_list_In, in_map_iff in Hl as ([k v] & <- & Hk). apply elem_of_list_In in Hk. rewrite Forall_forall in IH. cbn [fst snd] in Hrel.
      apply (IH (k, v) Hk) in Hrel as (r & sub & -> & Hr & Hi & Hd). exists (k :: r), sub. rewrite <- app_assoc. split; [reflexivity|]. split; [discriminate|]. split; [econstructor; eassumption|exact Hd].
  - intros (r & sub & -> & Hr & Hi & Hd & ->). inversion Hi as [|es' n t' r' sub' Hn Hi']; subst; [contradiction|]. destruct r' as [|y r'].
    + left. inversion Hi'; subst. exists (n, sub). split; [reflexivity|]. unfold file_entries. apply elem_of_list_In, filter_In. rewrite <- elem_of_list_In. cbn [snd]. rewrite Hd. auto.
    + right. exists (rfiles (pre ++ [n]) t'). split.
      * apply elem_of_list_In, in_map_iff. exists (n, t'). split; [reflexivity|]. apply elem_of_list_In. exact Hn.
      * rewrite Forall_forall in IH. apply (IH (n, t') Hn). exists (y :: r'), sub. rewrite <- app_assoc. split; [reflexivity|]. split; [discriminate|]. auto.
Qed.
Lemma NoDup_filter_fst (f : pystr * ltree -> bool) es : NoDup es.*1 -> NoDup (List.filter f es).*1.
Proof.
  induction es as [|[k v] es IH]; intros H; [constructor|]. cbn in H. apply NoDup_cons in H as [H1 H2]. cbn [List.filter]. destruct (f (k, v)); [|auto].
  cbn. apply NoDup_cons. split; [|auto]. intros Hk. apply H1. apply elem_of_list_fmap in Hk as ([k' v'] & -> & Hk). apply elem_of_list_In, filter_In in Hk as [Hk _].
  apply elem_of_list_fmap. exists (k', v'). split; [reflexivity|]. apply elem_of_list_In. exact Hk.
Qed.
Lemma NoDup_concat_map {A B} (g : A -> list B) (l : list A) : (forall x, x ∈ l -> NoDup (g x)) -> NoDup l ->
  (forall x y z, x ∈ l -> y ∈ l -> z ∈ g x -> z ∈ g y -> x = y) -> NoDup (List.concat (List.map g l)).
Proof.
  induction l as [|x l IH]; intros H1 H2 H3; [constructor|]. cbn. apply NoDup_cons in H2 as [H2 H2']. apply NoDup_app. split; [apply H1; left|]. split.
  - intros z Hz Hz'. apply elem_of_list_In, in_concat in Hz' as (k & Hk & Hz'). apply in_map_iff in Hk as (y & <- & Hy). apply elem_of_list_In in Hy, Hz'.
    assert (x = y) as -> by (eapply H3; [left|right; exact Hy|exact Hz|exact Hz']). contradiction.
  - apply IH; [intros y Hy; apply H1; right; exact Hy|exact H2'|]. intros y y' z Hy Hy'. apply H3; right; assumption.
Qed.
Lemma NoDup_pairs {A B} (es : list (A * B)) : NoDup es.*1 -> NoDup es.
Proof. intros H. apply NoDup_fmap_1 in H. exact H. Qed.
Lemma snoc_inj {A} (p : list A) x y : p ++ [x] = p ++ [y] -> x = y.
Proof. intros H. apply app_inv_head in H. congruence. Qed.
Lemma rdirs_nodup t : tree_ok t -> forall pre, NoDup (rdirs pre t).
Proof.
  induction t as [b|es IH|b| |] using ltree_ind'; intros Ht pre; try constructor. cbn [rdirs]. rewrite Forall_forall in IH.
  destruct (Ht [] es (inside_here _)) as [Hnd _]. apply NoDup_app. split; [|split].
  - apply (NoDup_fmap_2 (fun n => pre ++ [n])). unfold dir_entries. apply NoDup_filter_fst. exact Hnd.
  - intros z Hz Hz'. apply elem_of_list_In, in_map_iff in Hz as (n & <- & _). apply elem_of_list_In, in_concat in Hz' as (k & Hk & Hz'). apply in_map_iff in Hk as (e & <- & He).
    apply elem_of_list_In in Hz'. apply rdirs_in in Hz' as (r & sub & E & Hr & _). rewrite <- app_assoc in E. apply app_inv_head in E. cbn in E. injection E as _ E. destruct r; [contradiction|discriminate].
  - apply NoDup_concat_map.
    + intros e He. apply IH; [exact He|]. destruct e as [k v]. eapply tree_ok_in; eassumption.
    + apply NoDup_pairs. exact Hnd.
    + intros a b z Ha Hb H1 H2. apply rdirs_in in H1 as (r1 & s1 & E1 & _). apply rdirs_in in H2 as (r2 & s2 & E2 & _). subst z. rewrite <- !app_assoc in E2. apply app_inv_head in E2. cbn in E2. injection E2 as E2 _.
      eapply same_entry; eassumption.
Qed.
Lemma rfiles_nodup t : tree_ok t -> forall pre, NoDup (rfiles pre t).*1.
Proof.
  induction t as [b|es IH|b| |] using ltree_ind'; intros Ht pre; try constructor. cbn [rfiles]. rewrite Forall_forall in IH.
  destruct (Ht [] es (inside_here _)) as [Hnd _]. rewrite fmap_app. apply NoDup_app. split; [|split].
  - assert (H : (List.map (fun e : pystr * ltree => (pre ++ [fst e], l_content (snd e))) (file_entries es)).*1 = (fun n => pre ++ [n]) <$> (file_entries es).*1).
    { unfold file_entries. generalize (List.filter (fun e : pystr * ltree => negb (l_isdir (snd e))) es). intros l. induction l as [|e l IHl]; [reflexivity|]. cbn. f_equal. exact IHl. }
    rewrite H. apply (NoDup_fmap_2 (fun n => pre ++ [n])). unfold file_entries. apply NoDup_filter_fst. exact Hnd.
  - intros z Hz Hz'. apply elem_of_list_fmap in Hz as ([z1 o1] & -> & Hz). apply elem_of_list_In, in_map_iff in Hz as (n & [= <- <-] & _).
    apply elem_of_list_fmap in Hz' as ([z2 o2] & Ez & Hz'). apply elem_of_list_In, in_concat in Hz' as (k & Hk & Hz'). apply in_map_iff in Hk as (e & <- & He).
    apply elem_of_list_In in Hz'. apply rfiles_in in Hz' as (r & sub & E & Hr & _). cbn in Ez. subst z2. rewrite <- app_assoc in E. apply app_inv_head in E. cbn in E. injection E as _ E. destruct r; [contradiction|discriminate].
  - assert (H : (List.concat (List.map (fun e : pystr * ltree => rfiles (pre ++ [fst e]) (snd e)) es)).*1 = List.concat (List.map (fun e : pystr * ltree => (rfiles (pre ++ [fst e]) (snd e)).*1) es)).
    { clear. induction es as [|e es IHe]; [reflexivity|]. cbn. rewrite fmap_app. f_equal. exact IHe. }
    rewrite H. apply NoDup_concat_map.
    + intros e He. apply IH; [exact He|]. destruct e as [k v]. eapply tree_ok_in; eassumption.
    + apply NoDup_pairs. exact Hnd.
    + intros a b z Ha Hb H1 H2. apply elem_of_list_fmap in H1 as ([z1 o1] & -> & H1). apply elem_of_list_fmap in H2 as ([z2 o2] & Ez & H2). cbn in Ez. subst z2.
      apply rfiles_in in H1 as (r1 & s1 & E1 & _). apply rfiles_in in H2 as (r2 & s2 & E2 & _). subst z1. rewrite <- !app_assoc in E2. apply app_inv_head in E2. cbn in E2. injection E2 as E2 _.
      eapply same_entry; eassumption.
Qed.
(** a directory comes after its parent *)
Definition ordered (pre : list pystr) (l : list (list pystr)) : Prop := forall l1 rel x l2, l = l1 ++ (rel ++ [x]) :: l2 -> rel = pre \/ rel ∈ l1.
Lemma rdirs_ordered t : forall pre, ordered pre (rdirs pre t).
Proof.
  induction t as [b|es IH|b| |] using ltree_ind'; intros pre; try (intros l1 rel x l2 E; destruct l1; discriminate E). rewrite Forall_forall in IH. cbn [rdirs].
  assert (Hsub : forall ks D, (forall e, e ∈ ks -> forall pre, ordered pre (rdirs pre (snd e))) ->
    (forall e, e ∈ ks -> rdirs (pre ++ [fst e]) (snd e) <> [] -> pre ++ [fst e] ∈ D) ->
    forall l1 rel x l2, List.concat (List.map (fun e => rdirs (pre ++ [fst e]) (snd e)) ks) = l1 ++ (rel ++ [x]) :: l2 -> rel ∈ D ++ l1).
  { intros ks. induction ks as [|e ks IHk]; intros D Ho HD l1 rel x l2 E; [destruct l1; discriminate E|]. cbn [List.map List.concat] in E.
    set (A := rdirs (pre ++ [fst e]) (snd e)) in *. set (B := List.concat _) in *.
    assert (Hcase : (exists m, A = l1 ++ (rel ++ [x]) :: m) \/ exists m, l1 = A ++ m /\ B = m ++ (rel ++ [x]) :: l2).
    { clear -E. clearbody A B. revert l1 E. induction A as [|a A IHA]; intros l1 E; [right; exists l1; auto|]. destruct l1 as [|y l1].
      - cbn in E. injection E as -> E. left. exists A. reflexivity.
      - cbn in E. injection E as -> E. destruct (IHA l1 E) as [[m ->]|(m & -> & ->)]; [left; exists m; reflexivity|right; exists m; auto]. }
    destruct Hcase as [[m Em]|(m & -> & Em)].
    - destruct (Ho e ltac:(left) _ _ _ _ _ Em) as [-> |Hr]; [|apply elem_of_app; right; exact Hr]. apply elem_of_app. left. apply HD; [left|]. fold A. rewrite Em. destruct l1; discriminate.
    - apply (IHk (D ++ A)) in Em; [rewrite !elem_of_app in *; tauto|intros; apply Ho; right; assumption|]. intros e' He' Hne. apply elem_of_app. left. apply HD; [right; exact He'|exact Hne]. }
  intros l1 rel x l2 E. set (D := List.map (fun n => pre ++ [n]) (dir_entries es)) in *. set (B := List.concat _) in *.
  assert (Hcase : (exists m, D = l1 ++ (rel ++ [x]) :: m) \/ exists m, l1 = D ++ m /\ B = m ++ (rel ++ [x]) :: l2).
  { clear -E. clearbody D B. revert l1 E. induction D as [|a A IHA]; intros l1 E; [right; exists l1; auto|]. destruct l1 as [|y l1].
    - cbn in E. injection E as -> E. left. exists A. reflexivity.
    - cbn in E. injection E as -> E. destruct (IHA l1 E) as [[m ->]|(m & -> & ->)]; [left; exists m; reflexivity|right; exists m; auto]. }
  destruct Hcase as [[m Em]|(m & -> & Em)].
  - left. assert (Hin : rel ++ [x] ∈ D) by (rewrite Em; apply elem_of_app; right; left). unfold D in Hin. apply elem_of_list_In, in_map_iff in Hin as (n & Hn & _). apply app_inj_tail in Hn as [-> _]. reflexivity.
  - right. apply (Hsub es D) with (x := x) (l2 := l2); [intros e He pre'; apply IH; exact He| |exact Em]. intros [k v] He Hne. unfold D. apply elem_of_list_In, in_map_iff. exists k. split; [reflexivity|]. apply elem_of_list_In.
    unfold dir_entries. apply elem_of_list_fmap. exists (k, v). split; [reflexivity|]. apply elem_of_list_In, filter_In. split; [apply elem_of_list_In; exact He|]. cbn [snd] in *. destruct v; try reflexivity; cbn in Hne; contradiction.
Qed.

(** ** Paths made of names *)
Lemma path_of_app a b : path_of (a ++ b) = path_of a ++ path_of b.
Proof. unfold path_of. rewrite List.map_app, List.concat_app. reflexivity. Qed.
Lemma path_of_snoc a x : path_of (a ++ [x]) = path_of a ++ slash :: x.
Proof. rewrite path_of_app. cbn. rewrite app_nil_r. reflexivity. Qed.
Lemma split_path ns : Forall file_name ns -> forall x, (slash ∉ x) -> split_char slash (x ++ path_of ns) = x :: ns.
Proof.
  induction 1 as [|n ns (N1 & N2 & _) H IH]; intros x Hx; [cbn; rewrite app_nil_r; apply split_no_char; exact Hx|].
  change (path_of (n :: ns)) with (slash :: n ++ path_of ns). rewrite split_char_app, (split_no_char _ _ Hx), (IH n N2). reflexivity.
Qed.
Lemma not_slash c l p : c <> slash -> startswith (c :: l) (slash :: p) = false.
Proof. intros H. unfold startswith. cbn -[N.eqb]. destruct (N.eqb_spec slash c) as [E|_]; [destruct H; symmetry; exact E|reflexivity]. Qed.
Lemma no_trailing ns : Forall file_name ns -> endswith (path_of ns) (lit "/") = false.
Proof.
  intros H. destruct ns as [|n ns _] using rev_ind; [reflexivity|]. apply Forall_app in H as [_ H]. inversion H as [|? ? (N1 & N2 & _) _]; subst.
  rewrite path_of_snoc. destruct n as [|c n _] using rev_ind; [contradiction|].
  unfold endswith. rewrite rev_app_distr. cbn [rev]. rewrite rev_app_distr. change (rev (lit "/")) with [slash]. cbn [app rev]. apply not_slash. intros ->. destruct N2. apply elem_of_app. right. left.
Qed.
Lemma path_of_isabs ns : ns <> [] -> isabs (path_of ns) = true.
Proof. destruct ns as [|n ns]; [contradiction|]. intros _. change (startswith (n ++ path_of ns) [] = true). destruct (n ++ path_of ns); reflexivity. Qed.
Lemma path_of_ne ns : ns <> [] -> path_of ns <> [].
Proof. destruct ns; [contradiction|]. discriminate. Qed.
Lemma real_names ns : Forall file_name ns -> real ns = ns.
Proof. induction 1 as [|n ns (N1 & _) H IH]; [reflexivity|]. unfold real in *. cbn. destruct n; [contradiction|]. rewrite IH. reflexivity. Qed.
Lemma comps_path ns : Forall file_name ns -> comps (path_of ns) = ns.
Proof.
  intros H. unfold comps. assert (E := split_path ns H [] (not_elem_of_nil _)). cbn [app] in E. rewrite E, no_trailing by exact H. cbn [List.filter].
  assert (R := real_names ns H). unfold real in R. rewrite R. destruct ns; reflexivity.
Qed.
Lemma path_of_inj a b : Forall file_name a -> Forall file_name b -> path_of a = path_of b -> a = b.
Proof. intros Ha Hb E. rewrite <- (comps_path a Ha), <- (comps_path b Hb), E. reflexivity. Qed.
Definition joined (rel : list pystr) : pystr := join_str (lit "/") rel.
Lemma joined_path n rel : slash :: joined (n :: rel) = path_of (n :: rel).
Proof.
  revert n. induction rel as [|m rel IH]; intros n; [cbn; rewrite app_nil_r; reflexivity|].
  change (joined (n :: m :: rel)) with (n ++ [slash] ++ joined (m :: rel)). change (path_of (n :: m :: rel)) with (slash :: n ++ path_of (m :: rel)). rewrite <- IH. reflexivity.
Qed.
Lemma not_abs n : (slash ∉ n) -> isabs n = false.
Proof.
  intros H. destruct n as [|c n]; [reflexivity|]. unfold isabs. change (lit "/") with [slash]. apply not_slash. intros ->. destruct H. left.
Qed.
Lemma joined_snoc rel x : Forall file_name rel -> file_name x -> path_join (joined rel) x = joined (rel ++ [x]).
Proof.
  intros Hr (X1 & X2 & _). unfold path_join. rewrite not_abs by exact X2. destruct rel as [|n rel]; [reflexivity|].
  assert (E := joined_path n rel). assert (E2 := joined_path n (rel ++ [x])). change (n :: rel ++ [x]) with ((n :: rel) ++ [x]) in E2. rewrite path_of_snoc, <- E in E2. cbn [app] in E2.
  injection E2 as E2. change ((n :: rel) ++ [x]) with (n :: rel ++ [x]). rewrite E2. assert (Hn : n <> []) by (inversion Hr as [|? ? (N1 & _) _]; subst; exact N1).
  assert (He : endswith (joined (n :: rel)) (lit "/") = false).
  { assert (T := no_trailing (n :: rel) Hr). rewrite <- E in T. unfold endswith in T |- *. cbn [rev] in T. change (rev (lit "/")) with [slash] in *.
    destruct (rev (joined (n :: rel))) eqn:R; [reflexivity|]. cbn in T |- *. destruct l; exact T. }
  rewrite He. destruct (joined (n :: rel)) as [|c l] eqn:J; [|reflexivity]. exfalso.
  destruct n as [|c n]; [contradiction|]. destruct rel; discriminate J.
Qed.
Lemma norm_names ns : Forall file_name ns -> forall acc, norm_comps acc ns = rev acc ++ ns.
Proof.
  induction 1 as [|n ns (N1 & _ & _ & N2 & N3) H IH]; intros acc; [cbn; rewrite app_nil_r; reflexivity|]. cbn [norm_comps].
  destruct (str_eqb_spec n []); [contradiction|]. destruct (str_eqb_spec n (lit ".")); [contradiction|]. destruct (str_eqb_spec n (lit "..")); [contradiction|]. cbn [orb].
  rewrite IH. cbn [rev]. rewrite <- app_assoc. reflexivity.
Qed.
Lemma norm_skip a b : Forall file_name a -> (b = [] \/ b = [[]]) -> norm_comps [] ([] :: a ++ b) = a.
Proof.
  intros Ha Hb. cbn [norm_comps]. assert (E : forall acc, norm_comps acc (a ++ b) = rev acc ++ a).
  { clear -Ha Hb. induction Ha as [|n ns (N1 & _ & _ & N2 & N3) H IH]; intros acc; [destruct Hb as [-> | ->]; cbn; rewrite app_nil_r; reflexivity|]. cbn [norm_comps app].
    destruct (str_eqb_spec n []); [contradiction|]. destruct (str_eqb_spec n (lit ".")); [contradiction|]. destruct (str_eqb_spec n (lit "..")); [contradiction|]. cbn [orb].
    rewrite IH. cbn [rev]. rewrite <- app_assoc. reflexivity. }
  apply (E []).
Qed.
Lemma normpath_names p a b : split_char slash p = [] :: a ++ b -> startswith p (lit "//") = false -> Forall file_name a -> (b = [] \/ b = [[]]) -> a <> [] -> normpath p = path_of a.
Proof.
  intros E Hp Ha Hb Hne. unfold normpath. rewrite E, Hp, norm_skip by assumption. cbn [andb]. destruct a as [|n a]; [contradiction|]. rewrite <- joined_path. reflexivity.
Qed.
Lemma single_slash ns x : Forall file_name ns -> ns <> [] -> startswith (path_of ns ++ x) (lit "//") = false.
Proof.
  intros H Hne. destruct ns as [|n ns]; [contradiction|]. inversion H as [|? ? (N1 & N2 & _) _]; subst. destruct n as [|c n]; [contradiction|].
  change (lit "//") with [slash; slash]. change (path_of ((c :: n) :: ns) ++ x) with (slash :: c :: (n ++ path_of ns) ++ x).
  change (startswith (c :: (n ++ path_of ns) ++ x) [slash] = false). apply not_slash. intros ->. destruct N2. left.
Qed.
Lemma droot ns rel : Forall file_name ns -> ns <> [] -> Forall file_name rel -> normpath (path_join (path_of ns) (joined rel)) = path_of (ns ++ rel).
Proof.
  intros Hns Hne Hrel. unfold path_join. assert (Ha : isabs (joined rel) = false).
  { destruct rel as [|n rel]; [reflexivity|]. inversion Hrel as [|? ? (N1 & N2 & _) _]; subst. destruct n as [|c n]; [contradiction|]. unfold isabs.
    assert (E : joined ((c :: n) :: rel) = c :: n ++ (match rel with [] => [] | _ => [slash] ++ joined rel end)) by (destruct rel; [cbn; rewrite app_nil_r|]; reflexivity). rewrite E.
    change (lit "/") with [slash]. apply not_slash. intros ->. destruct N2. left. }
  rewrite Ha, no_trailing by exact Hns. destruct (path_of ns) as [|c l] eqn:El; [destruct (path_of_ne ns Hne El)|]. rewrite <- El. clear El c l.
  destruct rel as [|n rel].
  - rewrite app_nil_r. apply normpath_names with [[]]; auto; [|apply single_slash; assumption].
    change (slash :: joined []) with [slash]. rewrite split_char_app. change (split_char slash []) with [[] : pystr].
    assert (E := split_path ns Hns [] (not_elem_of_nil _)). cbn [app] in E. rewrite E. reflexivity.
  - rewrite joined_path, <- path_of_app. apply normpath_names with []; auto.
    + rewrite app_nil_r. assert (E := split_path (ns ++ n :: rel) (Forall_app_2 _ _ _ Hns Hrel) [] (not_elem_of_nil _)). exact E.
    + rewrite path_of_app. apply single_slash; assumption.
    + apply Forall_app_2; assumption.
    + destruct ns; [contradiction|discriminate].
Qed.
Lemma path_join_name ns x : Forall file_name ns -> ns <> [] -> file_name x -> path_join (path_of ns) x = path_of (ns ++ [x]).
Proof.
  intros Hns Hne (X1 & X2 & _). unfold path_join. rewrite not_abs by exact X2. rewrite no_trailing by exact Hns. rewrite path_of_snoc.
  destruct (path_of ns) as [|c l] eqn:El; [destruct (path_of_ne ns Hne El)|]. reflexivity.
Qed.

(** ** What the model walks over *)
Lemma sub_concat {A} (g : pystr -> ltree -> list A) es :
  (fix sub (es : list (pystr * ltree)) : list A := match es with [] => [] | (n, t') :: r => g n t' ++ sub r end) es = List.concat (List.map (fun e => g (fst e) (snd e)) es).
Proof. induction es as [|[n t] es IH]; [reflexivity|]. cbn. rewrite IH. reflexivity. Qed.
Lemma walk_dirs_rel ns t : Forall file_name ns -> ns <> [] -> tree_ok t -> forall pre, Forall file_name pre ->
  walk_dirs (path_of ns) (joined pre) t = List.map (fun rel => path_of (ns ++ rel)) (rdirs pre t).
Proof.
  intros Hns Hne. induction t as [b|es IH|b| |] using ltree_ind'; intros Ht pre Hpre; try reflexivity. cbn [walk_dirs rdirs].
  destruct (Ht [] es (inside_here _)) as [_ Hn]. rewrite List.map_app, droot by assumption. f_equal.
  - rewrite List.map_map. apply map_ext_in. intros x Hx. rewrite path_join_name; [rewrite app_assoc; reflexivity|apply Forall_app_2; assumption|destruct ns; [contradiction|discriminate]|].
    apply elem_of_list_In in Hx. unfold dir_entries in Hx. apply elem_of_list_fmap in Hx as ([k v] & -> & Hx). apply elem_of_list_In, filter_In in Hx as [Hx _]. eapply Hn. apply elem_of_list_In. exact Hx.
  - rewrite (sub_concat (fun n t' => walk_dirs (path_of ns) (path_join (joined pre) n) t')), concat_map, List.map_map. f_equal. apply map_ext_in. intros [k v] Hx. apply elem_of_list_In in Hx. cbn [fst snd].
    rewrite Forall_forall in IH. rewrite joined_snoc by (eauto). apply (IH (k, v) Hx); [eapply tree_ok_in; eassumption|]. apply Forall_app_2; [exact Hpre|]. repeat constructor; eapply Hn; exact Hx.
Qed.
Definition last_name (rel : list pystr) : pystr := default [] (last rel).
Lemma walk_files_rel ns t : Forall file_name ns -> ns <> [] -> tree_ok t -> forall pre, Forall file_name pre ->
  walk_files (path_of ns) (joined pre) t = List.map (fun x => (last_name (fst x), snd x, path_of (ns ++ fst x))) (rfiles pre t).
Proof.
  intros Hns Hne. induction t as [b|es IH|b| |] using ltree_ind'; intros Ht pre Hpre; try reflexivity. cbn [walk_files rfiles].
  destruct (Ht [] es (inside_here _)) as [_ Hn]. rewrite List.map_app, droot by assumption. f_equal.
  - rewrite List.map_map. apply map_ext_in. intros [k v] Hx. cbn [fst snd]. unfold last_name. rewrite last_snoc. cbn [default]. rewrite path_join_name; [rewrite app_assoc; reflexivity|apply Forall_app_2; assumption|destruct ns; [contradiction|discriminate]|].
    unfold file_entries in Hx. apply filter_In in Hx as [Hx _]. eapply Hn. apply elem_of_list_In. exact Hx.
  - rewrite (sub_concat (fun n t' => walk_files (path_of ns) (path_join (joined pre) n) t')), concat_map, List.map_map. f_equal. apply map_ext_in. intros [k v] Hx. apply elem_of_list_In in Hx. cbn [fst snd].
    rewrite Forall_forall in IH. rewrite joined_snoc by (eauto). apply (IH (k, v) Hx); [eapply tree_ok_in; eassumption|]. apply Forall_app_2; [exact Hpre|]. repeat constructor; eapply Hn; exact Hx.
Qed.

(** ** Where the paths lead *)
Lemma walk_into fs P n : fs !! P = Some n -> n_kind n = KDir -> forall budget l cur, walk fs false budget cur l = Ok P ->
  exists b, forall f r, walk fs f budget cur (l ++ r) = walk fs f b P r.
Proof.
  intros Hn Hk. induction budget as [|b IHb]; induction l as [|c r IH]; intros cur H; rewrite walk_unfold in H;
    try (injection H as ->; eexists; intros; reflexivity);
    destruct (str_eqb c (lit ".")) eqn:E1; try (destruct (IH _ H) as [b' Hb]; exists b'; intros f r'; cbn [app]; rewrite walk_unfold, E1; apply Hb);
    destruct (str_eqb c (lit "..")) eqn:E2; try (destruct (IH _ H) as [b' Hb]; exists b'; intros f r'; cbn [app]; rewrite walk_unfold, E1, E2; apply Hb);
    (destruct (fs !! (c :: cur)) as [m|] eqn:E; [|destruct r; [injection H as <-; congruence|discriminate]]);
    destruct (n_kind m) as [x| |t|x] eqn:K;
    try (destruct (IH _ H) as [b' Hb]; exists b'; intros f r'; cbn [app]; rewrite walk_unfold, E1, E2, E, K; apply Hb);
    try (destruct r; [injection H as <-; congruence|discriminate]).
  destruct r as [|r0 r]; [injection H as <-; congruence|]. destruct t as [|t0 t]; [discriminate|]. destruct (IHb _ _ H) as [b' Hb]. exists b'. intros f r'.
  cbn [app]. rewrite walk_unfold, E1, E2, E, K. rewrite <- (Hb f r'), <- app_assoc. reflexivity.
Qed.
Lemma walk_down fs f b : forall rel P x, Forall file_name rel -> file_name x -> (forall r1 r2, rel = r1 ++ r2 -> r1 <> [] -> kind_at fs (rev r1 ++ P) = Some KDir) ->
  walk fs f b P (rel ++ [x]) = walk fs f b (rev rel ++ P) [x].
Proof.
  induction rel as [|c rel IH]; intros P x Hr Hx Hd; [reflexivity|]. inversion Hr as [|? ? (_ & _ & _ & C1 & C2) Hr']; subst. cbn [app]. rewrite walk_unfold.
  destruct (str_eqb_spec c (lit ".")); [contradiction|]. destruct (str_eqb_spec c (lit "..")); [contradiction|].
  assert (K := Hd [c] rel eq_refl ltac:(discriminate)). cbn [rev app] in K. apply kind_lookup in K as (m & -> & ->). rewrite IH; auto; [cbn [rev]; rewrite <- app_assoc; reflexivity|].
  intros r1 r2 -> Hne. specialize (Hd (c :: r1) r2 eq_refl ltac:(discriminate)). cbn [rev] in Hd. rewrite <- app_assoc in Hd. exact Hd.
Qed.
Lemma path_nul ns : Forall file_name ns -> nul ∉ path_of ns.
Proof.
  induction 1 as [|n ns (_ & _ & N & _) H IH]; [apply not_elem_of_nil|]. change (path_of (n :: ns)) with (slash :: n ++ path_of ns). intros Hin.
  apply elem_of_cons in Hin as [Hin|Hin]; [discriminate Hin|]. apply elem_of_app in Hin as [Hin|Hin]; contradiction.
Qed.
Lemma resolve_path fs ns f : Forall file_name ns -> ns <> [] -> resolve fs [] (path_of ns) f = walk fs f max_links [] ns.
Proof.
  intros H Hne. unfold resolve. destruct (has_char_spec nul (path_of ns)) as [Hin|_]; [destruct (path_nul ns H Hin)|].
  rewrite path_of_isabs, comps_path by assumption. destruct (path_of ns) eqn:E; [destruct (path_of_ne ns Hne E)|]. reflexivity.
Qed.
(** Everything on the way is a directory. *)
Definition open_to (fs : fsys) (P : place) (rel : list pystr) : Prop := forall r1 r2, rel = r1 ++ r2 -> r1 <> [] -> kind_at fs (rev r1 ++ P) = Some KDir.
Lemma resolve_below fs ns P n rel x f : Forall file_name ns -> ns <> [] -> resolve_node fs [] (path_of ns) false = Ok (P, n) -> n_kind n = KDir ->
  Forall file_name rel -> file_name x -> open_to fs P rel ->
  exists b, resolve fs [] (path_of (ns ++ rel ++ [x])) f = walk fs f b (rev rel ++ P) [x].
Proof.
  intros Hns Hne Hr Hk Hrel Hx Ho. apply resolve_node_split in Hr as [Hr Hn]. rewrite resolve_path in Hr by assumption.
  destruct (walk_into fs P n Hn Hk _ _ _ Hr) as [b Hb]. exists b. rewrite resolve_path; [|repeat apply Forall_app_2; auto|destruct ns; [contradiction|discriminate]].
  rewrite Hb. apply walk_down; assumption.
Qed.
Lemma walk_one fs f b P x : file_name x -> (f = true -> forall t, kind_at fs (x :: P) <> Some (KLink t)) -> walk fs f b P [x] = Ok (x :: P).
Proof.
  intros (_ & _ & _ & X1 & X2) Hl. rewrite walk_unfold. destruct (str_eqb_spec x (lit ".")); [contradiction|]. destruct (str_eqb_spec x (lit "..")); [contradiction|].
  destruct (fs !! (x :: P)) as [m|] eqn:E; [|reflexivity]. destruct (n_kind m) as [y| |t|y] eqn:K; try reflexivity; [destruct b; reflexivity|]. destruct f; [|reflexivity].
  destruct (Hl eq_refl t). apply kind_lookup. eauto.
Qed.
Lemma resolve_at fs ns P n rel x : Forall file_name ns -> ns <> [] -> resolve_node fs [] (path_of ns) false = Ok (P, n) -> n_kind n = KDir ->
  Forall file_name rel -> file_name x -> open_to fs P rel ->
  resolve fs [] (path_of (ns ++ rel ++ [x])) false = Ok (rev (rel ++ [x]) ++ P).
Proof.
  intros Hns Hne Hr Hk Hrel Hx Ho. destruct (resolve_below fs ns P n rel x false) as [b ->]; auto. rewrite walk_one; [|exact Hx|discriminate].
  rewrite rev_app_distr. reflexivity.
Qed.
Lemma resolve_at_dir fs ns P n rel : Forall file_name ns -> ns <> [] -> resolve_node fs [] (path_of ns) false = Ok (P, n) -> n_kind n = KDir ->
  Forall file_name rel -> open_to fs P rel -> exists m, resolve_node fs [] (path_of (ns ++ rel)) true = Ok (rev rel ++ P, m) /\ n_kind m = KDir.
Proof.
  intros Hns Hne Hr Hk Hrel Ho. destruct rel as [|x rel _] using rev_ind.
  - rewrite app_nil_r. exists n. split; [|exact Hk]. apply resolve_node_split in Hr as [Hr Hn]. apply resolve_node_split. split; [|exact Hn].
    rewrite resolve_path in Hr |- * by assumption. destruct (walk_into fs P n Hn Hk _ _ _ Hr) as [b Hb]. specialize (Hb true []). rewrite app_nil_r in Hb. rewrite Hb. destruct b; reflexivity.
  - apply Forall_app in Hrel as [Hrel Hx]. inversion Hx; subst. assert (K := Ho (rel ++ [x]) [] ltac:(rewrite app_nil_r; reflexivity) ltac:(destruct rel; discriminate)).
    apply kind_lookup in K as (m & Em & Km). exists m. split; [|exact Km]. apply resolve_node_split. split; [|exact Em].
    destruct (resolve_below fs ns P n rel x true) as [b ->]; auto.
    + intros r1 r2 -> Hn1. apply (Ho r1 (r2 ++ [x])); [rewrite app_assoc; reflexivity|exact Hn1].
    + rewrite rev_app_distr in Em |- *. cbn [rev app] in Em |- *. apply walk_one; [assumption|]. intros _ t Ht. apply kind_lookup in Ht as (m' & Em' & Km'). congruence.
Qed.
