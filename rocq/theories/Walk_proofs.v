(** How changes of the file system affect the resolution of paths. *)
From Coq Require Import Lia.
From stdpp Require Import gmap.
From Verif Require Import Base Dict_proofs Paths Sys Spec_Sys Sys_proofs Coreutils Direct.
Local Open Scope nat_scope.

(** what path resolution looks at *)
Definition shape (n : node) : kind := match n_kind n with KFile _ => KFile [] | k => k end.
Definition grows (fs fs' : fsys) : Prop := forall pl n, fs !! pl = Some n -> exists n', fs' !! pl = Some n' /\ shape n' = shape n.
Lemma grows_refl fs : grows fs fs.
Proof. intros pl n H. eauto. Qed.
Lemma grows_trans a b c : grows a b -> grows b c -> grows a c.
Proof. intros H1 H2 pl n H. apply H1 in H as (n' & H & E). apply H2 in H as (n'' & H & E'). exists n''. split; congruence. Qed.
Lemma grows_insert (fs : fsys) pl n : (forall m, fs !! pl = Some m -> shape n = shape m) -> grows fs (<[pl := n]> fs).
Proof.
  intros H q m Hq. destruct (decide (q = pl)) as [-> |Hne].
  - exists n. rewrite lookup_insert. auto.
  - exists m. rewrite lookup_insert_ne by congruence. auto.
Qed.
Lemma grows_delete (fs : fsys) pl : grows (delete pl fs) fs.
Proof. intros q m Hq. apply lookup_delete_Some in Hq as [_ Hq]. eauto. Qed.

Ltac walk_cases c H :=
  rewrite walk_unfold in H |- *; try exact H;
  destruct (str_eqb c (lit ".")); try (auto; fail);
  destruct (str_eqb c (lit "..")); try (auto; fail).

Lemma walk_grows fs fs' f : grows fs fs' -> forall budget l cur pl, walk fs f budget cur l = Ok pl -> fs !! pl <> None -> walk fs' f budget cur l = Ok pl.
Proof.
  intros Hg. induction budget as [|b IHb]; induction l as [|c r IH]; intros cur pl H Hn; rewrite walk_unfold in H |- *; try exact H;
    destruct (str_eqb c (lit ".")); try (apply IH; assumption);
    destruct (str_eqb c (lit "..")); try (apply IH; assumption);
    destruct (fs !! (c :: cur)) as [m|] eqn:E;
    try (destruct r; [injection H as <-; contradiction|discriminate]);
    destruct (Hg _ _ E) as (m' & E' & Hs); rewrite E'; unfold shape in Hs;
    destruct (n_kind m) as [x| |t|x] eqn:K; destruct (n_kind m') as [x'| |t'|x'] eqn:K'; try discriminate; try exact H; try (apply IH; assumption).
  injection Hs as ->. destruct r; destruct f; cbn [negb] in H |- *; try exact H; (destruct t; [discriminate|]); apply IHb; assumption.
Qed.
Lemma resolve_grows fs fs' cwd p f pl : grows fs fs' -> resolve fs cwd p f = Ok pl -> fs !! pl <> None -> resolve fs' cwd p f = Ok pl.
Proof.
  intros Hg. unfold resolve. destruct (has_char nul p); [discriminate|]. destruct p; [discriminate|]. apply walk_grows. exact Hg.
Qed.
Lemma resolve_node_split fs cwd p f pl n : resolve_node fs cwd p f = Ok (pl, n) <-> resolve fs cwd p f = Ok pl /\ fs !! pl = Some n.
Proof.
  unfold resolve_node. destruct (resolve fs cwd p f) as [q|e]; cbn.
  - split.
    + destruct (fs !! q) eqn:E; [|discriminate]. intros [= <- <-]. auto.
    + intros [[= ->] ->]. reflexivity.
  - split; [discriminate|intros [[=] _]].
Qed.
Lemma resolve_node_grows fs fs' cwd p f pl n n' : grows fs fs' -> resolve_node fs cwd p f = Ok (pl, n) -> fs' !! pl = Some n' -> resolve_node fs' cwd p f = Ok (pl, n').
Proof.
  intros Hg H Hn. apply resolve_node_split in H as [H H']. apply resolve_node_split. split; [|exact Hn].
  apply (resolve_grows fs fs'); [assumption..|congruence].
Qed.
(** replacing a file by one of the same shape *)
Lemma resolve_node_set fs cwd p f pl n n' : resolve_node fs cwd p f = Ok (pl, n) -> shape n' = shape n -> resolve_node (<[pl := n']> fs) cwd p f = Ok (pl, n').
Proof.
  intros H Hs. apply (resolve_node_grows fs _ _ _ _ _ _ _) with (2 := H).
  - apply grows_insert. intros m Hm. apply resolve_node_split in H as [_ H]. congruence.
  - apply lookup_insert.
Qed.

(** creating a file at a place that was missing *)
Lemma walk_create fs f pl n : fs !! pl = None -> (forall t, n_kind n <> KLink t) -> forall budget l cur, walk fs f budget cur l = Ok pl ->
  walk (<[pl := n]> fs) f budget cur l = Ok pl.
Proof.
  intros Hn Hk. induction budget as [|b IHb]; induction l as [|c r IH]; intros cur H; rewrite walk_unfold in H |- *; try exact H;
    destruct (str_eqb c (lit ".")); try (apply IH; assumption);
    destruct (str_eqb c (lit "..")); try (apply IH; assumption);
    (destruct (fs !! (c :: cur)) as [m|] eqn:E;
     [rewrite lookup_insert_ne by congruence; rewrite E
     |destruct r; [|discriminate]; injection H as <-; rewrite lookup_insert; destruct (n_kind n) as [x| |t|x] eqn:K;
      first [reflexivity|exfalso; exact (Hk t eq_refl)]]);
    destruct (n_kind m) as [x| |t|x] eqn:K; try exact H; try (apply IH; assumption).
  destruct r; destruct f; cbn [negb] in H |- *; try (injection H as <-; congruence); (destruct t; [discriminate|]); apply IHb; assumption.
Qed.
(** asking for a directory where there is one *)
Lemma walk_dot fs f pl n : fs !! pl = Some n -> n_kind n = KDir -> forall budget l cur, walk fs f budget cur l = Ok pl ->
  walk fs f budget cur (l ++ [lit "."]) = Ok pl.
Proof.
  intros Hn Hk. induction budget as [|b IHb]; induction l as [|c r IH]; intros cur H; cbn [app]; rewrite walk_unfold in H |- *;
    try (rewrite walk_unfold; exact H);
    destruct (str_eqb c (lit ".")); try (apply IH; assumption);
    destruct (str_eqb c (lit "..")); try (apply IH; assumption);
    (destruct (fs !! (c :: cur)) as [m|] eqn:E; [|destruct r; [injection H as <-; congruence|discriminate]]);
    destruct (n_kind m) as [x| |t|x] eqn:K; try (apply IH; assumption);
    try (destruct r; [injection H as <-; congruence|discriminate]).
  - destruct r; [destruct f; [discriminate|injection H as <-; congruence]|discriminate].
  - assert (H' : match t with [] => Err (oserr ENOENT) | _ => walk fs f b (if isabs t then [] else cur) (comps t ++ r) end = Ok pl).
    { destruct r; [|exact H]. destruct f; [exact H|injection H as <-; congruence]. }
    destruct t as [|t0 t]; [discriminate|]. apply IHb in H'. rewrite <- app_assoc in H'. destruct r; exact H'.
Qed.
(** with and without following a final symbolic link *)
Lemma walk_unfollow fs budget : forall l cur pl, walk fs true budget cur l = Ok pl ->
  walk fs false budget cur l = Ok pl \/ exists q m t, walk fs false budget cur l = Ok q /\ fs !! q = Some m /\ n_kind m = KLink t.
Proof.
  induction budget as [|b IHb]; induction l as [|c r IH]; intros cur pl H; rewrite walk_unfold in H |- *; auto;
    destruct (str_eqb c (lit ".")); auto;
    destruct (str_eqb c (lit "..")); auto;
    destruct (fs !! (c :: cur)) as [m|] eqn:E; auto;
    destruct (n_kind m) as [x| |t|x] eqn:K; auto.
  - destruct r; discriminate.
  - destruct r; [right; exists (c :: cur), m, t; auto|]. destruct t; [discriminate|]. apply IHb. exact H.
Qed.
Lemma walk_missing fs budget : forall l cur pl, walk fs false budget cur l = Ok pl -> fs !! pl = None -> walk fs true budget cur l = Ok pl.
Proof.
  induction budget as [|b IHb]; induction l as [|c r IH]; intros cur pl H Hn; rewrite walk_unfold in H |- *; auto;
    destruct (str_eqb c (lit ".")); auto;
    destruct (str_eqb c (lit "..")); auto;
    destruct (fs !! (c :: cur)) as [m|] eqn:E; auto;
    destruct (n_kind m) as [x| |t|x] eqn:K; auto.
  - destruct r; [injection H as <-; congruence|discriminate].
  - destruct r; [injection H as <-; congruence|]. cbn [negb] in *. destruct t; [discriminate|]. apply IHb; auto.
Qed.
(** Nothing is there, not even a link, and following links one arrives somewhere. *)
Lemma resolve_absent fs cwd p pl : resolve_node fs cwd p false = Err (oserr ENOENT) -> resolve fs cwd p true = Ok pl ->
  resolve fs cwd p false = Ok pl /\ fs !! pl = None.
Proof.
  unfold resolve_node, resolve. destruct (has_char nul p); [discriminate|]. destruct p as [|x p]; [discriminate|].
  intros H1 H2. apply walk_unfollow in H2 as [H2|(q & m & t & H2 & Hq & _)]; rewrite H2 in H1 |- *; cbn in H1.
  - destruct (fs !! pl) eqn:E; [discriminate|]. auto.
  - rewrite Hq in H1. discriminate.
Qed.

(** ** Paths that are stripped of slashes at the end *)
Lemma isabs_cwd fs cwd cwd' p f : isabs p = true -> resolve fs cwd p f = resolve fs cwd' p f.
Proof. intros H. unfold resolve. rewrite H. reflexivity. Qed.
Lemma isabs_cwd_node fs cwd cwd' p f : isabs p = true -> resolve_node fs cwd p f = resolve_node fs cwd' p f.
Proof. intros H. unfold resolve_node. rewrite (isabs_cwd _ _ cwd' _ _ H). reflexivity. Qed.
Lemma rstrip_split p : exists k, p = rstrip_slash p ++ repeat slash k.
Proof.
  unfold rstrip_slash. assert (H : exists k, rev p = repeat slash k ++ lstrip_slash (rev p)).
  { generalize (rev p). intros l. induction l as [|c l [k IH]]; [exists 0; reflexivity|]. cbn. destruct (N.eqb_spec c slash) as [-> |].
    - exists (S k). cbn. f_equal. exact IH.
    - exists 0. reflexivity. }
  destruct H as [k H]. exists k. apply (f_equal (@rev _)) in H. rewrite rev_involutive, rev_app_distr in H. rewrite H at 1. f_equal.
  clear. induction k as [|k IH]; [reflexivity|]. cbn. rewrite IH. clear. induction k as [|k IH]; [reflexivity|]. cbn. rewrite IH. reflexivity.
Qed.
Lemma rstrip_last p : endswith (rstrip_slash p) (lit "/") = false.
Proof.
  unfold endswith, rstrip_slash. rewrite rev_involutive. change (rev (lit "/")) with [slash].
  induction (rev p) as [|c l IH]; [reflexivity|]. cbn [lstrip_slash]. destruct (N.eqb_spec c slash) as [-> |H]; [exact IH|].
  cbn [startswith]. destruct (N.eqb_spec slash c); [congruence|reflexivity].
Qed.
Lemma split_char_app c a b : split_char c (a ++ c :: b) = split_char c a ++ split_char c b.
Proof.
  induction a as [|d a IH].
  - cbn. rewrite N.eqb_refl. reflexivity.
  - cbn. rewrite IH. destruct (d =? c)%N; [reflexivity|]. destruct (split_char c a) eqn:E; [|reflexivity].
    exfalso. clear -E. destruct a as [|x a]; cbn in E; [discriminate|]. destruct (x =? c)%N; [discriminate|]. destruct (split_char c a); discriminate.
Qed.
Definition real (l : list pystr) : list pystr := List.filter (fun c => match c with [] => false | _ => true end) l.
Lemma real_slashes a k : real (split_char slash (a ++ repeat slash k)) = real (split_char slash a).
Proof.
  revert a. induction k as [|k IH]; intros a; [rewrite app_nil_r; reflexivity|].
  cbn [repeat]. rewrite split_char_app. unfold real. rewrite List.filter_app. fold (real (split_char slash (repeat slash k))).
  replace (repeat slash k) with ([] ++ repeat slash k) by reflexivity. rewrite (IH []). cbn. rewrite app_nil_r. reflexivity.
Qed.
Lemma comps_rstrip p : comps p = comps (rstrip_slash p) \/ comps p = comps (rstrip_slash p) ++ [lit "."].
Proof.
  destruct (rstrip_split p) as [k Hk]. assert (H : real (split_char slash p) = real (split_char slash (rstrip_slash p))).
  { rewrite Hk at 1. apply real_slashes. }
  unfold comps. rewrite rstrip_last. fold (real (split_char slash p)). fold (real (split_char slash (rstrip_slash p))). rewrite H.
  destruct (real (split_char slash (rstrip_slash p))); [left; reflexivity|]. destruct (endswith _ _); auto.
Qed.
Lemma rstrip_isabs p : rstrip_slash p <> [] -> isabs (rstrip_slash p) = isabs p.
Proof.
  intros H. destruct (rstrip_split p) as [k Hk]. rewrite Hk at 2. destruct (rstrip_slash p) as [|x q]; [congruence|].
  unfold isabs. change (lit "/") with [slash]. cbn [app startswith]. assert (Hnil : forall l, startswith l [] = true) by (intros []; reflexivity). rewrite !Hnil. reflexivity.
Qed.
(** mkdir *)
Lemma resolve_mkdir fs cwd p pl n : resolve fs cwd (rstrip_slash p) false = Ok pl -> fs !! pl = None -> n_kind n = KDir -> (nul ∉ p) ->
  resolve_node (<[pl := n]> fs) cwd p false = Ok (pl, n).
Proof.
  intros H Hn Hk Hz. unfold resolve in H. destruct (has_char nul (rstrip_slash p)); [discriminate|].
  destruct (rstrip_slash p) as [|x q] eqn:E; [discriminate|]. apply (walk_create _ _ _ n) in H; [|assumption|intros t; congruence].
  apply resolve_node_split. split; [|apply lookup_insert]. unfold resolve.
  destruct (has_char_spec nul p); [contradiction|].
  destruct p as [|y p]; [discriminate|]. rewrite <- E in H. rewrite rstrip_isabs in H by (rewrite E; discriminate).
  destruct (comps_rstrip (y :: p)) as [-> | ->]; [exact H|].
  apply (walk_dot _ _ _ n); [apply lookup_insert|exact Hk|exact H].
Qed.
(** creating a file with touch *)
Lemma resolve_create fs cwd p pl n f : resolve fs cwd p f = Ok pl -> fs !! pl = None -> (forall t, n_kind n <> KLink t) ->
  resolve_node (<[pl := n]> fs) cwd p f = Ok (pl, n).
Proof.
  intros H Hn Hk. apply resolve_node_split. split; [|apply lookup_insert]. unfold resolve in *. destruct (has_char nul p); [discriminate|].
  destruct p; [discriminate|]. apply walk_create; assumption.
Qed.
(** after a removal nothing is named any more *)
Lemma resolve_removed fs fs' cwd p f pl : resolve fs cwd p f = Ok pl -> grows fs' fs -> fs' !! pl = None -> forall q n, resolve_node fs' cwd p f <> Ok (q, n).
Proof.
  intros H Hg Hn q n E. apply resolve_node_split in E as [E Eq]. apply (resolve_grows _ _ _ _ _ _ Hg) in E; congruence.
Qed.
