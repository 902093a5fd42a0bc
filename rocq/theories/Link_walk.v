(** Symbolic links that are replaced: what paths lead to afterwards. *)
From Coq Require Import Lia.
From stdpp Require Import gmap.
From Verif Require Import Base Paths Sys Spec_Sys Sys_proofs Walk_proofs Spec_Files Spec_Link.
Local Open Scope nat_scope.

(** The link [t], which is at [pl], leads to no directory. *)
Definition blind (fs : fsys) (pl : place) (t : pystr) : Prop := t <> [] -> forall d, ~ leads fs true (if isabs t then [] else tail pl) (comps t ++ [lit "."]) d.

Lemma leads_enter fs f cur m pl : leads fs f cur m pl -> forall l r, m = l ++ r -> r <> [] -> exists d, leads fs true cur (l ++ [lit "."]) d.
Proof.
  assert (Hnil : forall cur, exists d, leads fs true cur ([] ++ [lit "."]) d) by (intros q; exists q; apply leads_dot, leads_done).
  induction 1 as [cur|cur r0 pl H IH|cur r0 pl H IH|cur c r0 pl Hc K H IH|cur c b Hc K|cur c t Hc K|cur c t Hc K F|cur c r0 t pl Hc K Ht Hr H IH]; intros l r E Hne.
  - destruct l; [|discriminate]. apply Hnil.
  - destruct l as [|x l]; [apply Hnil|]. injection E as <- E. destruct (IH l r E Hne) as [d Hd]. exists d. apply leads_dot. exact Hd.
  - destruct l as [|x l]; [apply Hnil|]. injection E as <- E. destruct (IH l r E Hne) as [d Hd]. exists d. apply leads_dotdot. exact Hd.
  - destruct l as [|x l]; [apply Hnil|]. injection E as <- E. destruct (IH l r E Hne) as [d Hd]. exists d. apply leads_dir; auto.
  - destruct l as [|x l]; [apply Hnil|]. injection E as <- E. destruct l; [|discriminate]. destruct r; [contradiction|discriminate].
  - destruct l as [|x l]; [apply Hnil|]. injection E as <- E. destruct l; [|discriminate]. destruct r; [contradiction|discriminate].
  - destruct l as [|x l]; [apply Hnil|]. injection E as <- E. destruct l; [|discriminate]. destruct r; [contradiction|discriminate].
  - destruct l as [|x l]; [apply Hnil|]. injection E as <- E. destruct (IH (comps t ++ l) r) as [d Hd]; [rewrite E; apply app_assoc|exact Hne|].
    exists d. cbn [app]. eapply leads_link; [exact Hc|exact K|exact Ht|reflexivity|]. rewrite app_assoc. exact Hd.
Qed.
Lemma leads_here fs cur l d : leads fs true cur l d -> kind_at fs d = Some KDir -> leads fs true cur (l ++ [lit "."]) d.
Proof.
  induction 1 as [cur|cur r0 pl H IH|cur r0 pl H IH|cur c r0 pl Hc K H IH|cur c b Hc K|cur c t Hc K|cur c t Hc K F|cur c r0 t pl Hc K Ht Hr H IH]; intros Hd; cbn [app].
  - apply leads_dot, leads_done.
  - apply leads_dot; auto.
  - apply leads_dotdot; auto.
  - apply leads_dir; auto.
  - congruence.
  - congruence.
  - discriminate.
  - eapply leads_link; [exact Hc|exact K|exact Ht|reflexivity|]. rewrite app_assoc. auto.
Qed.
(** What a link leads to can be reached along every path to that link. *)
Lemma leads_through fs t d cur l pl : tree fs -> leads fs false cur l pl -> kind_at fs pl = Some (KLink t) -> t <> [] -> kind_at fs cur = Some KDir ->
  leads fs true (if isabs t then [] else tail pl) (comps t ++ [lit "."]) d -> leads fs true cur (l ++ [lit "."]) d.
Proof.
  intros [T1 T2]. assert (Hup : forall q, kind_at fs q = Some KDir -> kind_at fs (tail q) = Some KDir).
  { intros [|x q] Hq; [exact Hq|]. unfold kind_at in Hq. destruct (fs !! (x :: q)) as [n|] eqn:E; [|discriminate]. exact (T2 _ _ _ E). }
  remember false as f eqn:Ef. intros H.
  induction H as [cur|cur r0 pl H IH|cur r0 pl H IH|cur c r0 pl Hc K H IH|cur c b Hc K|cur c t' Hc K|cur c t' Hc K F|cur c r0 t' pl Hc K Ht' Hr H IH]; intros Hpl Ht Hcur Hd; cbn [app].
  - congruence.
  - apply leads_dot; auto.
  - apply leads_dotdot; auto.
  - apply leads_dir; auto.
  - congruence.
  - congruence.
  - assert (t' = t) as -> by congruence. eapply leads_link; [exact Hc|exact K|exact Ht|discriminate|exact Hd].
  - eapply leads_link; [exact Hc|exact K|exact Ht'| |].
    + destruct r0; discriminate.
    + rewrite app_assoc. apply IH; auto. destruct (isabs t'); assumption.
Qed.
Lemma not_enterable_blind fs path pl n t : tree fs -> names fs [] path false pl n -> n_kind n = KLink t -> ~ enterable fs path -> blind fs pl t.
Proof.
  intros Ht (_ & _ & Hl & Hn) Hk Hno Hne d Hd. apply Hno. exists d. assert (H : leads fs true (if isabs path then [] else []) (comps path ++ [lit "."]) d).
  { eapply (leads_through fs t d); [exact Ht|exact Hl|unfold kind_at; rewrite Hn; cbn; congruence|exact Hne|destruct (isabs path); apply Ht|exact Hd]. }
  destruct (isabs path); exact H.
Qed.
Lemma enterable_dir fs path pl n : names fs [] path true pl n -> n_kind n = KDir -> enterable fs path.
Proof.
  intros (_ & _ & Hl & Hn) Hk. exists pl. apply leads_here; [destruct (isabs path); exact Hl|]. unfold kind_at. rewrite Hn. cbn. congruence.
Qed.

(** Paths to the link itself, and to directories, stay as they are when it is replaced. *)
Lemma walk_replace fs pl n t n' t' f : fs !! pl = Some n -> n_kind n = KLink t -> n_kind n' = KLink t' -> blind fs pl t -> forall budget l cur q m,
  walk fs f budget cur l = Ok q -> fs !! q = Some m -> (q = pl /\ f = false) \/ n_kind m = KDir -> walk (<[pl := n']> fs) f budget cur l = Ok q.
Proof.
  intros Hn Hk Hk' Hb. induction budget as [|b IHb]; induction l as [|c r IH]; intros cur q m H Hq Hm; rewrite walk_unfold in H |- *; try exact H;
    destruct (str_eqb c (lit ".")); try (eapply IH; eassumption);
    destruct (str_eqb c (lit "..")); try (eapply IH; eassumption);
    (destruct (decide (c :: cur = pl)) as [Ep|Ep];
     [|rewrite lookup_insert_ne by congruence; destruct (fs !! (c :: cur)) as [m1|] eqn:E; [|exact H];
       destruct (n_kind m1) as [x| |t1|x] eqn:K; try exact H; try (eapply IH; eassumption)]).
  - rewrite Ep in *. rewrite Hn in H. rewrite lookup_insert, Hk'. rewrite Hk in H. destruct r as [|c1 r]; destruct f; cbn [negb] in H |- *; try discriminate H. exact H.
  - rewrite Ep in *. rewrite Hn in H. rewrite lookup_insert, Hk'. rewrite Hk in H.
    assert (Hw : match r with [] => negb f | _ => false end = false -> False).
    { intros Hc. rewrite Hc in H. destruct t as [|t0 t]; [discriminate|]. assert (Hl := walk_leads _ _ _ _ _ _ _ H Hq).
      assert (Htl : cur = tail pl) by (rewrite <- Ep; reflexivity). rewrite Htl in Hl. destruct r as [|c1 r].
      - destruct f; [|discriminate]. rewrite app_nil_r in Hl. destruct Hm as [[_ [=]]|Hm]. apply (Hb ltac:(discriminate) q). apply leads_here; [exact Hl|unfold kind_at; rewrite Hq; cbn; congruence].
      - destruct (leads_enter _ _ _ _ _ Hl (comps (t0 :: t)) (c1 :: r) eq_refl ltac:(discriminate)) as [d Hd]. exact (Hb ltac:(discriminate) d Hd). }
    destruct (match r with [] => negb f | _ => false end); [exact H|destruct (Hw eq_refl)].
  - destruct (match r with [] => negb f | _ => false end); [exact H|]. destruct t1; [discriminate|]. eapply IHb; eassumption.
Qed.
Lemma resolve_replace fs pl n t n' t' f cwd p q m : fs !! pl = Some n -> n_kind n = KLink t -> n_kind n' = KLink t' -> blind fs pl t ->
  resolve_node fs cwd p f = Ok (q, m) -> (q = pl /\ f = false) \/ n_kind m = KDir -> resolve_node (<[pl := n']> fs) cwd p f = Ok (q, if decide (q = pl) then n' else m).
Proof.
  intros H1 H2 H3 H4 H5 H6. apply resolve_node_split in H5 as [H5 H7]. apply resolve_node_split.
  assert (Hl : <[pl := n']> fs !! q = Some (if decide (q = pl) then n' else m)).
  { destruct (decide (q = pl)) as [-> |Hq]; [apply lookup_insert|rewrite lookup_insert_ne by congruence; exact H7]. }
  split; [|exact Hl]. unfold resolve in *. destruct (has_char nul p); [discriminate|]. destruct p; [discriminate|]. eapply walk_replace; eassumption.
Qed.
(** A new link *)
Lemma walk_create_link fs pl n : fs !! pl = None -> forall budget l cur, walk fs false budget cur l = Ok pl -> walk (<[pl := n]> fs) false budget cur l = Ok pl.
Proof.
  intros Hn. induction budget as [|b IHb]; induction l as [|c r IH]; intros cur H; rewrite walk_unfold in H |- *; try exact H;
    destruct (str_eqb c (lit ".")); try (apply IH; assumption);
    destruct (str_eqb c (lit "..")); try (apply IH; assumption);
    (destruct (fs !! (c :: cur)) as [m|] eqn:E;
     [rewrite lookup_insert_ne by congruence; rewrite E
     |destruct r; [|discriminate]; injection H as <-; rewrite lookup_insert; destruct (n_kind n) as [x| |t|x] eqn:K; rewrite ?walk_unfold; reflexivity]);
    destruct (n_kind m) as [x| |t|x] eqn:K; try exact H; try (apply IH; assumption).
  destruct r; cbn [negb] in H |- *; try (injection H as <-; congruence); (destruct t; [discriminate|]); apply IHb; assumption.
Qed.
Lemma resolve_create_link fs cwd p pl n : resolve fs cwd p false = Ok pl -> fs !! pl = None -> resolve_node (<[pl := n]> fs) cwd p false = Ok (pl, n).
Proof.
  intros H Hn. apply resolve_node_split. split; [|apply lookup_insert]. unfold resolve in *. destruct (has_char nul p); [discriminate|]. destruct p; [discriminate|].
  apply walk_create_link; assumption.
Qed.
