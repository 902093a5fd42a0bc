(** C53: files.upload_dir. *)
From Coq Require Import Lia ZifyBool ZifyN ZifyNat.
From stdpp Require Import gmap.
From Verif Require Import Base Utf8 Codec Spec_Codec Codec_proofs Paths Sys Spec_Sys Sys_proofs Dispatcher Client Spec_Remote Remote_run Direct Control Spec_Control Control_proofs Control_settle Prop_Control Op Spec_Op Op_proofs Coreutils Files Walk_proofs Files_plain Spec_Files Shell_proofs Thrift Steps Dir_proofs Transfer Converge Content_proofs Remote_examples Files_examples Sound Frugal Spec_Tree Tree_proofs Prop_Files Prop_Content Tree_run.
Local Open Scope nat_scope.

(** ** Specification *)
(** The directory [t] on this machine, named [src], is to become the remote directory with the path /n1/n2/... for the names [ns]. *)
Definition transfer (t : ltree) (src dest : pystr) (ns : list pystr) : Prop :=
  is_dir t /\ tree_ok t /\ contents_small t /\ Forall file_name ns /\ ns <> [] /\ absolute dest /\ lands src dest (path_of ns) /\
  forall rel sub, inside t rel sub -> c_string (path_of (ns ++ rel)).
Section spec.
  Variable sha512 : bytes -> bytes.
  (** A directory, or a file with this content or one with the same SHA-512 sum.  It belongs to the accounts in effect and has the mode
      in effect, set-id bits aside. *)
  Definition dir_made (s : os) (base : settings) (reqs : list settings) (q : settings) (n : node) : Prop :=
    exists attr z, settles s base (reqs ++ [q]) attr /\ owned s (s_owner attr) (s_group attr) n /\ n_kind n = KDir /\
      means (s_dir_mode attr) z /\ N.ldiff (n_mode n) 3072 = N.ldiff z 3072.
  Definition file_made (s : os) (base : settings) (reqs : list settings) (q : settings) (b : bytes) (n : node) : Prop :=
    exists attr z d, settles s base (reqs ++ [q]) attr /\ owned s (s_owner attr) (s_group attr) n /\ n_kind n = KFile d /\ (d = b \/ sha512 d = sha512 b) /\
      taken (s_file_mode attr) z /\ N.ldiff (n_mode n) 3072 = N.ldiff z 3072.
End spec.
(** [rel] leads to something that is transferred. *)
Definition sent (t : ltree) (rel : list pystr) : Prop := exists sub, inside t rel sub /\ (dir_like sub \/ exists b, file_like sub b).
(** At most the places below [P] that correspond to what is transferred differ.  No file is removed, and none becomes another kind of file. *)
Definition only_sent (t : ltree) (P : place) (s s' : os) : Prop :=
  only_files s s' /\ (forall q, (forall rel, sent t rel -> q <> rev rel ++ P) -> o_fs s' !! q = o_fs s !! q) /\
  forall q n, o_fs s !! q = Some n -> exists n', o_fs s' !! q = Some n' /\
    match n_kind n with KFile _ => exists d, n_kind n' = KFile d | k => n_kind n' = k end.
(** The result lists each path that was transferred once, a directory before what it contains. *)
Definition listed (t : ltree) (ns : list pystr) (r : opres) : Prop :=
  exists order, NoDup order /\ (forall rel, rel ∈ order <-> sent t rel) /\ (forall l1 l2 rel x, order = l1 ++ (rel ++ [x]) :: l2 -> rel ∈ l1) /\
    keys (or_initial r) = (fun rel => path_of (ns ++ rel)) <$> order /\ keys (or_final r) = (fun rel => path_of (ns ++ rel)) <$> order.

Lemma sent_plan t rel : is_dir t -> sent t rel <-> exists it, it ∈ plan t /\ rel_of it = rel.
Proof.
  intros Ht. split.
  - intros (sub & Hi & [Hd|[b Hb]]); [exists (IDir rel)|exists (IFile rel b)]; (split; [|reflexivity]); apply plan_in; auto; exists sub; auto.
  - intros (it & Hi & <-). apply plan_in in Hi; [|exact Ht]. destruct it as [rel|rel b]; destruct Hi as (sub & Hi & Hd); exists sub; (split; [exact Hi|]); eauto.
Qed.
Lemma transfer_items t src dest ns : transfer t src dest ns -> forall it, it ∈ plan t -> item_ok ns it.
Proof.
  intros (T1 & T2 & T3 & T4 & T5 & T6 & T7 & T8) it Hi. apply plan_in in Hi; [|exact T1]. destruct it as [rel|rel b]; destruct Hi as (sub & Hi & Hd); split; try (eapply inside_names; eassumption); (split; [|eapply T8; exact Hi]).
  - exact I.
  - eapply T3; eassumption.
Qed.

Section theorems.
  Variable rest : proc -> M xres.
  Variable sha512 : bytes -> bytes.
  Variable want_diff : bool.
  Notation exec := (coreutils rest).
  Notation upload_dir := (upload_dir exec sha512 false want_diff).

  Lemma made_dir dm fm owner group rel s base reqs n : made sha512 dm fm owner group (IDir rel) s base reqs n -> dir_made s base reqs (asking owner group None dm) n.
  Proof. intros (attr & H1 & H2 & H3 & z & H4 & H5). exists attr, z. auto. Qed.
  Lemma made_file dm fm owner group rel b s base reqs n : made sha512 dm fm owner group (IFile rel b) s base reqs n -> file_made sha512 s base reqs (asking owner group fm None) b n.
  Proof. intros (attr & H1 & H2 & (d & H3 & H6) & z & H4 & H5). exists attr, z, d. auto 10. Qed.
  Lemma within_sent t src dest ns c P c' : transfer t src dest ns -> within ns c P (plan t) c' -> only_sent t P (sysof c) (sysof c').
  Proof.
    intros (T1 & _) (_ & W1 & W2 & W3). split; [exact W1|]. split.
    - intros q Hq. apply W3. intros it Hi. apply Hq, sent_plan; eauto.
    - intros q n Hn. destruct (W2 q n Hn) as (n' & N1 & N2). exists n'. split; [exact N1|]. unfold shape in N2. destruct (n_kind n); destruct (n_kind n'); try congruence; eauto.
  Qed.
  Lemma plan_sees t src dest ns dm fm owner group c reqs P c' : transfer t src dest ns -> inv sha512 ns dm fm owner group c reqs P (plan t) c' ->
    forall it, it ∈ plan t -> exists n, sees (sysof c') (path_of (ns ++ rel_of it)) (rev (rel_of it) ++ P) n /\ made sha512 dm fm owner group it (sysof c) (c_base c) reqs n.
  Proof.
    intros Ht (_ & _ & _ & ((m & M1 & M2) & _) & Hm) it Hi. destruct (Hm it Hi) as (n & N1 & N2). exists n. split; [|exact N2].
    destruct Ht as (T1 & T2 & T3 & T4 & T5 & T6 & T7 & T8).
    destruct (rel_of it) as [|x rel _] eqn:Er using rev_ind.
    - rewrite app_nil_r. cbn [rev app] in *. assert (M1' := M1). apply resolve_node_split in M1' as [_ M3]. assert (n = m) as -> by congruence. exact M1.
    - assert (Hf : Forall file_name (rel ++ [x])).
      { apply (plan_in t) in Hi; [|exact T1]. rewrite <- Er. destruct it as [r|r b]; destruct Hi as (sub & Hi & _); eapply inside_names; eassumption. }
      apply Forall_app in Hf as [F1 F2]. inversion F2; subst. apply resolve_node_split. split; [|exact N1].
      eapply resolve_at; eauto. intros r1 r2 -> Hr1. assert (H : IDir r1 ∈ plan t).
      { apply elem_of_list_split in Hi as (l1 & l2 & E). assert (H := chained_prefix _ (plan_chained t) (r2 ++ [x]) l1 it l2 r1 E). rewrite E. apply elem_of_app. left.
        apply H; [rewrite Er, app_assoc; reflexivity|destruct r2; discriminate]. }
      destruct (Hm _ H) as (k & K1 & attr & _ & _ & K2 & _). apply kind_lookup. exists k. auto.
  Qed.
  Lemma plan_at t src dest ns dm fm owner group c reqs P c' : transfer t src dest ns -> inv sha512 ns dm fm owner group c reqs P (plan t) c' ->
    forall it, it ∈ plan t -> exists n, at_path (sysof c') (path_of (ns ++ rel_of it)) (rev (rel_of it) ++ P) n /\ made sha512 dm fm owner group it (sysof c) (c_base c) reqs n.
  Proof. intros Ht Hi it Hin. destruct (plan_sees t src dest ns dm fm owner group c reqs P c' Ht Hi it Hin) as (n & N1 & N2). exists n. split; [apply resolve_node_names; exact N1|exact N2]. Qed.
  (** What the operation does, by its plan. *)
  Lemma tree_items t src dest ns dm fm owner group a c r c' : transfer t src dest ns ->
    operation a (upload_dir (Some t) src dest dm fm owner group) c = (r, c') ->
    exists x, do_items rest sha512 want_diff ns dm fm owner group (plan t) (Op true None None []) c = (x, c') /\
      (forall res, r = Ok res -> exists o' i f, x = Ok (tt, o') /\ op_initial o' = Some i /\ op_final o' = Some f /\ res = OpRes true (negb (py_eq (VDict i) (VDict f))) i f None) /\
      (forall o', x = Ok (tt, o') -> is_Some (op_initial o') -> is_Some (op_final o') -> exists res, r = Ok res).
  Proof.
    intros (T1 & T2 & T3 & T4 & T5 & T6 & T7 & T8) E. unfold operation in E.
    unfold mbind at 1, W_bind at 1 in E. rewrite (upload_plan rest sha512 want_diff ns dm fm owner group T4 T5 t src dest T1 T2 T6 T7) in E. unfold upload_items in E.
    assert (Hn : (nested true) new_op c = (Ok (tt, Op true None None []), c)) by reflexivity. rewrite (obind_ok _ _ _ _ _ _ _ Hn) in E.
    destruct ((_ ← do_items rest sha512 want_diff ns dm fm owner group (plan t); success) (Op true None None []) c) as [y c2] eqn:Eb.
    apply obind_spec in Eb as [([] & o' & c1 & Ed & Es)|(e & Ed & ->)].
    - exists (Ok (tt, o')). destruct y as [[res o2]|e].
      + apply success_spec in Es as (-> & -> & i & f & Hi & Hf & ->). cbn [fst or_success negb] in E. rewrite andb_false_r in E. injection E as <- <-. split; [exact Ed|]. split.
        * intros res [= <-]. eauto 10.
        * intros o'' _ _ _. eauto.
      + assert (Hc : c2 = c1 /\ ~ (is_Some (op_initial o') /\ is_Some (op_final o'))).
        { unfold success in Es. rewrite getO_bind in Es. destruct (op_initial o') as [i|] eqn:Hi; [|injection Es as _ <-; split; [reflexivity|intros [[? ?] _]; discriminate]].
          destruct (op_final o') as [f|] eqn:Hf; [|injection Es as _ <-; split; [reflexivity|intros [_ [? ?]]; discriminate]].
          exfalso. destruct o' as [o1 o2 o3 o4]. cbn in Hi, Hf. subst o2 o3. discriminate Es. }
        destruct Hc as [-> Hc]. injection E as <- <-. split; [exact Ed|]. split; [discriminate|]. intros o'' [= <-] H1 H2. destruct Hc. auto.
    - exists (Err e). injection E as <- <-. split; [exact Ed|]. split; discriminate.
  Qed.

  (** ** C53 *)
  (** Full statement: every directory and every regular file of the tree is at the corresponding remote path, and nothing else is
      touched.  Missing: symbolic links are transferred as well, as what they lead to ([C53_links_refuted]); a source with a final
      slash ([C53_slash_refuted]) and a destination with ".." in it ([C53_dots_refuted]) are not covered by [transfer]; set-id bits and
      two contents with the same SHA-512 sum, as for C44 and C46. *)
  Theorem C53_tree_partial a c r c' reqs t src dest ns dm fm owner group :
    transfer t src dest ns -> ready c reqs -> honest (sysof c) ->
    operation a (upload_dir (Some t) src dest dm fm owner group) c = (Ok r, c') ->
    or_success r = true /\ exists P,
      (forall rel sub, inside t rel sub -> dir_like sub ->
         exists n, at_path (sysof c') (path_of (ns ++ rel)) (rev rel ++ P) n /\ dir_made (sysof c) (c_base c) reqs (asking owner group None dm) n) /\
      (forall rel sub b, inside t rel sub -> file_like sub b ->
         exists n, at_path (sysof c') (path_of (ns ++ rel)) (rev rel ++ P) n /\ file_made sha512 (sysof c) (c_base c) reqs (asking owner group fm None) b n) /\
      only_sent t P (sysof c) (sysof c') /\ listed t ns r /\ (or_changed r = false -> unaffected (sysof c) (sysof c')).
  Proof.
    intros Ht Hr Hh E. destruct (tree_items t src dest ns dm fm owner group a c _ c' Ht E) as (x & Ed & Hres & _). destruct (Hres r eq_refl) as (o' & i & f & -> & Hi & Hf & ->).
    assert (Hok := transfer_items t src dest ns Ht). assert (HT := Ht). destruct Ht as (T1 & T2 & T3 & T4 & T5 & T6 & T7 & T8).
    destruct (plan_any rest sha512 want_diff ns dm fm owner group T4 T5 c reqs _ (Op true None None []) _ c' (plan_chained t) (plan_nodup t T2) Hok Hr Hh Ed) as [_ H].
    change (IDir [] :: _) with (plan t) in H.
    destruct (H o' eq_refl) as ((P & Hinv) & rs & (L1 & L2 & L3 & L4) & Hun). rewrite Hi in L3. rewrite Hf in L4. cbn [default from_option id op_initial op_final app] in L3, L4.
    assert (Hat := plan_at t src dest ns dm fm owner group c reqs P c' HT Hinv).
    assert (Hnd : NoDup (item_path ns <$> plan t)).
    { apply (item_paths_nodup ns T4); [|apply plan_nodup; exact T2]. intros it Hit. apply Hok. exact Hit. }
    split; [reflexivity|]. exists P. split; [|split; [|split; [|split]]].
    - intros rel sub Hs Hd. destruct (Hat (IDir rel)) as (n & N1 & N2); [apply plan_in; [exact T1|]; exists sub; auto|]. exists n. split; [exact N1|]. eapply made_dir; exact N2.
    - intros rel sub b Hs Hd. destruct (Hat (IFile rel b)) as (n & N1 & N2); [apply plan_in; [exact T1|]; exists sub; auto|]. exists n. split; [exact N1|]. eapply made_file. exact N2.
    - eapply within_sent; [exact HT|apply Hinv].
    - exists (List.map rel_of (plan t)). split; [apply plan_nodup; exact T2|]. split; [|split; [|split]].
      + intros rel. rewrite (sent_plan t rel T1). rewrite elem_of_list_fmap. split; intros (it & A & B); exists it; auto.
      + intros l1 l2 rel y E'. assert (Hex : exists p1 it p2, plan t = p1 ++ it :: p2 /\ List.map rel_of p1 = l1 /\ rel_of it = rel ++ [y]).
        { clear -E'. revert l1 E'. induction (plan t) as [|it l IH]; intros l1 E'; [destruct l1; discriminate|]. destruct l1 as [|z l1].
          - injection E' as E1 E2. exists [], it, l. auto.
          - injection E' as E1 E2. destruct (IH l1 E2) as (p1 & jt & p2 & -> & <- & Q). exists (it :: p1), jt, p2. cbn. rewrite E1. auto. }
        destruct Hex as (p1 & it & p2 & P1 & <- & P2). assert (Hin := plan_chained t p1 it p2 rel y P1 P2). apply elem_of_list_fmap. exists (IDir rel). auto.
      + cbn [or_initial]. rewrite L3, entries_keys by exact L1. unfold item_path. rewrite <- list_fmap_compose. reflexivity.
      + cbn [or_final]. rewrite L4, entries_keys by exact L1. unfold item_path. rewrite <- list_fmap_compose. reflexivity.
    - cbn [or_changed]. intros Hc. apply Hun. apply (entries_equal ns (plan t) rs L1 Hnd L2). rewrite <- L3, <- L4. destruct (py_eq (VDict i) (VDict f)); [reflexivity|discriminate].
  Qed.
  (** However it ends: nothing is touched but the places that correspond to what is transferred, below a directory at the destination. *)
  Theorem C53_confined a c r c' reqs t src dest ns dm fm owner group :
    transfer t src dest ns -> ready c reqs -> honest (sysof c) ->
    operation a (upload_dir (Some t) src dest dm fm owner group) c = (r, c') ->
    unaffected (sysof c) (sysof c') \/
    exists P n, at_path (sysof c') (path_of ns) P n /\ n_kind n = KDir /\ only_sent t P (sysof c) (sysof c').
  Proof.
    intros Ht Hr Hh E. destruct (tree_items t src dest ns dm fm owner group a c _ c' Ht E) as (x & Ed & _ & _).
    assert (Hok := transfer_items t src dest ns Ht). assert (HT := Ht). destruct Ht as (T1 & T2 & T3 & T4 & T5 & T6 & T7 & T8).
    destruct (plan_any rest sha512 want_diff ns dm fm owner group T4 T5 c reqs _ (Op true None None []) _ c' (plan_chained t) (plan_nodup t T2) Hok Hr Hh Ed) as [[H|(P & H)] _]; [left; exact H|right].
    destruct H as ((n & N1 & N2) & Hw). exists P, n. split; [apply resolve_node_names; exact N1|]. split; [exact N2|]. eapply within_sent; [exact HT|]. split; [exists n; auto|exact Hw].
  Qed.
  (** It succeeds when nothing fails, the destination is a directory or can be created, and no file of another kind is in the way. *)
  Theorem C53_works a c r c' reqs t src dest ns dm fm owner group :
    transfer t src dest ns -> ready c reqs -> healthy c -> hash_ok sha512 -> unaliased (sysof c) ->
    feasible (sysof c) (c_base c) (reqs ++ [asking owner group None dm]) -> feasible (sysof c) (c_base c) (reqs ++ [asking owner group fm None]) ->
    attainable (fun k => k = KDir) (sysof c) (path_of ns) ->
    (forall P rel sub n, resolve (o_fs (sysof c)) [] (path_of ns) false = Ok P -> inside t rel sub -> rel <> [] -> o_fs (sysof c) !! (rev rel ++ P) = Some n ->
       (dir_like sub -> n_kind n = KDir) /\ forall b, file_like sub b -> regular (n_kind n)) ->
    operation a (upload_dir (Some t) src dest dm fm owner group) c = (r, c') ->
    exists res, r = Ok res /\ healthy c'.
  Proof.
    intros Ht Hr Hhl Hha Hun F1 F2 Hat Hfit E. destruct (tree_items t src dest ns dm fm owner group a c _ c' Ht E) as (x & Ed & _ & Hres).
    assert (Hok := transfer_items t src dest ns Ht). destruct Ht as (T1 & T2 & T3 & T4 & T5 & T6 & T7 & T8).
    destruct (plan_works rest sha512 want_diff ns dm fm owner group T4 T5 c reqs (List.map IDir (rdirs [] t) ++ file_items (rfiles [] t)) (Op true None None []) (plan_chained t) (plan_nodup t T2) Hha Hun) as (o' & c2 & Ed2 & Hh2 & S1 & S2); auto.
    - intros it Hi. split; [apply Hok; exact Hi|]. destruct it; [exact F1|exact F2].
    - intros P it n HP Hi Hn. assert (Hip : it ∈ plan t) by (right; exact Hi). assert (Hne : rel_of it <> []).
      { intros En. assert (Hnd := plan_nodup t T2). unfold plan in Hnd. cbn [List.map rel_of] in Hnd. apply NoDup_cons in Hnd as [Hnd _]. apply Hnd. apply elem_of_list_fmap. exists it. auto. }
      apply (plan_in t it T1) in Hip. destruct it as [rel|rel b]; destruct Hip as (sub & Hs & Hd); destruct (Hfit P rel sub n HP Hs Hne Hn) as [G1 G2]; cbn; [auto|]. apply (G2 b Hd).
    - unfold plan in Ed. rewrite Ed in Ed2. injection Ed2 as -> ->. destruct (Hres o' eq_refl S1 S2) as (res & ->). eauto.
  Qed.
  (** Without symbolic links in it, exactly the directories and the regular files are transferred. *)
  Theorem C53_without_links t rel : no_links t -> sent t rel <-> exists sub, inside t rel sub /\ (is_dir sub \/ exists b, is_regular sub b).
  Proof.
    intros Hn. split; intros (sub & H1 & H2); exists sub; (split; [exact H1|]).
    - eapply Hn. exact H1.
    - destruct H2 as [H|[b H]]; [left; left; exact H|right]. exists b. left. exact H.
  Qed.
  (** If there is no directory at the source, nothing is done. *)
  Theorem C53_no_source a c tree src dest dm fm owner group : (tree = None \/ exists t, tree = Some t /\ ~ is_dir t) ->
    exists e, operation a (upload_dir tree src dest dm fm owner group) c = (Err e, c).
  Proof.
    intros H. assert (Hn : forall es, tree <> Some (LDir es)) by (intros es ->; destruct H as [[=]|(t & [= <-] & H)]; apply H; exists es; reflexivity).
    assert (Hs : exists e, upload_dir tree src dest dm fm owner group new_op c = (Err e, c)).
    { unfold Files.upload_dir. rewrite (obind_ok (nested true) _ new_op c tt (Op true None None []) c eq_refl).
      destruct (check_path dest c) as [[_ Hc]|[_ [m Hc]]].
      - rewrite (obind_ok (olift (check_absolute_path dest)) _ (Op true None None []) c tt (Op true None None []) c); [|unfold olift, mbind, W_bind; rewrite Hc; reflexivity].
        destruct tree as [[]|]; try (eexists; reflexivity). destruct (Hn _ eq_refl).
      - exists (ValueError m). unfold olift, mbind, O_bind, W_bind, mbind, W_bind. rewrite Hc. reflexivity. }
    destruct Hs as [e Hs]. exists e. unfold operation, mbind, W_bind. rewrite Hs. reflexivity.
  Qed.
End theorems.
Print Assumptions C53_tree_partial.
Print Assumptions C53_confined.
Print Assumptions C53_works.
Print Assumptions C53_without_links.
Print Assumptions C53_no_source.

(** ** Refutations *)
Definition sample : ltree := LDir [(lit "a", LDir [(lit "f", LFile (blit "one"))]); (lit "g", LFile (blit "two"))].
Definition linked : ltree := LDir [(lit "f", LLinkFile (blit "one")); (lit "d", LLinkDir)].
Definition send t src dest := operation NotGiven (upload_dir (coreutils echo) fake_hash false true (Some t) src dest m755 m755 alice None).
Definition p_app : pystr := lit "/srv/old/app".
Lemma file_name_dec x : bool_decide (x <> [] /\ (slash ∉ x) /\ (nul ∉ x) /\ x <> lit "." /\ x <> lit "..") = true -> file_name x.
Proof. intros H. apply bool_decide_eq_true in H as (H1 & H2 & H3 & H4 & H5). split_and!; try assumption. split; assumption. Qed.
Ltac named := apply file_name_dec; vm_compute; reflexivity.
Lemma app_lands : lands (lit "app") (lit "/srv/old/") p_app.
Proof. left. exists (lit "/srv/old"), (lit "app"). split; [reflexivity|]. split; [dec|]. split; [left; reflexivity|reflexivity]. Qed.
Ltac in_list H := repeat (apply elem_of_cons in H as [H|H]; [injection H as -> ->|]); try (exfalso; clear -H; inversion H; fail).
Ltac one_of H := repeat (apply elem_of_cons in H as [H|H];
  [first [exfalso; apply (f_equal fst) in H; vm_compute in H; discriminate H|apply (f_equal snd) in H; cbn [snd] in H; subst]|]); [..|inversion H]; [].
Ltac below := repeat match goal with
  | H : (_, _) ∈ _ |- _ => in_list H
  | H : inside _ _ _ |- _ => inversion H; clear H; subst
  end.
Lemma linked_transfer : transfer linked (lit "app") (lit "/srv/old/") [lit "srv"; lit "old"; lit "app"].
Proof.
  split; [eexists; reflexivity|]. split.
  { intros rel es H. unfold linked in H. below. split; [dec|]. intros n sub H. in_list H; named. }
  split; [intros rel sub b H Hb; unfold linked in H; below; destruct Hb as [[=]|[=]]; subst; small_nat|].
  split; [each; named|]. split; [discriminate|]. split; [eexists; reflexivity|]. split; [exact app_lands|].
  intros rel sub H. unfold linked in H. below; (split; [text|dec]).
Qed.
(** Full statement (false): only files and directories are transferred, not links (docstring of upload_dir).  A link to a file becomes a
    regular file, and a link to a directory becomes an empty directory. *)
Theorem C53_links_refuted : exists c r c' n m, ready c [] /\ healthy c /\ transfer linked (lit "app") (lit "/srv/old/") [lit "srv"; lit "old"; lit "app"] /\
  (forall sub, inside linked [lit "f"] sub -> ~ is_dir sub /\ forall b, ~ is_regular sub b) /\ (forall sub, inside linked [lit "d"] sub -> ~ is_dir sub) /\
  send linked (lit "app") (lit "/srv/old/") c = (Ok r, c') /\
  at_path (sysof c') (p_app ++ lit "/f") [lit "f"; lit "app"; lit "old"; lit "srv"] n /\ n_kind n = KFile (blit "one") /\
  at_path (sysof c') (p_app ++ lit "/d") [lit "d"; lit "app"; lit "old"; lit "srv"] m /\ n_kind m = KDir.
Proof.
  exists on_site. set (f := send linked (lit "app") (lit "/srv/old/")). set (c1 := snd (f on_site)).
  exists (result_of (f on_site)), c1, (Node (KFile (blit "one")) 493 1000 0 200 200), (Node KDir 493 1000 0 200 200).
  split; [exact site_ready|]. split; [exact site_healthy|]. split; [exact linked_transfer|].
  split; [intros sub H; inversion H as [|es n t rel sub' Hin Hi]; subst; inversion Hi; subst; one_of Hin; split; [intros [? [=]]|intros b [=]]|].
  split; [intros sub H; inversion H as [|es n t rel sub' Hin Hi]; subst; inversion Hi; subst; one_of Hin; intros [? [=]]|].
  split; [ran|]. split; [apply resolve_node_names; vm_compute; reflexivity|]. split; [reflexivity|]. split; [apply resolve_node_names; vm_compute; reflexivity|reflexivity].
Qed.
Print Assumptions C53_links_refuted.
(** Full statement (false): with a destination that ends in a slash, the folder becomes a child of it (docstring of upload_dir).  If the
    source ends in a slash too, its contents go into the destination itself, whose owner and mode change. *)
Theorem C53_slash_refuted : exists c r c' n m, ready c [] /\ healthy c /\
  send sample (lit "app/") (lit "/srv/old/") c = (Ok r, c') /\
  missing (sysof c') p_app /\
  at_path (sysof c) (lit "/srv/old") [lit "old"; lit "srv"] n /\ at_path (sysof c') (lit "/srv/old") [lit "old"; lit "srv"] m /\ n_uid m <> n_uid n.
Proof.
  exists on_site. set (f := send sample (lit "app/") (lit "/srv/old/")). set (c1 := snd (f on_site)).
  exists (result_of (f on_site)), c1, (Node KDir 493 0 0 100 100), (Node KDir 493 1000 0 100 200).
  split; [exact site_ready|]. split; [exact site_healthy|]. split; [ran|]. split; [apply (none_missing _ p_app); vm_compute; reflexivity|].
  split; [apply resolve_node_names; vm_compute; reflexivity|]. split; [apply resolve_node_names; vm_compute; reflexivity|discriminate].
Qed.
Print Assumptions C53_slash_refuted.
(** Full statement (false): each file of the tree is at its path below the destination.  The top directory is created where the path
    leads, but what is in it goes to the path with ".." taken off textually.  With /far leading to /srv/old, the top is /srv/tmp and its
    contents go to /tmp. *)
Definition far : os := set_fs (<[[lit "far"] := Node (KLink (lit "/srv/old")) 511 0 0 100 100]> site_fs) site.
Definition on_far : ctl := on far ex_base.
Definition p_dots : pystr := lit "/far/../tmp".
Lemma far_ready : ready on_far [].
Proof.
  destruct site_ready as ((x & X1 & X2) & R2 & R3 & R4). split; [exists x; split; [exact X1|exact X2]|]. split; [split; discriminate|]. split; [exact R3|].
  destruct R4 as (O1 & O2 & O3 & O4 & O5 & O6 & O7). do 5 (split; [assumption|]). split; [|exact O7].
  intros pl n H. cbn [far set_fs sysof on_far on c_remote r_os o_fs] in H. apply lookup_insert_Some in H as [[_ <-]|[_ H]]; [|apply (O6 _ _ H)].
  unfold node_ok, id_ok, in_u64; cbn; parts; try lia; try exact I; try small_nat; try text.
Qed.
Theorem C53_dots_refuted : exists c r c' n m, ready c [] /\ healthy c /\ absolute p_dots /\
  send sample (lit "app") p_dots c = (Ok r, c') /\
  at_path (sysof c') p_dots [lit "tmp"; lit "srv"] n /\ n_kind n = KDir /\ missing (sysof c') (p_dots ++ lit "/g") /\
  at_path (sysof c') (lit "/tmp/g") [lit "g"; lit "tmp"] m /\ n_kind m = KFile (blit "two").
Proof.
  exists on_far. set (f := send sample (lit "app") p_dots). set (c1 := snd (f on_far)).
  exists (result_of (f on_far)), c1, (Node KDir 1517 1000 0 200 200), (Node (KFile (blit "two")) 493 1000 0 200 200).
  split; [exact far_ready|]. split; [split_and!; reflexivity|]. split; [eexists; reflexivity|]. split; [ran|].
  split; [apply resolve_node_names; vm_compute; reflexivity|]. split; [reflexivity|]. split; [apply (none_missing _ (p_dots ++ lit "/g")); vm_compute; reflexivity|].
  split; [apply resolve_node_names; vm_compute; reflexivity|reflexivity].
Qed.
Print Assumptions C53_dots_refuted.

(** ** Cases that meet the hypotheses *)
Lemma sample_transfer : transfer sample (lit "app") (lit "/srv/old/") [lit "srv"; lit "old"; lit "app"].
Proof.
  split; [eexists; reflexivity|]. split.
  { intros rel es H. unfold sample in H. below; (split; [dec|]; intros n sub H; in_list H; named). }
  split; [intros rel sub b H Hb; unfold sample in H; below; destruct Hb as [[=]|[=]]; subst; small_nat|].
  split; [each; named|]. split; [discriminate|]. split; [eexists; reflexivity|]. split; [exact app_lands|].
  intros rel sub H. unfold sample in H. below; (split; [text|dec]).
Qed.
Example C53_case :
  transfer sample (lit "app") (lit "/srv/old/") [lit "srv"; lit "old"; lit "app"] /\ no_links sample /\
  feasible (sysof on_site) (c_base on_site) ([] ++ [asking alice None None m755]) /\ feasible (sysof on_site) (c_base on_site) ([] ++ [asking alice None m755 None]) /\
  attainable (fun k => k = KDir) (sysof on_site) p_app /\
  (forall P rel sub n, resolve (o_fs (sysof on_site)) [] p_app false = Ok P -> inside sample rel sub -> rel <> [] -> o_fs (sysof on_site) !! (rev rel ++ P) = Some n ->
     (dir_like sub -> n_kind n = KDir) /\ forall b, file_like sub b -> regular (n_kind n)) /\
  (let x := send sample (lit "app") (lit "/srv/old/") on_site in let y := send sample (lit "app") (lit "/srv/old/") (snd x) in
   or_success (result_of x) = true /\ or_changed (result_of x) = true /\
   keys (or_final (result_of x)) = [p_app; p_app ++ lit "/a"; p_app ++ lit "/g"; p_app ++ lit "/a/f"] /\
   file_at (snd x) [lit "app"; lit "old"; lit "srv"] = Some (Node KDir 493 1000 0 200 200) /\
   file_at (snd x) [lit "f"; lit "a"; lit "app"; lit "old"; lit "srv"] = Some (Node (KFile (blit "one")) 493 1000 0 200 200) /\
   or_success (result_of y) = true /\ or_changed (result_of y) = false).
Proof.
  split; [exact sample_transfer|]. split; [intros rel sub H; unfold sample in H; below; first [left; eexists; reflexivity|right; eexists; reflexivity]|].
  split; [apply site_feasible; [right; reflexivity|exact I|exact ex_c755]|]. split; [apply site_feasible; [right; reflexivity|exact ex_c755|exact I]|].
  split; [|split].
  - left. split; [vm_compute; reflexivity|]. exists (lit "/srv/old"), (lit "app"), [lit "old"; lit "srv"], (Node KDir 493 0 0 100 100).
    split; [reflexivity|]. split; [named|]. split; [reflexivity|]. right. split; [eexists; reflexivity|]. split; vm_compute; reflexivity.
  - intros P rel sub n HP H Hne Hn. assert (P = [lit "app"; lit "old"; lit "srv"]) as -> by (vm_compute in HP; injection HP as <-; reflexivity).
    exfalso. unfold sample in H. below; try congruence; vm_compute in Hn; discriminate Hn.
  - cbn zeta. split_and!; vm_compute; reflexivity.
Qed.
