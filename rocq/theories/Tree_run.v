(** How upload_dir carries out its plan. *)
From Coq Require Import Lia ZifyBool ZifyN ZifyNat.
From stdpp Require Import gmap.
From Verif Require Import Base Utf8 Codec Spec_Codec Codec_proofs Paths Sys Spec_Sys Sys_proofs Dispatcher Client Spec_Remote Remote_run Direct Control Spec_Control Control_proofs Control_settle Prop_Control Op Spec_Op Op_proofs Coreutils Files Walk_proofs Files_plain Spec_Files Shell_proofs Thrift Steps Dir_proofs Transfer Converge Content_proofs Sound Frugal Spec_Tree Tree_proofs Prop_Files Prop_Content.
Local Open Scope nat_scope.

(** ** The reported change is the one between the reported states *)
Definition truthful (w : W opres) : Prop := forall c r c', w c = (Ok r, c') -> or_success r = true -> or_changed r = negb (py_eq (VDict (or_initial r)) (VDict (or_final r))).
Lemma truthful_bind {A} (m : W A) f : (forall a, truthful (f a)) -> truthful (m ≫= f).
Proof. intros H c r c' E. apply bind_spec in E as [(a & c1 & _ & E)|(e & _ & [=])]. eapply H. exact E. Qed.
Lemma truthful_conclude i f m : truthful (conclude i f m).
Proof.
  unfold conclude. destruct (py_eq (VDict i) (VDict f)) eqn:E; [intros c r c' [= <- <-] _; cbn [or_changed or_initial or_final]; rewrite E; reflexivity|].
  apply truthful_bind. intros [] c r c' [= <- <-] _. cbn [or_changed or_initial or_final]. rewrite E. reflexivity.
Qed.
Lemma truthful_failed r : or_success r = false -> truthful (mret r).
Proof. intros H c r' c' [= <- <-] H'. congruence. Qed.
Lemma truthful_finally m f : truthful m -> truthful (wfinally m f).
Proof. intros H c r c' E. unfold wfinally in E. destruct (m c) as [x c1] eqn:Em. destruct (f c1) as [[u|e] c2]; [|discriminate]. injection E as -> <-. eapply H. exact Em. Qed.
Lemma truthful_operation a f w : yields f new_op w -> truthful w -> truthful (operation a f).
Proof.
  intros H Hw c r c' E. rewrite (operation_plain a f w c H) in E. apply verdict_outcome in E as (x & E & Hx). destruct x as [res|e]; cbn in Hx; [|discriminate].
  destruct Hx as [[[= <-] _]|(_ & _ & [=])]. eapply Hw. exact E.
Qed.
Lemma truthful_dir exec sha512 dry path present touch attr : truthful (dir_body exec sha512 dry path present touch attr).
Proof.
  unfold dir_body. apply truthful_bind. intros st. cbv zeta. destruct st as [x|]; [destruct (negb (str_eqb (st_type x) (lit "dir"))); [apply truthful_failed; reflexivity|]|]; apply truthful_conclude.
Qed.
Lemma truthful_content exec sha512 dry want_diff content dest attr : truthful (content_body exec sha512 dry want_diff content dest attr).
Proof.
  unfold content_body. apply truthful_bind. intros st. cbv zeta. destruct st as [x|]; [destruct (negb (str_eqb (st_type x) (lit "file"))); [apply truthful_failed; reflexivity|]|]; apply truthful_conclude.
Qed.
Lemma truthful_block exec sha512 path q body : (forall d, truthful (body d)) -> truthful (_ ← check_absolute_path path; script_defaults exec sha512 q body).
Proof.
  intros H. apply truthful_bind. intros _ c. unfold script_defaults. destruct (c_script c) as [i|]; [|discriminate]. revert c.
  change (truthful (with_defaults exec sha512 i q body)). unfold with_defaults. apply truthful_bind. intros new. apply truthful_bind. intros d. apply truthful_finally. apply H.
Qed.

(** ** Items of the plan *)
Inductive item := IDir (rel : list pystr) | IFile (rel : list pystr) (b : bytes).
Definition rel_of (it : item) : list pystr := match it with IDir rel | IFile rel _ => rel end.
Definition is_idir (it : item) : Prop := match it with IDir _ => True | IFile _ _ => False end.
Definition item_small (it : item) : Prop := match it with IDir _ => True | IFile _ b => small b end.
Definition item_fits (it : item) (k : kind) : Prop := match it with IDir _ => k = KDir | IFile _ _ => is_file k end.
Definition file_items (l : list (list pystr * option bytes)) : list item := omap (fun x => match snd x with Some b => Some (IFile (fst x) b) | None => None end) l.
Definition plan (t : ltree) : list item := IDir [] :: List.map IDir (rdirs [] t) ++ file_items (rfiles [] t).

Section run.
  Variable rest : proc -> M xres.
  Variable sha512 : bytes -> bytes.
  Variable want_diff : bool.
  Notation exec := (coreutils rest).
  Variables (ns : list pystr) (dm fm owner group : option pystr).
  Definition item_path (it : item) : pystr := path_of (ns ++ rel_of it).
  Definition item_op (it : item) : O opres :=
    match it with
    | IDir rel => directory exec sha512 false (path_of (ns ++ rel)) true false dm owner group
    | IFile rel b => upload_file exec sha512 false want_diff (Ok b) (last_name rel) (path_of (ns ++ rel)) fm owner group
    end.
  Definition item_q (it : item) : settings := match it with IDir _ => want owner group None dm | IFile _ _ => want owner group fm None end.
  Definition item_body (it : item) : settings -> W opres :=
    match it with
    | IDir rel => dir_body exec sha512 false (path_of (ns ++ rel)) true false
    | IFile rel b => content_body exec sha512 false want_diff b (path_of (ns ++ rel))
    end.
  Definition item_conf (it : item) (s : os) (pl : place) (n : node) : Prop :=
    match it with IDir _ => dir_conf s pl n | IFile _ b => content_conf b s pl n end.
  Definition item_good (it : item) (s : os) (attr : settings) (x : account) (y : grent) (pl : place) (n : node) : Prop :=
    match it with IDir _ => dir_good s attr false x y pl n | IFile _ b => content_good sha512 b s attr x y pl n end.
  Fixpoint do_items (l : list item) : O unit :=
    match l with
    | [] => mret tt
    | it :: l => r ← olift (operation NotGiven (item_op it)); _ ← add_nested_result (item_path it) r; do_items l
    end.

  Hypothesis Hns : Forall file_name ns.
  Hypothesis Hne : ns <> [].

  Lemma below_absolute rel : absolute (path_of (ns ++ rel)).
  Proof. destruct ns as [|n ns']; [contradiction|]. eexists. reflexivity. Qed.
  Lemma delivers_item rel b : Forall file_name rel -> delivers rest sha512 want_diff (item_op (IFile rel b)) fm owner group (path_of (ns ++ rel)) b.
  Proof.
    intros Hr. right. left. exists (last_name rel), (path_of (ns ++ rel)). split; [reflexivity|]. split; [apply below_absolute|]. right. split; [|reflexivity].
    intros d E. assert (H := no_trailing (ns ++ rel) (Forall_app_2 _ _ _ Hns Hr)). rewrite E in H. unfold endswith in H. rewrite rev_app_distr in H.
    change (rev (lit "/")) with [slash] in H. cbn [rev app startswith] in H. rewrite N.eqb_refl in H. destruct (rev d); discriminate H.
  Qed.
  Lemma item_plain it : Forall file_name (rel_of it) ->
    yields (item_op it) new_op (_ ← check_absolute_path (item_path it); script_defaults exec sha512 (item_q it) (item_body it)).
  Proof.
    intros Hr. destruct it as [rel|rel b]; [apply directory_plain|]. apply delivers_plain. apply delivers_item. exact Hr.
  Qed.

  Lemma ready_step c c' reqs : ready c reqs -> c' = set_remote (c_remote c') c -> only_files (sysof c) (sysof c') -> os_ok (sysof c') -> ready c' reqs.
  Proof.
    intros ((d0 & Ha & He) & Hkb & Hac & _) Hset Hof Hos. assert (Hb : c_base c' = c_base c) by (rewrite Hset; reflexivity).
    split; [exists d0; split; [rewrite Hset; exact Ha|rewrite Hb; apply (enclosing_files _ _ _ _ _ Hof); exact He]|]. rewrite Hb. split; [exact Hkb|].
    split; [apply (accounts_files _ _ Hof); exact Hac|exact Hos].
  Qed.
  Lemma item_facts it s pl n : item_small it -> item_conf it s pl n ->
    item_fits it (n_kind n) /\ (forall n0, o_fs s !! pl = Some n0 -> shape n = shape n0).
  Proof.
    intros Hsm Hc. destruct it as [rel|rel b]; [destruct (dir_conf_facts _ _ _ Hc) as (H1 & H2 & _)|destruct (content_facts sha512 _ _ _ _ Hsm Hc) as (H1 & H2 & _)]; auto.
  Qed.
  Lemma item_any it c r c' reqs : Forall file_name (rel_of it) -> item_small it -> c_string (item_path it) -> ready c reqs -> honest (sysof c) ->
    operation NotGiven (item_op it) c = (r, c') ->
    c' = set_remote (c_remote c') c /\ ready c' reqs /\ honest (sysof c') /\
    (unaffected (sysof c) (sysof c') \/ exists pl n, sits (item_path it) (sysof c) (sysof c') pl n /\ item_conf it (sysof c) pl n) /\
    (forall res, r = Ok res -> exists attr x y pl n, settles (sysof c) (c_base c) (reqs ++ [item_q it]) attr /\ accounts_of (sysof c) attr x y /\
       sits (item_path it) (sysof c) (sysof c') pl n /\ item_conf it (sysof c) pl n /\ item_good it (sysof c) attr x y pl n /\
       (or_changed res = false -> unaffected (sysof c) (sysof c')) /\ or_changed res = negb (py_eq (VDict (or_initial res)) (VDict (or_final res)))).
  Proof.
    intros Hr Hsm Hp Hrd Hh E. assert (Hy := item_plain it Hr).
    assert (Hset : c' = set_remote (c_remote c') c).
    { destruct Hrd as ((d0 & Ha & He) & _). eapply (op_any exec sha512 NotGiven (item_path it) (item_q it) (item_body it) _ c r c' reqs d0 Hy); try eassumption.
      intros d. destruct it; [apply remotely_dir|apply remotely_content]. }
    assert (Hos : os_ok (sysof c')).
    { assert (H := sound_operation NotGiven (item_op it) _ Hy (sound_bind _ _ (sound_check _) (fun _ => sound_defaults exec sha512 (item_q it) (item_body it) (fun d =>
        match it as it' return item_small it' -> sound (item_body it' d) with IDir rel => fun _ => sound_dir _ _ _ _ _ _ _ | IFile rel b => fun H => sound_content _ _ _ _ _ _ _ H end Hsm))) c (proj2 (proj2 (proj2 Hrd)))).
      rewrite E in H. exact H. }
    assert (Hh' : honest (sysof c')).
    { assert (H : frugal (operation NotGiven (item_op it))).
      { eapply frugal_operation; [exact Hy|]. apply frugal_bind; [apply frugal_check|]. intros _. apply frugal_defaults. intros d. destruct it; [apply frugal_dir|apply frugal_content]. }
      specialize (H c). rewrite E in H. eapply less_honest; [exact H|exact Hh]. }
    assert (Htr : forall res, r = Ok res -> or_success res = true -> or_changed res = negb (py_eq (VDict (or_initial res)) (VDict (or_final res)))).
    { intros res ->. eapply (truthful_operation NotGiven (item_op it) _ Hy); [|exact E]. apply truthful_block. intros d. destruct it; [apply truthful_dir|apply truthful_content]. }
    assert (Hsu : forall res, r = Ok res -> or_success res = true).
    { intros res ->. rewrite (operation_plain NotGiven _ _ c Hy) in E. apply verdict_outcome in E as (x & _ & Hx). destruct x as [x|]; cbn in Hx; [|discriminate].
      destruct Hx as [[[= <-] Hx]|(_ & _ & [=])]. auto. }
    assert (Hmain : (unaffected (sysof c) (sysof c') \/ exists pl n, sits (item_path it) (sysof c) (sysof c') pl n /\ item_conf it (sysof c) pl n) /\
      (forall res, r = Ok res -> exists attr x y pl n, settles (sysof c) (c_base c) (reqs ++ [item_q it]) attr /\ accounts_of (sysof c) attr x y /\
       sits (item_path it) (sysof c) (sysof c') pl n /\ item_conf it (sysof c) pl n /\ item_good it (sysof c) attr x y pl n /\ (or_changed res = false -> unaffected (sysof c) (sysof c')))).
    { destruct it as [rel|rel b].
      - destruct (directory_any rest sha512 NotGiven c r c' reqs (path_of (ns ++ rel)) false dm owner group Hrd Hh Hp E) as [H1 H2]. split; [exact H1|].
        intros res Hres. destruct (H2 res Hres (Hsu res Hres)) as (_ & attr & x & y & pl & n & F1 & F2 & F3 & F4 & F5 & F6). exists attr, x, y, pl, n. split_and!; auto. intros H0. apply F6. exact H0.
      - destruct (present_any rest sha512 (path_of (ns ++ rel)) false is_file s_file_mode (content_conf b) (content_good sha512 b) (fun s attr n => content_match sha512 b s (s_file_mode attr) attr n) (small b) _ _ _
          Hy (fun d => remotely_content rest sha512 want_diff b (path_of (ns ++ rel)) d) file_msel (fun attr s c x c' a b' => content_body_cap rest sha512 want_diff b attr s c x c' a b' (path_of (ns ++ rel))) NotGiven c r c' reqs Hrd Hh Hp E) as [H1 H2]. split; [exact H1|].
        intros res Hres. destruct (H2 res Hres (Hsu res Hres)) as (_ & attr & x & y & pl & n & F1 & F2 & F3 & F4 & F5 & F6). exists attr, x, y, pl, n. split_and!; auto. intros H0. apply F6. exact H0. }
    destruct Hmain as [M1 M2]. split; [exact Hset|]. split.
    - eapply ready_step; try eassumption. destruct M1 as [M1|(pl & n & M1 & _)]; [apply unaffected_only; exact M1|eapply sits_only; exact M1].
    - split; [exact Hh'|]. split; [exact M1|]. intros res Hres. destruct (M2 res Hres) as (attr & x & y & pl & n & F1 & F2 & F3 & F4 & F5 & F6). exists attr, x, y, pl, n. split_and!; auto.
  Qed.

  (** ** The state between two items *)
  Definition bits_but_setid (m z : N) : Prop := N.ldiff m 3072 = N.ldiff z 3072.
  Definition made (it : item) (s0 : os) (base : settings) (reqs : list settings) (n : node) : Prop :=
    exists attr, settles s0 base (reqs ++ [item_q it]) attr /\ owned s0 (s_owner attr) (s_group attr) n /\
      match it with
      | IDir _ => n_kind n = KDir /\ exists z, means (s_dir_mode attr) z /\ bits_but_setid (n_mode n) z
      | IFile _ b => (exists d, n_kind n = KFile d /\ (d = b \/ sha512 d = sha512 b)) /\ exists z, taken (s_file_mode attr) z /\ bits_but_setid (n_mode n) z
      end.
  Lemma kept_setid s pl z : bits_but_setid (N.lor z (kept_bits s pl)) z.
  Proof.
    assert (H : forall w, N.ldiff (N.lor z (N.land w 3072)) 3072 = N.ldiff z 3072).
    { intros w. apply N.bits_inj. intros i. rewrite !N.ldiff_spec, N.lor_spec, N.land_spec. destruct (N.testbit z i), (N.testbit w i), (N.testbit 3072 i); reflexivity. }
    unfold bits_but_setid, kept_bits. destruct (o_fs s !! pl) as [n|]; [apply H|]. destruct (o_fs s !! tail pl) as [n|]; [|rewrite N.lor_0_r; reflexivity].
    replace (N.land (n_mode n) 1024) with (N.land (N.land (n_mode n) 1024) 3072); [apply H|]. rewrite <- N.land_assoc. reflexivity.
  Qed.
  Lemma drop_setid z : bits_but_setid (drop_suid z) z.
  Proof.
    assert (H : forall a b, N.ldiff b 3072 = 0%N -> N.ldiff (N.ldiff a b) 3072 = N.ldiff a 3072).
    { intros a b Hb. apply N.bits_inj. intros i. rewrite !N.ldiff_spec. assert (Hi : N.testbit (N.ldiff b 3072) i = false) by (rewrite Hb; apply N.bits_0).
      rewrite N.ldiff_spec in Hi. destruct (N.testbit a i), (N.testbit b i), (N.testbit 3072 i); try reflexivity; discriminate Hi. }
    unfold bits_but_setid, drop_suid. cbv zeta. destruct (negb _); rewrite ?H by reflexivity; reflexivity.
  Qed.
  Lemma item_made it s0 s attr x y pl n base reqs : only_files s0 s -> settles s base (reqs ++ [item_q it]) attr -> accounts_of s attr x y ->
    item_conf it s pl n -> item_good it s attr x y pl n -> made it s0 base reqs n.
  Proof.
    intros Hof Hse Hac Hc Hg. exists attr. split; [apply (settles_files _ _ _ _ _ Hof); exact Hse|].
    assert (Ho : good_owner attr x y n) by (destruct it; apply Hg).
    split; [destruct Hac as (A1 & A2 & A3 & A4), Ho as [O1 O2]; rewrite (only_files_passwd _ _ Hof) in A1; rewrite (only_files_group _ _ Hof) in A2; exists x, y; auto 10|].
    destruct it as [rel|rel b].
    - split; [exact (proj1 Hc)|]. destruct Hg as (_ & (z & Z1 & Z2) & _). exists z. split; [exact Z1|]. destruct Z2 as [-> | ->]; [reflexivity|apply kept_setid].
    - destruct Hg as (_ & (z & Z1 & Z2) & _ & Hd). split.
      + unfold delivered in Hd. destruct (o_fs s !! pl) as [n0|]; [|destruct Hd as [Hd _]; eauto]. destruct Hd as (d & _ & [(H1 & H2 & _)|(_ & H2 & _)]); eauto.
      + exists z. split; [exact Z1|]. destruct Z2 as [-> | ->]; [reflexivity|apply drop_setid].
  Qed.

  Definition chained (L : list item) : Prop := forall l1 it l2 rel x, L = l1 ++ it :: l2 -> rel_of it = rel ++ [x] -> IDir rel ∈ l1.
  Lemma chained_prefix L : chained L -> forall r2 l1 it l2 r1, L = l1 ++ it :: l2 -> rel_of it = r1 ++ r2 -> r2 <> [] -> IDir r1 ∈ l1.
  Proof.
    intros Hch. induction r2 as [|x r2 IH] using rev_ind; intros l1 it l2 r1 E Er Hn; [contradiction|]. rewrite app_assoc in Er.
    assert (H := Hch l1 it l2 _ _ E Er). destruct (decide (r2 = [])) as [-> |Hr]; [rewrite app_nil_r in H; exact H|].
    apply elem_of_list_split in H as (a & b & ->). rewrite <- app_assoc in E. cbn [app] in E. assert (H := IH a (IDir (r1 ++ r2)) _ r1 E eq_refl Hr). apply elem_of_app. left. exact H.
  Qed.
  Definition at_dir (s : os) (P : place) : Prop := exists n, sees s (path_of ns) P n /\ n_kind n = KDir.
  Definition within (c0 : ctl) (P : place) (l : list item) (c : ctl) : Prop :=
    at_dir (sysof c) P /\ only_files (sysof c0) (sysof c) /\ grows (o_fs (sysof c0)) (o_fs (sysof c)) /\
    (forall q, (forall it, it ∈ l -> q <> rev (rel_of it) ++ P) -> o_fs (sysof c) !! q = o_fs (sysof c0) !! q).
  Definition inv (c0 : ctl) (reqs : list settings) (P : place) (done : list item) (c : ctl) : Prop :=
    c = set_remote (c_remote c) c0 /\ ready c reqs /\ honest (sysof c) /\ within c0 P done c /\
    (forall it, it ∈ done -> exists n, o_fs (sysof c) !! (rev (rel_of it) ++ P) = Some n /\ made it (sysof c0) (c_base c0) reqs n).
  Definition item_ok (it : item) : Prop := Forall file_name (rel_of it) /\ item_small it /\ c_string (item_path it).

  Lemma grows_dir fs fs' P : grows fs fs' -> kind_at fs P = Some KDir -> kind_at fs' P = Some KDir.
  Proof. intros Hg H. apply kind_lookup in H as (n & H & K). apply Hg in H as (n' & H & S). apply kind_lookup. exists n'. split; [exact H|]. unfold shape in S. rewrite K in S. destruct (n_kind n'); congruence. Qed.
  Lemma at_dir_grows s s' P : grows (o_fs s) (o_fs s') -> at_dir s P -> at_dir s' P.
  Proof.
    intros Hg (n & H & K). assert (Hn := H). apply resolve_node_split in Hn as [_ Hn]. destruct (Hg _ _ Hn) as (n' & Hn' & S). exists n'. split; [eapply resolve_node_grows; eassumption|].
    unfold shape in S. rewrite K in S. destruct (n_kind n'); congruence.
  Qed.
  (** A change under the path of an item is a change of its place. *)
  Lemma item_place c0 reqs P L done it l c s' pl n : chained L -> L = done ++ it :: l -> inv c0 reqs P done c -> rel_of it <> [] -> item_ok it ->
    grows (o_fs (sysof c)) (o_fs s') -> sees s' (item_path it) pl n -> pl = rev (rel_of it) ++ P.
  Proof.
    intros Hch EL Hi Hr (I1 & I2 & I3) Hg Hs. destruct Hi as (_ & _ & _ & (Hd & _) & Hm).
    destruct (at_dir_grows _ _ _ Hg Hd) as (m & M1 & M2).
    destruct (rel_of it) as [|x rel _] eqn:Er using rev_ind; [contradiction|]. apply Forall_app in I1 as [N1 N2]. inversion N2; subst.
    apply resolve_node_split in Hs as [Hs _]. unfold item_path in Hs. rewrite Er in Hs.
    rewrite (resolve_at (o_fs s') ns P m rel x) in Hs; auto; [congruence|].
    intros r1 r2 -> Hn1. eapply grows_dir; [exact Hg|]. assert (H : IDir r1 ∈ done).
    { eapply (chained_prefix _ Hch (r2 ++ [x])); [reflexivity|rewrite Er, app_assoc; reflexivity|destruct r2; discriminate]. }
    destruct (Hm _ H) as (k & K1 & attr & _ & _ & K2 & _). apply kind_lookup. exists k. split; [exact K1|exact K2].
  Qed.
  Lemma item_step c0 reqs P L done it l c r c' : chained L -> NoDup (List.map rel_of L) -> L = done ++ it :: l -> inv c0 reqs P done c -> rel_of it <> [] -> item_ok it ->
    operation NotGiven (item_op it) c = (r, c') ->
    within c0 P (done ++ [it]) c' /\
    (forall res, r = Ok res -> inv c0 reqs P (done ++ [it]) c' /\ (or_changed res = false -> unaffected (sysof c) (sysof c')) /\ or_changed res = negb (py_eq (VDict (or_initial res)) (VDict (or_final res)))).
  Proof.
    intros Hch Hnd EL Hi Hr Hok E. assert (Hi' := Hi). destruct Hi' as (Hset & Hrd & Hh & (Hd & Hof & Hg & Hout) & Hm). assert (Hok' := Hok). destruct Hok' as (I1 & I2 & I3).
    destruct (item_any it c r c' reqs I1 I2 I3 Hrd Hh E) as (R1 & R2 & R3 & R4 & R5).
    assert (Hbase : c_base c = c_base c0) by (rewrite Hset; reflexivity).
    assert (Hset' : c' = set_remote (c_remote c') c0) by (rewrite R1 at 1; rewrite Hset; reflexivity).
    assert (Hsit : forall pl n, sits (item_path it) (sysof c) (sysof c') pl n -> item_conf it (sysof c) pl n ->
      grows (o_fs (sysof c)) (o_fs (sysof c')) /\ pl = rev (rel_of it) ++ P).
    { intros pl n S C. assert (G : grows (o_fs (sysof c)) (o_fs (sysof c'))) by (eapply sits_grows; [exact S|]; eapply item_facts; eassumption).
      split; [exact G|]. eapply item_place; try eassumption. apply S. }
    assert (Hw : within c0 P (done ++ [it]) c').
    { destruct R4 as [Hu|(pl & n & S & C)].
      - split; [apply (at_dir_grows (sysof c)); [rewrite (unaffected_fs _ _ Hu); apply grows_refl|exact Hd]|]. split; [eapply only_files_trans; [exact Hof|apply unaffected_only; exact Hu]|].
        rewrite (unaffected_fs _ _ Hu). split; [exact Hg|]. intros q Hq. apply Hout. intros i Hin. apply Hq. apply elem_of_app. left. exact Hin.
      - destruct (Hsit _ _ S C) as [G ->]. split; [eapply at_dir_grows; [exact G|exact Hd]|]. split; [eapply only_files_trans; [exact Hof|eapply sits_only; exact S]|].
        split; [eapply grows_trans; [exact Hg|exact G]|]. intros q Hq. destruct S as (_ & -> & _). rewrite lookup_insert_ne; [|intros <-; apply (Hq it); [apply elem_of_app; right; left|reflexivity]].
        apply Hout. intros i Hin. apply Hq. apply elem_of_app. left. exact Hin. }
    split; [exact Hw|]. intros res Hres. destruct (R5 res Hres) as (attr & x & y & pl & n & F1 & F2 & F3 & F4 & F5 & F6 & F7). split; [|auto].
    destruct (Hsit _ _ F3 F4) as [G ->]. split; [exact Hset'|]. split; [exact R2|]. split; [exact R3|]. split; [exact Hw|]. destruct F3 as (_ & Hfs & _). rewrite Hfs.
    intros i Hin. apply elem_of_app in Hin as [Hin|Hin].
    - rewrite lookup_insert_ne; [apply Hm; exact Hin|]. intros Eq. apply app_inv_tail in Eq. apply (f_equal (@rev _)) in Eq. rewrite !rev_involutive in Eq.
      rewrite EL, List.map_app in Hnd. apply NoDup_app in Hnd as (_ & Hnd & _). apply (Hnd (rel_of i)).
      + apply elem_of_list_fmap. eauto.
      + rewrite <- Eq. left.
    - apply elem_of_list_singleton in Hin as ->. rewrite lookup_insert. exists n. split; [reflexivity|]. rewrite Hbase in F1. eapply item_made; eassumption.
  Qed.

  (** ** All items *)
  Lemma within_more c0 P l l' c : within c0 P l c -> (forall it, it ∈ l -> it ∈ l') -> within c0 P l' c.
  Proof. intros (W1 & W2 & W3 & W4) H. split; [exact W1|]. split; [exact W2|]. split; [exact W3|]. intros q Hq. apply W4. intros it Hin. apply Hq. auto. Qed.
  (** the entries the results add *)
  Definition entries (g : opres -> state) (l : list item) (rs : list opres) : state := zip (item_path <$> l) ((fun r => VDict (g r)) <$> rs).
  Definition honestly (r : opres) : Prop := or_changed r = negb (py_eq (VDict (or_initial r)) (VDict (or_final r))).
  Definition told (l : list item) (o o' : opst) (rs : list opres) : Prop :=
    length rs = length l /\ Forall honestly rs /\
    default [] (op_initial o') = default [] (op_initial o) ++ entries or_initial l rs /\
    default [] (op_final o') = default [] (op_final o) ++ entries or_final l rs.
  Lemma add_told it l o res o1 o' rs c c' : call_ (CAdd (item_path it) res) o c = (Ok (tt, o1), c') -> honestly res -> told l o1 o' rs -> told (it :: l) o o' (res :: rs).
  Proof.
    intros E Hh (T1 & T2 & T3 & T4). apply call_spec in E as (_ & _ & _ & _ & _ & E1 & E2). rewrite E1 in T3. rewrite E2 in T4.
    assert (A : forall x y (z : state), (x ++ [y]) ++ z = x ++ y :: z) by (intros x y z; rewrite <- app_assoc; reflexivity).
    split; [cbn; congruence|]. split; [constructor; assumption|]. split; [rewrite T3; apply A|rewrite T4; apply A].
  Qed.
  Lemma items_any c0 reqs P L : chained L -> NoDup (List.map rel_of L) -> forall l done c o r c', L = done ++ l ->
    (forall it, it ∈ l -> item_ok it /\ rel_of it <> []) -> inv c0 reqs P done c -> do_items l o c = (r, c') ->
    within c0 P L c' /\
    (forall o', r = Ok (tt, o') -> inv c0 reqs P L c' /\ exists rs, told l o o' rs /\ (Forall (fun x => or_changed x = false) rs -> unaffected (sysof c) (sysof c'))).
  Proof.
    intros Hch Hnd. induction l as [|it l IH]; intros done c o r c' EL Hl Hi E.
    - injection E as <- <-. rewrite app_nil_r in EL. subst done. split; [apply Hi|]. intros o' [= <-]. split; [exact Hi|]. exists []. split; [|intros _; apply unaffected_refl].
      split; [reflexivity|]. split; [constructor|]. unfold entries. cbn. rewrite !app_nil_r. auto.
    - destruct (Hl it (elem_of_list_here _ _)) as [Hok Hr]. cbn [do_items] in E. apply obind_spec in E as [(res & o1 & c1 & E1 & E)|(e & E1 & ->)].
      + apply bind_spec in E1 as [(res' & c2 & E1 & E2)|(e & E1 & [=])]. injection E2 as <- <- <-.
        destruct (item_step c0 reqs P L done it l c (Ok res') c2 Hch Hnd EL Hi Hr Hok E1) as [Hw Hs]. destruct (Hs res' eq_refl) as (Hi2 & Hu & Htr).
        assert (EL2 : L = (done ++ [it]) ++ l) by (rewrite <- app_assoc; exact EL).
        apply obind_spec in E as [([] & o2 & c3 & E2 & E)|(e & E2 & ->)].
        * assert (E3 := E2). apply (call_spec (CAdd (item_path it) res')) in E3 as [-> _].
          destruct (IH (done ++ [it]) c2 o2 r c' EL2 (fun i Hin => Hl i (elem_of_list_further _ _ _ Hin)) Hi2 E) as [HwL Hrest]. split; [exact HwL|].
          intros o' Ho. destruct (Hrest o' Ho) as (HiL & rs & T & U). split; [exact HiL|]. exists (res' :: rs). split; [eapply (add_told it l o res' o2 o' rs); [exact E2|exact Htr|exact T]|].
          intros Hf. inversion Hf; subst. eapply unaffected_trans; [apply Hu; assumption|apply U; assumption].
        * assert (c' = c2) as ->.
          { unfold add_nested_result in E2. rewrite getO_bind in E2. destruct (negb (op_nested o)); [injection E2 as _ <-; reflexivity|]. cbv zeta in E2.
            destruct (dhas _ _ || dhas _ _); [injection E2 as _ <-; reflexivity|discriminate]. }
          split; [|discriminate]. eapply within_more; [exact Hw|]. rewrite EL2. intros i Hin. apply elem_of_app. left. exact Hin.
      + apply bind_spec in E1 as [(res' & c2 & E1 & [=])|(e' & E1 & _)].
        destruct (item_step c0 reqs P L done it l c (Err e') c' Hch Hnd EL Hi Hr Hok E1) as [Hw _]. split; [|discriminate].
        eapply within_more; [exact Hw|]. rewrite EL. intros i Hin. apply elem_of_app in Hin as [Hin|Hin]; apply elem_of_app; [left; exact Hin|right; apply elem_of_list_singleton in Hin as ->; left].
  Qed.
  Lemma first_any c0 r c' reqs : item_ok (IDir []) -> ready c0 reqs -> honest (sysof c0) -> operation NotGiven (item_op (IDir [])) c0 = (r, c') ->
    (unaffected (sysof c0) (sysof c') \/ exists P, within c0 P [IDir []] c') /\
    (forall res, r = Ok res -> honestly res /\ (or_changed res = false -> unaffected (sysof c0) (sysof c')) /\ exists P n, sits (path_of ns) (sysof c0) (sysof c') P n /\ inv c0 reqs P [IDir []] c').
  Proof.
    intros (I1 & I2 & I3) Hrd Hh E. destruct (item_any (IDir []) c0 r c' reqs I1 I2 I3 Hrd Hh E) as (R1 & R2 & R3 & R4 & R5).
    assert (Hp : item_path (IDir []) = path_of ns) by (unfold item_path; cbn; rewrite app_nil_r; reflexivity). rewrite Hp in *.
    assert (Hw : forall P n, sits (path_of ns) (sysof c0) (sysof c') P n -> item_conf (IDir []) (sysof c0) P n -> within c0 P [IDir []] c').
    { intros P n S C. split; [exists n; split; [apply S|exact (proj1 C)]|]. split; [eapply sits_only; exact S|].
      split; [eapply sits_grows; [exact S|]; eapply (item_facts (IDir [])); eassumption|]. intros q Hq. destruct S as (_ & -> & _). rewrite lookup_insert_ne; [reflexivity|].
      intros <-. apply (Hq (IDir [])); [left|reflexivity]. }
    split.
    - destruct R4 as [R4|(P & n & S & C)]; [left; exact R4|right; exists P; eauto].
    - intros res Hres. destruct (R5 res Hres) as (attr & x & y & P & n & F1 & F2 & F3 & F4 & F5 & F6 & F7). split; [exact F7|]. split; [exact F6|]. exists P, n. split; [exact F3|].
      split; [exact R1|]. split; [exact R2|]. split; [exact R3|]. split; [eapply Hw; eassumption|]. intros it Hin. apply elem_of_list_singleton in Hin as ->.
      exists n. cbn [rel_of rev app]. assert (F3' := F3). destruct F3' as (_ & -> & _). rewrite lookup_insert. split; [reflexivity|]. eapply item_made; try eassumption. apply only_files_refl.
  Qed.
  Lemma plan_any c0 reqs l o r c' : let L := IDir [] :: l in chained L -> NoDup (List.map rel_of L) -> (forall it, it ∈ L -> item_ok it) -> ready c0 reqs -> honest (sysof c0) ->
    do_items L o c0 = (r, c') ->
    (unaffected (sysof c0) (sysof c') \/ exists P, within c0 P L c') /\
    (forall o', r = Ok (tt, o') -> (exists P, inv c0 reqs P L c') /\ exists rs, told L o o' rs /\ (Forall (fun x => or_changed x = false) rs -> unaffected (sysof c0) (sysof c'))).
  Proof.
    intros L Hch Hnd HL Hrd Hh E. assert (Hne' : forall it, it ∈ l -> rel_of it <> []).
    { intros it Hin En. unfold L in Hnd. cbn [List.map rel_of] in Hnd. apply NoDup_cons in Hnd as [Hnd _]. apply Hnd. rewrite <- En. apply elem_of_list_fmap. eauto. }
    unfold L in E. cbn [do_items] in E. apply obind_spec in E as [(res & o1 & c1 & E1 & E)|(e & E1 & ->)].
    - apply bind_spec in E1 as [(res' & c2 & E1 & E2)|(e & E1 & [=])]. injection E2 as <- <- <-.
      destruct (first_any c0 (Ok res') c2 reqs (HL _ (elem_of_list_here _ _)) Hrd Hh E1) as [_ Hs]. destruct (Hs res' eq_refl) as (Htr & Hu & P & n & _ & Hi).
      apply obind_spec in E as [([] & o2 & c3 & E2 & E)|(e & E2 & ->)].
      + assert (E3 := E2). apply (call_spec (CAdd (item_path (IDir [])) res')) in E3 as [-> _].
        destruct (items_any c0 reqs P L Hch Hnd l [IDir []] c2 o2 r c' eq_refl) as [Hw Hrest]; auto.
        { intros it Hin. split; [apply HL; right; exact Hin|auto]. }
        split; [right; eauto|]. intros o' Ho. destruct (Hrest o' Ho) as (HiL & rs & T & U). split; [eauto|]. exists (res' :: rs). split; [eapply (add_told (IDir []) l o res' o2 o' rs); [exact E2|exact Htr|exact T]|].
        intros Hf. inversion Hf; subst. eapply unaffected_trans; [apply Hu; assumption|apply U; assumption].
      + assert (c' = c2) as ->.
        { unfold add_nested_result in E2. rewrite getO_bind in E2. destruct (negb (op_nested o)); [injection E2 as _ <-; reflexivity|]. cbv zeta in E2.
          destruct (dhas _ _ || dhas _ _); [injection E2 as _ <-; reflexivity|discriminate]. }
        split; [|discriminate]. right. exists P. eapply within_more; [apply Hi|]. intros i Hin. apply elem_of_list_singleton in Hin as ->. left.
    - apply bind_spec in E1 as [(res' & c2 & E1 & [=])|(e' & E1 & _)].
      destruct (first_any c0 (Err e') c' reqs (HL _ (elem_of_list_here _ _)) Hrd Hh E1) as [[H|[P H]] _]; (split; [|discriminate]); [left; exact H|right; exists P].
      eapply within_more; [exact H|]. intros i Hin. apply elem_of_list_singleton in Hin as ->. left.
  Qed.

  (** ** What is reported in sum *)
  Lemma entries_keys g l rs : length rs = length l -> keys (entries g l rs) = item_path <$> l.
  Proof. intros H. unfold keys, entries. apply fst_zip. rewrite !fmap_length. lia. Qed.
  Lemma entries_equal l rs : length rs = length l -> NoDup (item_path <$> l) -> Forall honestly rs ->
    py_eq (VDict (entries or_initial l rs)) (VDict (entries or_final l rs)) = true <-> Forall (fun x => or_changed x = false) rs.
  Proof.
    intros Hlen Hnd Hh. rewrite py_eq_dict. assert (Hl2 : length (entries or_initial l rs) = length (entries or_final l rs)).
    { unfold entries. rewrite !zip_with_length, !fmap_length. reflexivity. }
    rewrite Hl2, Nat.eqb_refl. cbn [andb]. rewrite forallb_forall, !Forall_forall. rewrite Forall_forall in Hh.
    assert (Hin : forall g k v, (k, v) ∈ entries g l rs <-> exists i it x, l !! i = Some it /\ rs !! i = Some x /\ k = item_path it /\ v = VDict (g x)).
    { intros g k v. unfold entries. rewrite elem_of_lookup_zip_with. split.
      - intros (i & a & b & E & H1 & H2). injection E as <- <-. rewrite list_lookup_fmap in H1. rewrite list_lookup_fmap in H2. apply fmap_Some in H1 as (it & H1 & ->). apply fmap_Some in H2 as (x & H2 & ->). eauto 10.
      - intros (i & it & x & H1 & H2 & -> & ->). exists i, (item_path it), (VDict (g x)). rewrite !list_lookup_fmap, H1, H2. auto. }
    assert (Hget : forall i it x, l !! i = Some it -> rs !! i = Some x -> dget (item_path it) (entries or_final l rs) = Some (VDict (or_final x))).
    { intros i it x H1 H2. apply in_dget; [change (NoDup (keys (entries or_final l rs))); rewrite entries_keys by exact Hlen; exact Hnd|]. apply Hin. eauto 10. }
    split.
    - intros H x Hx. apply elem_of_list_lookup in Hx as [i Hi]. destruct (lookup_lt_is_Some_2 l i) as [it Hit]; [apply lookup_lt_Some in Hi; lia|].
      assert (He : (item_path it, VDict (or_initial x)) ∈ entries or_initial l rs) by (apply Hin; eauto 10). apply elem_of_list_In in He. specialize (H _ He). cbn [fst snd] in H.
      rewrite (Hget i it x Hit Hi) in H. rewrite (Hh x); [rewrite H; reflexivity|]. apply elem_of_list_lookup. eauto.
    - intros H [k v] Hkv. apply elem_of_list_In, Hin in Hkv as (i & it & x & H1 & H2 & -> & ->). cbn [fst snd]. rewrite (Hget i it x H1 H2).
      assert (Hx : x ∈ rs) by (apply elem_of_list_lookup; eauto). specialize (H x Hx). specialize (Hh x Hx). unfold honestly in Hh. rewrite H in Hh. destruct (py_eq _ _); [reflexivity|discriminate].
  Qed.

  (** ** If nothing fails *)
  Lemma item_paths_nodup L : (forall it, it ∈ L -> Forall file_name (rel_of it)) -> NoDup (List.map rel_of L) -> NoDup (item_path <$> L).
  Proof.
    induction L as [|it L IH]; intros HL Hnd; [constructor|]. cbn in Hnd |- *. apply NoDup_cons in Hnd as [H1 H2]. apply NoDup_cons. split; [|apply IH; auto; intros i Hi; apply HL; right; exact Hi].
    intros Hin. apply elem_of_list_fmap in Hin as (i & E & Hi). apply H1. apply path_of_inj in E; [|apply Forall_app_2; [exact Hns|apply HL; left]|apply Forall_app_2; [exact Hns|apply HL; right; exact Hi]].
    apply app_inv_head in E. rewrite E. apply elem_of_list_fmap. eauto.
  Qed.
  Lemma item_works it c r c' reqs : item_ok it -> ready c reqs -> healthy c -> hash_ok sha512 -> unaliased (sysof c) -> feasible (sysof c) (c_base c) (reqs ++ [item_q it]) ->
    attainable (item_fits it) (sysof c) (item_path it) -> operation NotGiven (item_op it) c = (r, c') -> exists res, r = Ok res /\ healthy c'.
  Proof.
    intros (I1 & I2 & I3) Hrd Hhl Hha Hun Hfe Hat E. destruct it as [rel|rel b].
    - destruct (C43_directory_works rest sha512 NotGiven c r c' reqs (path_of (ns ++ rel)) false dm owner group Hrd I3 (below_absolute rel) Hhl Hha Hun Hfe Hat E) as (res & _ & _ & _ & -> & _ & H & _). eauto.
    - destruct (C46_works rest sha512 want_diff NotGiven c r c' reqs _ (path_of (ns ++ rel)) b fm owner group (delivers_item rel b I1) Hrd I3 (below_absolute rel) Hhl Hha I2 Hun Hfe Hat E) as (res & _ & _ & _ & -> & _ & H & _). eauto.
  Qed.
  Lemma item_attainable c0 reqs P L done it l c : chained L -> NoDup (List.map rel_of L) -> L = done ++ it :: l -> inv c0 reqs P done c -> rel_of it <> [] -> item_ok it ->
    (forall n, o_fs (sysof c0) !! (rev (rel_of it) ++ P) = Some n -> item_fits it (n_kind n)) -> attainable (item_fits it) (sysof c) (item_path it).
  Proof.
    intros Hch Hnd EL (_ & _ & _ & (Hd & _ & _ & Hout) & Hm) Hr (I1 & _ & _) Hfit. destruct Hd as (m & M1 & M2).
    destruct (rel_of it) as [|x rel _] eqn:Er using rev_ind; [contradiction|]. apply Forall_app in I1 as [N1 N2]. inversion N2 as [|? ? N3 _]; subst.
    assert (Ho : open_to (o_fs (sysof c)) P rel).
    { intros r1 r2 -> Hn1. assert (H : IDir r1 ∈ done).
      { eapply (chained_prefix _ Hch (r2 ++ [x])); [reflexivity|rewrite Er, app_assoc; reflexivity|destruct r2; discriminate]. }
      destruct (Hm _ H) as (k & K1 & attr & _ & _ & K2 & _). apply kind_lookup. exists k. split; [exact K1|exact K2]. }
    assert (Hres := resolve_at (o_fs (sysof c)) ns P m rel x Hns Hne M1 M2 N1 N3 Ho).
    assert (Hsame : o_fs (sysof c) !! (rev (rel ++ [x]) ++ P) = o_fs (sysof c0) !! (rev (rel ++ [x]) ++ P)).
    { apply Hout. intros i Hin Eq. apply app_inv_tail in Eq. apply (f_equal (@rev _)) in Eq. rewrite !rev_involutive in Eq.
      rewrite List.map_app in Hnd. apply NoDup_app in Hnd as (_ & Hnd & _). apply (Hnd (rel_of i)); [apply elem_of_list_fmap; eauto|]. cbn [List.map]. rewrite Er, <- Eq. left. }
    unfold attainable, sees, sees_none, item_path. rewrite Er. unfold resolve_node. rewrite Hres. cbn [mbind]. unfold mbind, result_bind. rewrite Hsame.
    destruct (o_fs (sysof c0) !! (rev (rel ++ [x]) ++ P)) as [n|] eqn:En; [right; exists (rev (rel ++ [x]) ++ P), n; auto|left]. split; [reflexivity|].
    destruct (resolve_at_dir (o_fs (sysof c)) ns P m rel Hns Hne M1 M2 N1 Ho) as (k & K1 & K2).
    exists (path_of (ns ++ rel)), x, (rev rel ++ P), k. split; [rewrite app_assoc; apply path_of_snoc|]. split; [exact N3|]. split; [exact K2|]. right.
    split; [apply below_absolute|]. split; [apply no_trailing; apply Forall_app_2; assumption|exact K1].
  Qed.
  Lemma add_works it res o c : op_nested o = true -> (item_path it ∉ keys (default [] (op_initial o))) -> (item_path it ∉ keys (default [] (op_final o))) ->
    exists o1, add_nested_result (item_path it) res o c = (Ok (tt, o1), c) /\ op_nested o1 = true /\ is_Some (op_initial o1) /\ is_Some (op_final o1) /\
      keys (default [] (op_initial o1)) = keys (default [] (op_initial o)) ++ [item_path it] /\ keys (default [] (op_final o1)) = keys (default [] (op_final o)) ++ [item_path it].
  Proof.
    intros Hn Hi Hf. destruct (add_nested_result (item_path it) res o c) as [[[[] o1]|e] c1] eqn:E.
    - assert (E' := E). apply (call_spec (CAdd (item_path it) res)) in E' as (-> & _ & N1 & _ & _ & N2 & N3). exists o1. rewrite N2, N3. unfold keys. split; [reflexivity|]. split; [exact N1|].
      split; [eauto|]. split; [eauto|]. split; (etransitivity; [apply (fmap_app fst)|reflexivity]).
    - exfalso. apply dget_none in Hi, Hf. unfold add_nested_result in E. rewrite getO_bind, Hn in E. cbn [negb] in E. cbv zeta in E. unfold dhas in E. rewrite Hi, Hf in E. discriminate E.
  Qed.
  Lemma items_work c0 reqs P L : chained L -> NoDup (List.map rel_of L) -> hash_ok sha512 -> unaliased (sysof c0) ->
    (forall it, it ∈ L -> item_ok it /\ feasible (sysof c0) (c_base c0) (reqs ++ [item_q it])) ->
    forall l done c o, L = done ++ l ->
    (forall it, it ∈ l -> rel_of it <> [] /\ forall n, o_fs (sysof c0) !! (rev (rel_of it) ++ P) = Some n -> item_fits it (n_kind n)) ->
    inv c0 reqs P done c -> healthy c -> op_nested o = true -> is_Some (op_initial o) -> is_Some (op_final o) ->
    keys (default [] (op_initial o)) = item_path <$> done -> keys (default [] (op_final o)) = item_path <$> done ->
    exists o' c', do_items l o c = (Ok (tt, o'), c') /\ healthy c' /\ is_Some (op_initial o') /\ is_Some (op_final o').
  Proof.
    intros Hch Hnd Hha Hun HL. assert (Hpaths : NoDup (item_path <$> L)) by (apply item_paths_nodup; [intros it Hin; apply (HL it Hin)|exact Hnd]).
    induction l as [|it l IH]; intros done c o EL Hl Hi Hhl Hn Hsi Hsf Hki Hkf; [exists o, c; auto|].
    destruct (Hl it (elem_of_list_here _ _)) as [Hr Hfit]. assert (HitL : it ∈ L) by (rewrite EL; apply elem_of_app; right; left). destruct (HL it HitL) as [Hok Hfe].
    assert (Hi' := Hi). destruct Hi' as (Hset & Hrd & Hh & (_ & Hof & Hg & _) & _). assert (Hb : c_base c = c_base c0) by (rewrite Hset; reflexivity).
    destruct (operation NotGiven (item_op it) c) as [r c1] eqn:E.
    destruct (item_works it c r c1 reqs Hok Hrd Hhl Hha) as (res & -> & Hhl1); auto.
    { apply (unaliased_files _ _ Hof). exact Hun. }
    { rewrite Hb. eapply feasible_grows; eassumption. }
    { eapply item_attainable; eassumption. }
    destruct (item_step c0 reqs P L done it l c (Ok res) c1 Hch Hnd EL Hi Hr Hok E) as [_ Hs]. destruct (Hs res eq_refl) as (Hi1 & _).
    assert (Hnew : item_path it ∉ item_path <$> done).
    { rewrite EL, fmap_app in Hpaths. apply NoDup_app in Hpaths as (_ & Hp & _). intros Hin. apply (Hp _ Hin). cbn. left. }
    destruct (add_works it res o c1 Hn) as (o1 & A1 & A2 & A3 & A4 & A5 & A6); [rewrite Hki; exact Hnew|rewrite Hkf; exact Hnew|].
    destruct (IH (done ++ [it]) c1 o1) as (o' & c' & D1 & D2); auto.
    { rewrite <- app_assoc. exact EL. }
    { intros i Hin. apply Hl. right. exact Hin. }
    { rewrite A5, Hki, fmap_app. reflexivity. }
    { rewrite A6, Hkf, fmap_app. reflexivity. }
    exists o', c'. split; [|exact D2]. cbn [do_items]. erewrite obind_ok; [|unfold olift, mbind, W_bind; rewrite E; reflexivity]. rewrite (obind_ok _ _ _ _ _ _ _ A1). exact D1.
  Qed.
  Lemma creatable_at fs d x pl n : file_name x -> n_kind n = KDir ->
    (d = [] /\ pl = [] /\ fs !! pl = Some n) \/ (absolute d /\ endswith d (lit "/") = false /\ resolve_node fs [] d true = Ok (pl, n)) ->
    resolve fs [] (d ++ slash :: x) false = Ok (x :: pl).
  Proof.
    intros (X1 & X2 & X3 & X4) Hk Hd. unfold resolve.
    assert (Habs : isabs (d ++ slash :: x) = true).
    { destruct Hd as [[-> _]|[[r ->] _]]; unfold isabs; change (lit "/") with [slash]; cbn; [destruct x; reflexivity|destruct r; reflexivity]. }
    assert (Hd' : has_char nul (d ++ slash :: x) = false).
    { destruct (has_char_spec nul (d ++ slash :: x)) as [Hin|]; [|reflexivity]. exfalso. apply elem_of_app in Hin as [Hin|Hin].
      - destruct Hd as [[-> _]|(_ & _ & Hd)]; [inversion Hin|]. apply resolve_node_split in Hd as [Hd _]. unfold resolve in Hd. destruct (has_char_spec nul d); [discriminate|contradiction].
      - apply elem_of_cons in Hin as [Hin|Hin]; [discriminate|contradiction]. }
    rewrite Hd'. destruct (d ++ slash :: x) as [|y l] eqn:El; [destruct d; discriminate El|]. rewrite <- El in *. rewrite Habs.
    assert (Hend : endswith d (lit "/") = false) by (destruct Hd as [[-> _]|(_ & Hd & _)]; [reflexivity|exact Hd]).
    rewrite (comps_snoc _ _ X2 X1 Hend). destruct Hd as [(-> & -> & Hn)|([rr ->] & _ & Hd)].
    - cbn. exact (Steps.walk_into fs false [] x X4 (or_intror eq_refl) max_links [] [] n eq_refl Hn Hk).
    - apply resolve_node_split in Hd as [Hd Hn]. unfold resolve in Hd. destruct (has_char nul (slash :: rr)); [discriminate|].
      assert (Hia : isabs (slash :: rr) = true) by (destruct rr; reflexivity). rewrite Hia in Hd. eapply Steps.walk_into; try eassumption. right. reflexivity.
  Qed.
  (** the place of the top is known beforehand *)
  Lemma top_place s s' k P n : attainable k s (path_of ns) -> grows (o_fs s) (o_fs s') -> sees s' (path_of ns) P n -> resolve (o_fs s) [] (path_of ns) false = Ok P.
  Proof.
    intros Hat Hg Hs. apply resolve_node_split in Hs as [Hs _]. destruct Hat as [[_ (d & x & pl & m & E & Hx & Hk & Hd)]|(pl & m & Hr & _)].
    - rewrite E in *. rewrite (creatable_at _ d x pl m Hx Hk Hd). f_equal.
      assert (H : exists m', n_kind m' = KDir /\ ((d = [] /\ pl = [] /\ o_fs s' !! pl = Some m') \/ (absolute d /\ endswith d (lit "/") = false /\ resolve_node (o_fs s') [] d true = Ok (pl, m')))).
      { assert (Hpl : o_fs s !! pl = Some m) by (destruct Hd as [(_ & _ & H)|(_ & _ & H)]; [exact H|apply resolve_node_split in H; apply H]).
        destruct (Hg _ _ Hpl) as (m' & M1 & M2). exists m'. split; [unfold shape in M2; rewrite Hk in M2; destruct (n_kind m'); congruence|].
        destruct Hd as [(D1 & D2 & D3)|(D1 & D2 & D3)]; [left; auto|right]. split; [exact D1|]. split; [exact D2|]. eapply resolve_node_grows; eassumption. }
      destruct H as (m' & M1 & M2). rewrite (creatable_at _ d x pl m' Hx M1 M2) in Hs. congruence.
    - apply resolve_node_split in Hr as [Hr Hm]. rewrite Hr. f_equal. rewrite (resolve_grows _ _ _ _ _ pl Hg Hr) in Hs; congruence.
  Qed.
  Lemma plan_works c0 reqs l o : let L := IDir [] :: l in chained L -> NoDup (List.map rel_of L) -> hash_ok sha512 -> unaliased (sysof c0) ->
    (forall it, it ∈ L -> item_ok it /\ feasible (sysof c0) (c_base c0) (reqs ++ [item_q it])) -> ready c0 reqs -> healthy c0 ->
    attainable (fun k => k = KDir) (sysof c0) (path_of ns) ->
    (forall P it n, resolve (o_fs (sysof c0)) [] (path_of ns) false = Ok P -> it ∈ l -> o_fs (sysof c0) !! (rev (rel_of it) ++ P) = Some n -> item_fits it (n_kind n)) ->
    op_nested o = true -> op_initial o = None -> op_final o = None ->
    exists o' c', do_items L o c0 = (Ok (tt, o'), c') /\ healthy c' /\ is_Some (op_initial o') /\ is_Some (op_final o').
  Proof.
    intros L Hch Hnd Hha Hun HL Hrd Hhl Hat Hfit Hn Hoi Hof. assert (Hne' : forall it, it ∈ l -> rel_of it <> []).
    { intros it Hin En. unfold L in Hnd. cbn [List.map rel_of] in Hnd. apply NoDup_cons in Hnd as [Hnd' _]. apply Hnd'. rewrite <- En. apply elem_of_list_fmap. eauto. }
    assert (Hh : honest (sysof c0)) by (intros k Hk; destruct Hhl as (_ & Hf & _); rewrite Hf in Hk; inversion Hk).
    destruct (HL (IDir []) (elem_of_list_here _ _)) as [Hok Hfe]. assert (Hp : item_path (IDir []) = path_of ns) by (unfold item_path; cbn; rewrite app_nil_r; reflexivity).
    destruct (operation NotGiven (item_op (IDir [])) c0) as [r c1] eqn:E.
    destruct (item_works (IDir []) c0 r c1 reqs Hok Hrd Hhl Hha Hun Hfe) as (res & -> & Hhl1); [rewrite Hp; exact Hat|exact E|].
    destruct (first_any c0 (Ok res) c1 reqs Hok Hrd Hh E) as [_ Hs]. destruct (Hs res eq_refl) as (_ & _ & P & n & Hsit & Hi).
    assert (HP : resolve (o_fs (sysof c0)) [] (path_of ns) false = Ok P) by (eapply top_place; [exact Hat|apply Hi|apply Hsit]).
    destruct (add_works (IDir []) res o c1 Hn) as (o1 & A1 & A2 & A3 & A4 & A5 & A6); [rewrite Hoi; apply not_elem_of_nil|rewrite Hof; apply not_elem_of_nil|]. rewrite Hoi in A5. rewrite Hof in A6.
    destruct (items_work c0 reqs P L Hch Hnd Hha Hun HL l [IDir []] c1 o1) as (o' & c' & D1 & D2); auto.
    { intros it Hin. split; [auto|]. intros m Hm. eapply Hfit; eassumption. }
    exists o', c'. split; [|exact D2]. unfold L. cbn [do_items]. erewrite obind_ok; [|unfold olift, mbind, W_bind; rewrite E; reflexivity]. rewrite (obind_ok _ _ _ _ _ _ _ A1). exact D1.
  Qed.

  (** ** The operation carries out the plan *)
  Lemma obind_ext {A B} (m m' : O A) (f f' : A -> O B) : (forall o c, m o c = m' o c) -> (forall a o c, f a o c = f' a o c) -> forall o c, (m ≫= f) o c = (m' ≫= f') o c.
  Proof. intros H1 H2 o c. unfold mbind, O_bind. unfold mbind, W_bind. rewrite H1. destruct (m' o c) as [[[a o1]|e] c1]; [apply H2|reflexivity]. Qed.
  Lemma obind_assoc {A B C} (m : O A) (f : A -> O B) (g : B -> O C) o c : ((m ≫= f) ≫= g) o c = (m ≫= fun a => f a ≫= g) o c.
  Proof. unfold mbind, O_bind. unfold mbind, W_bind. destruct (m o c) as [[[a o1]|e] c1]; reflexivity. Qed.
  Lemma do_items_app a b : forall o c, do_items (a ++ b) o c = (_ ← do_items a; do_items b) o c.
  Proof.
    induction a as [|it a IH]; intros o c; [reflexivity|]. cbn [app do_items]. rewrite obind_assoc. apply obind_ext; [reflexivity|]. intros r o1 c1. rewrite obind_assoc.
    apply obind_ext; [reflexivity|]. intros [] o2 c2. apply IH.
  Qed.
  Lemma nested_dirs_items rels : forall o c, nested_dirs exec sha512 false dm owner group (List.map (fun rel => path_of (ns ++ rel)) rels) o c = do_items (List.map IDir rels) o c.
  Proof.
    induction rels as [|rel rels IH]; intros o c; [reflexivity|]. cbn [List.map nested_dirs do_items]. apply obind_ext; [reflexivity|]. intros r o1 c1. apply obind_ext; [reflexivity|]. intros [] o2 c2. apply IH.
  Qed.
  Lemma nested_files_items l : forall o c, nested_files exec sha512 false want_diff fm owner group (List.map (fun x => (last_name (fst x), snd x, path_of (ns ++ fst x))) l) o c = do_items (file_items l) o c.
  Proof.
    induction l as [|[rel b] l IH]; intros o c; [reflexivity|]. cbn [List.map nested_files fst snd]. destruct b as [b|].
    - change (file_items ((rel, Some b) :: l)) with (IFile rel b :: file_items l). cbn [do_items]. rewrite obind_assoc. apply obind_ext; [reflexivity|]. intros r o1 c1. apply obind_ext; [reflexivity|]. intros [] o2 c2. apply IH.
    - exact (IH o c).
  Qed.
  Definition upload_items (t : ltree) : O opres := _ ← nested true; _ ← do_items (plan t); success.
  Lemma upload_plan t src dest : is_dir t -> tree_ok t -> absolute dest -> lands src dest (path_of ns) -> forall o c,
    upload_dir exec sha512 false want_diff (Some t) src dest dm fm owner group o c = upload_items t o c.
  Proof.
    intros [es Hes] Ht Hab Hl o c. unfold upload_dir, upload_items. apply obind_ext; [reflexivity|]. clear o c. intros [] o c. rewrite Hes. rewrite <- Hes.
    assert (Hc : forall o c, olift (check_absolute_path dest) o c = (Ok (tt, o), c)).
    { intros o' c'. unfold olift. apply absolute_isabs in Hab. destruct (check_path dest c') as [[_ Hc]|[Hf _]]; [|congruence]. unfold mbind, W_bind. rewrite Hc. reflexivity. }
    rewrite (obind_ok _ _ _ _ _ _ _ (Hc o c)). cbv zeta. rewrite (lands_into _ _ _ Hl). unfold plan.
    change (IDir [] :: List.map IDir (rdirs [] t) ++ file_items (rfiles [] t)) with (List.map IDir ([] :: rdirs [] t) ++ file_items (rfiles [] t)).
    assert (Hd : path_of ns :: walk_dirs (path_of ns) [] t = List.map (fun rel => path_of (ns ++ rel)) ([] :: rdirs [] t)).
    { cbn [List.map]. rewrite app_nil_r. f_equal. apply (walk_dirs_rel ns t Hns Hne Ht []). constructor. }
    assert (Hf := walk_files_rel ns t Hns Hne Ht [] (Forall_nil_2 _)). change (joined []) with ([] : pystr) in Hf.
    rewrite Hd, Hf.
    transitivity ((_ ← (_ ← do_items (List.map IDir ([] :: rdirs [] t)); do_items (file_items (rfiles [] t))); success) o c).
    - rewrite obind_assoc. apply obind_ext; [intros; apply nested_dirs_items|]. intros [] o1 c1. apply obind_ext; [intros; apply nested_files_items|reflexivity].
    - apply obind_ext; [intros o1 c1; symmetry; apply do_items_app|reflexivity].
  Qed.
End run.
Definition covered (t : ltree) (it : item) : Prop := match it with IDir rel => exists sub, inside t rel sub /\ dir_like sub | IFile rel b => exists sub, inside t rel sub /\ file_like sub b end.
Lemma file_items_in l rel b : IFile rel b ∈ file_items l <-> (rel, Some b) ∈ l.
Proof.
  unfold file_items. rewrite elem_of_list_omap. split.
  - intros ([r o] & Hin & E). cbn in E. destruct o as [b'|]; [|discriminate]. injection E as -> ->. exact Hin.
  - intros H. exists (rel, Some b). auto.
Qed.
Lemma file_items_no_dir l rel : IDir rel ∉ file_items l.
Proof. unfold file_items. rewrite elem_of_list_omap. intros ([r [b|]] & _ & [=]). Qed.
Lemma plan_in t it : is_dir t -> it ∈ plan t <-> covered t it.
Proof.
  intros [es Hes]. unfold plan. rewrite elem_of_cons, elem_of_app. destruct it as [rel|rel b]; cbn [covered].
  - split.
    + intros [[= ->]|[H|H]]; [exists t; split; [constructor|left; exists es; exact Hes]| |destruct (file_items_no_dir _ _ H)].
      apply elem_of_list_In, in_map_iff in H as (r & [= ->] & H). apply elem_of_list_In, rdirs_in in H as (r & sub & -> & _ & H1 & H2). apply l_isdir_like in H2. eauto.
    + intros (sub & H1 & H2). destruct rel as [|x rel]; [left; reflexivity|]. right. left. apply elem_of_list_In, in_map_iff. exists (x :: rel). split; [reflexivity|].
      apply elem_of_list_In, rdirs_in. exists (x :: rel), sub. split; [reflexivity|]. split; [discriminate|]. split; [exact H1|]. apply l_isdir_like. exact H2.
  - rewrite file_items_in, rfiles_in. split.
    + intros [[=]|[H|(r & sub & -> & _ & H1 & _ & H2)]]; [apply elem_of_list_In, in_map_iff in H as (r & [=] & _)|]. exists sub. split; [exact H1|]. apply l_content_like. congruence.
    + intros (sub & H1 & H2). right. right. exists rel, sub. split; [reflexivity|]. split.
      * intros ->. inversion H1; subst. destruct H2; discriminate.
      * split; [exact H1|]. split; [destruct H2 as [-> | ->]; reflexivity|]. symmetry. apply l_content_like. exact H2.
Qed.
Lemma plan_chained t : chained (plan t).
Proof.
  intros l1 it l2 rel x E Er. unfold plan in E. destruct l1 as [|i l1]; [injection E as <- _; destruct rel; discriminate Er|]. injection E as <- E.
  assert (Hd : forall l1 l2, rdirs [] t = l1 ++ (rel ++ [x]) :: l2 -> IDir rel ∈ IDir [] :: List.map IDir l1).
  { intros k1 k2 Ek. apply (rdirs_ordered t [] k1 rel x k2) in Ek as [-> |H]; [left|right]. apply elem_of_list_fmap. eauto. }
  symmetry in E. apply app_eq_app in E as (l & Hcase). apply or_comm in Hcase. destruct Hcase as [[E1 E2]|[E1 E2]].
  - destruct l as [|i l].
    + rewrite app_nil_r in E1. cbn [app] in E2. assert (Hin : it ∈ file_items (rfiles [] t)) by (rewrite <- E2; left).
      destruct it as [r|r b]; [destruct (file_items_no_dir _ _ Hin)|]. cbn in Er. subst r. apply file_items_in, rfiles_in in Hin as (r & sub & Er & Hr & H1 & _). cbn [app] in Er. subst r.
      apply inside_parent in H1 as (es & H1 & _). rewrite <- E1. destruct rel as [|y rel]; [left|right]. apply elem_of_list_fmap. exists (y :: rel). split; [reflexivity|].
      apply rdirs_in. exists (y :: rel), (LDir es). split; [reflexivity|]. split; [discriminate|]. split; [exact H1|reflexivity].
    + injection E2 as <- E2. apply map_eq_app in E1 as (k1 & k2 & Ek & <- & Ek2). destruct k2 as [|r k2]; [discriminate|]. injection Ek2 as <- _. cbn in Er. subst r.
      apply (Hd k1 k2 Ek).
  - assert (Hin : it ∈ file_items (rfiles [] t)) by (rewrite E2; apply elem_of_app; right; left).
    destruct it as [r|r b]; [destruct (file_items_no_dir _ _ Hin)|]. cbn in Er. subst r. apply file_items_in, rfiles_in in Hin as (r & sub & Er & Hr & H1 & _). cbn [app] in Er. subst r.
    apply inside_parent in H1 as (es & H1 & _). rewrite E1. destruct rel as [|y rel]; [left|right]. apply elem_of_app. left. apply elem_of_list_fmap. exists (y :: rel). split; [reflexivity|].
    apply rdirs_in. exists (y :: rel), (LDir es). split; [reflexivity|]. split; [discriminate|]. split; [exact H1|reflexivity].
Qed.
Lemma plan_nodup t : tree_ok t -> NoDup (List.map rel_of (plan t)).
Proof.
  intros Ht. unfold plan. cbn [List.map rel_of]. rewrite List.map_app, List.map_map. cbn [rel_of]. rewrite List.map_id.
  assert (Hf : forall rel, rel ∈ List.map rel_of (file_items (rfiles [] t)) -> exists b, (rel, Some b) ∈ rfiles [] t).
  { intros rel H. apply elem_of_list_In, in_map_iff in H as (it & <- & H). apply elem_of_list_In in H. destruct it as [r|r b]; [destruct (file_items_no_dir _ _ H)|]. apply file_items_in in H. eauto. }
  apply NoDup_cons. split.
  - intros H. apply elem_of_app in H as [H|H].
    + apply rdirs_in in H as (r & sub & E & Hr & _). destruct r; [contradiction|discriminate].
    + apply Hf in H as [b H]. apply rfiles_in in H as (r & sub & E & Hr & _). destruct r; [contradiction|discriminate].
  - apply NoDup_app. split; [apply rdirs_nodup; exact Ht|]. split.
    + intros rel H1 H2. apply rdirs_in in H1 as (r & sub & -> & _ & H1 & D1). apply Hf in H2 as [b H2]. apply rfiles_in in H2 as (r' & sub' & E & _ & H2 & D2 & _). cbn in E. subst r'.
      rewrite (inside_unique t r sub Ht H1 sub' H2) in D2. congruence.
    + assert (H := rfiles_nodup t Ht []). generalize dependent (rfiles [] t). intros l _. induction l as [|[r o] l IH]; intros H; [constructor|]. cbn in H. apply NoDup_cons in H as [H1 H2].
      destruct o as [b|]; [|exact (IH H2)]. change (NoDup (r :: List.map rel_of (file_items l))). apply NoDup_cons. split; [|exact (IH H2)]. intros Hin. apply H1.
      apply elem_of_list_In, in_map_iff in Hin as (it & <- & Hin). apply elem_of_list_In in Hin. destruct it as [r'|r' b']; [destruct (file_items_no_dir _ _ Hin)|]. apply file_items_in in Hin.
      apply elem_of_list_fmap. exists (r', Some b'). auto.
Qed.
