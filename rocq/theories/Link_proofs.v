(** Symbolic links: the body of the operation. *)
From Coq Require Import Lia ZifyBool ZifyN ZifyNat.
From stdpp Require Import gmap.
From Verif Require Import Base Utf8 Utf8_proofs Dict_proofs Digits Codec Spec_Codec Codec_proofs Codec_proofs2 Paths Sys Spec_Sys Sys_proofs Dispatcher Client Spec_Session Session_proofs Spec_Remote
  Remote_safe Remote_proofs Remote_upload Remote_run Direct Control Spec_Control Control_proofs Control_settle Quiet Thrift Op Op_proofs Files Coreutils Walk_proofs Spec_Files Shell_proofs Files_plain Steps
  Dir_proofs Converge Spec_Link Link_walk.
Local Open Scope nat_scope.

(** ** ln *)
Definition new_link (p : proc) (s : os) (pl : place) (target : pystr) : node := Node (KLink target) 511 (p_uid p) (new_gid p s pl) (o_now s) (o_now s).
Definition a_link (n : node) : Prop := exists t, n_kind n = KLink t.
(** nothing is there, or a link *)
Definition linkable (s : os) (path : pystr) : Prop :=
  resolve_node (o_fs s) [] path false = Err (oserr ENOENT) \/ exists pl n, resolve_node (o_fs s) [] path false = Ok (pl, n) /\ a_link n.
Lemma do_ln_at p target path s s1 y s' : isabs path = true -> tree (o_fs s) -> ~ enterable (o_fs s) path -> linkable s path -> unaffected s s1 ->
  do_ln p target path s1 = (y, s') ->
  match y with
  | Ok _ => exists pl, ((o_fs s !! pl = None /\ resolve_node (o_fs s) [] path false = Err (oserr ENOENT)) \/ exists n t, resolve_node (o_fs s) [] path false = Ok (pl, n) /\ n_kind n = KLink t /\ blind (o_fs s) pl t) /\
              sits path s s' pl (new_link p s pl target)
  | Err _ => unaffected s s'
  end.
Proof.
  intros Ha Ht Hno Hex Hu E. unfold do_ln in E.
  apply syscall_quiet in E as (s2 & Hu2 & [(k & -> & ->)|E]); [eapply unaffected_trans; eassumption|].
  assert (Hu3 := unaffected_trans _ _ _ Hu Hu2). cbv zeta in E. rewrite (unaffected_fs _ _ Hu3) in E.
  assert (Hdest : match resolve_node (o_fs s) (p_cwd p) path true with Ok (_, n) => match n_kind n with KDir => path_join path (basename target) | _ => path end | Err _ => path end = path).
  { destruct (resolve_node (o_fs s) (p_cwd p) path true) as [[pl n]|e] eqn:Er; [|reflexivity]. destruct (n_kind n) eqn:K; try reflexivity. destruct Hno.
    rewrite (isabs_cwd_node _ _ [] _ _ Ha) in Er. eapply enterable_dir; [apply resolve_node_names; exact Er|exact K]. }
  rewrite Hdest, (isabs_cwd _ _ [] _ _ Ha) in E. destruct (resolve (o_fs s) [] path false) as [pl|e] eqn:Er; [|injection E as <- <-; exact Hu3].
  assert (Hnew : new_link p s2 pl target = new_link p s pl target).
  { unfold new_link, new_gid, dir_sgid. rewrite (unaffected_fs _ _ Hu3), (unaffected_now _ _ Hu3). reflexivity. }
  assert (Hgo : forall P : Prop, (P -> resolve_node (<[pl := new_link p s pl target]> (o_fs s)) [] path false = Ok (pl, new_link p s pl target)) -> P ->
     sits path s (set_fs (<[pl := new_link p s pl target]> (o_fs s)) s2) pl (new_link p s pl target)).
  { intros P HP H. split_and!.
    - eapply only_files_trans; [apply unaffected_only; exact Hu3|apply only_files_set].
    - reflexivity.
    - apply HP, H. }
  change (Node (KLink target) 511 (p_uid p) (new_gid p s2 pl) (o_now s2) (o_now s2)) with (new_link p s2 pl target) in E. rewrite Hnew in E.
  destruct (o_fs s !! pl) as [n|] eqn:En; cbn [fmap option_fmap option_map] in E.
  - assert (Hr : resolve_node (o_fs s) [] path false = Ok (pl, n)) by (apply resolve_node_split; auto).
    destruct Hex as [Hex|(pl' & n' & Hr' & t & K)]; [congruence|]. rewrite Hr in Hr'. injection Hr' as <- <-. rewrite K in E. injection E as <- <-.
    assert (Hb : blind (o_fs s) pl t) by (eapply not_enterable_blind; [exact Ht|apply resolve_node_names; exact Hr|exact K|exact Hno]).
    exists pl. split; [right; exists n, t; auto|]. apply (Hgo True); [|exact I]. intros _.
    assert (H := resolve_replace (o_fs s) pl n t (new_link p s pl target) target false [] path pl n En K eq_refl Hb Hr (or_introl (conj eq_refl eq_refl))).
    rewrite decide_True in H by reflexivity. exact H.
  - injection E as <- <-. exists pl. split; [left; split; [exact En|unfold resolve_node; rewrite Er; cbn; rewrite En; reflexivity]|]. apply (Hgo True); [|exact I]. intros _. apply resolve_create_link; assumption.
Qed.

(** ** Paths that do not go astray *)
Definition steady (fs fs' : fsys) : Prop := forall cwd p f q m, resolve_node fs cwd p f = Ok (q, m) -> n_kind m = KDir ->
  exists m', resolve_node fs' cwd p f = Ok (q, m') /\ n_kind m' = KDir.
Lemma steady_grows fs fs' : grows fs fs' -> steady fs fs'.
Proof.
  intros Hg cwd p f q m H K. assert (Hn := H). apply resolve_node_split in Hn as [_ Hn]. destruct (Hg _ _ Hn) as (n' & Hn' & Hs). exists n'.
  split; [eapply resolve_node_grows; eassumption|]. unfold shape in Hs. rewrite K in Hs. destruct (n_kind n'); congruence.
Qed.
Lemma steady_replace fs pl n t n' t' : fs !! pl = Some n -> n_kind n = KLink t -> n_kind n' = KLink t' -> blind fs pl t -> steady fs (<[pl := n']> fs).
Proof.
  intros H1 H2 H3 H4 cwd p f q m H5 H6. exists m. split; [|exact H6].
  assert (H := resolve_replace fs pl n t n' t' f cwd p q m H1 H2 H3 H4 H5 (or_intror H6)). rewrite H. destruct (decide (q = pl)) as [-> |Hq]; [|reflexivity].
  apply resolve_node_split in H5 as [_ H5]. congruence.
Qed.
Lemma runnable_steady s s' d : only_files s s' -> steady (o_fs s) (o_fs s') -> runnable s d -> runnable s' d.
Proof.
  intros Ho Hg (R1 & R2 & R3 & R4). unfold runnable, denotes_user, denotes_group.
  rewrite (only_files_passwd _ _ Ho), (only_files_group _ _ Ho), (only_files_cwd _ _ Ho).
  split; [exact R1|]. split; [exact R2|]. split; [exact R3|].
  destruct (s_cwd d) as [w|]; [|exact I]. destruct R4 as (W1 & W2 & pl & n & W3 & W4). split; [exact W1|]. split; [exact W2|].
  destruct (Hg _ _ _ _ _ W3 W4) as (n' & H1 & H2). eauto.
Qed.
Lemma fine_steady c c' : fine c -> c' = set_remote (c_remote c') c -> r_link (c_remote c') = Up -> o_faults (sysof c') = [] ->
  only_files (sysof c) (sysof c') -> steady (o_fs (sysof c)) (o_fs (sysof c')) -> fine c'.
Proof.
  intros ((_ & _ & H3) & d & Ha & Hr) Hc Hl Hf Ho Hg. split.
  - split_and!; auto. rewrite (only_files_uid _ _ Ho). exact H3.
  - exists d. split; [rewrite Hc; exact Ha|]. eapply runnable_steady; eassumption.
Qed.
Lemma feasible_steady s s' base reqs : only_files s s' -> steady (o_fs s) (o_fs s') -> feasible s base reqs -> feasible s' base reqs.
Proof.
  intros Ho Hg (F1 & F2 & F3 & F4 & F5 & F6 & F7 & F8). rewrite Ho. split_and!; auto. cbn [o_fs o_cwd set_faults set_fs].
  destruct (wanted s_cwd base reqs) as [w|]; [|exact I]. destruct F8 as (W1 & W2 & pl & n & W3 & W4). split; [exact W1|]. split; [exact W2|].
  destruct (Hg _ _ _ _ _ W3 W4) as (n' & H1 & H2). eauto.
Qed.

(** what may be at a place where a link was asked for *)
Definition link_conf (s : os) (path target : pystr) (pl : place) (n : node) : Prop :=
  match o_fs s !! pl with
  | None => n_kind n = KLink target
  | Some n0 => resolve_node (o_fs s) [] path false = Ok (pl, n0) /\ exists t, n_kind n0 = KLink t /\ (n_kind n = KLink t \/ (n_kind n = KLink target /\ t <> target /\ blind (o_fs s) pl t))
  end.
Lemma link_conf_steady path s s' target pl n : sits path s s' pl n -> link_conf s path target pl n -> steady (o_fs s) (o_fs s').
Proof.
  intros (_ & -> & _) H. unfold link_conf in H. destruct (o_fs s !! pl) as [n0|] eqn:E.
  - destruct H as (_ & t & K0 & [K|(K & _ & Hb)]).
    + apply steady_grows, grows_insert. intros m Hm. unfold shape. assert (m = n0) as -> by congruence. rewrite K, K0. reflexivity.
    + eapply steady_replace; eassumption.
  - apply steady_grows, grows_insert. intros m Hm. congruence.
Qed.

Section link.
  Variable rest : proc -> M xres.
  Variable sha512 : bytes -> bytes.
  Notation exec := (coreutils rest).
  Lemma run_readlink path : forall p, p_argv p = [lit "readlink"; lit "-n"; path] -> exec p = prints (do_readlink p path).
  Proof. intros p Hp. unfold coreutils. rewrite Hp. reflexivity. Qed.

  Lemma ln_step path target c r c' : isabs path = true -> tree (o_fs (sysof c)) -> ~ enterable (o_fs (sysof c)) path -> linkable (sysof c) path ->
    sh exec sha512 [lit "ln"; lit "-sf"; lit "--"; target; path] c = (r, c') ->
    c' = set_remote (c_remote c') c /\
    ((unaffected (sysof c) (sysof c') /\ exists e, r = Err e) \/
     ((r = Ok tt \/ exists e, r = Err e) /\ exists pl p, sits path (sysof c) (sysof c') pl (new_link p (sysof c) pl target) /\
        ((o_fs (sysof c) !! pl = None /\ resolve_node (o_fs (sysof c)) [] path false = Err (oserr ENOENT)) \/ exists n t, resolve_node (o_fs (sysof c)) [] path false = Ok (pl, n) /\ n_kind n = KLink t /\ blind (o_fs (sysof c)) pl t))) /\
    (fine c -> c_string path -> c_string target -> (resolve_node (o_fs (sysof c)) [] path false = Err (oserr ENOENT) -> creatable (sysof c) path) -> r = Ok tt /\ fine c').
  Proof.
    intros Ha Ht Hno Hex E. destruct (sh_any exec sha512 _ _ c r c' (run_ln rest target path) E) as [H1 H2].
    assert (H3 : (unaffected (sysof c) (sysof c') /\ exists e, r = Err e) \/
     ((r = Ok tt \/ exists e, r = Err e) /\ exists pl p, sits path (sysof c) (sysof c') pl (new_link p (sysof c) pl target) /\
        ((o_fs (sysof c) !! pl = None /\ resolve_node (o_fs (sysof c)) [] path false = Err (oserr ENOENT)) \/ exists n t, resolve_node (o_fs (sysof c)) [] path false = Ok (pl, n) /\ n_kind n = KLink t /\ blind (o_fs (sysof c)) pl t))).
    { destruct H2 as [H2|(p & s1 & y & F1 & F2 & F3 & F4)]; [left; exact H2|].
      assert (H := do_ln_at p target path (sysof c) s1 y (sysof c') Ha Ht Hno Hex F2 F3). destruct y as [u|e].
      - right. split; [exact F4|]. destruct H as (pl & G1 & G2). exists pl, p. auto.
      - left. split; [exact H|destruct F4; assumption]. }
    split; [exact H1|]. split; [exact H3|]. intros Hf Hp Htg Hcr.
    destruct (sh_fine exec sha512 _ _ c r c' (run_ln rest target path) E Hf) as (p & y & F1 & F2 & F3 & F4); [discriminate|reflexivity|words|].
    assert (Hfl : o_faults (sysof c) = []) by apply Hf.
    assert (Hy : y = Ok tt /\ o_faults (sysof c') = []).
    { unfold do_ln in F2. rewrite syscall_calm in F2 by exact Hfl. cbv zeta in F2.
      assert (Hdest : match resolve_node (o_fs (sysof c)) (p_cwd p) path true with Ok (_, n) => match n_kind n with KDir => path_join path (basename target) | _ => path end | Err _ => path end = path).
      { destruct (resolve_node (o_fs (sysof c)) (p_cwd p) path true) as [[pl n]|e] eqn:Er; [|reflexivity]. destruct (n_kind n) eqn:K; try reflexivity. destruct Hno.
        rewrite (isabs_cwd_node _ _ [] _ _ Ha) in Er. eapply enterable_dir; [apply resolve_node_names; exact Er|exact K]. }
      rewrite Hdest, (isabs_cwd _ _ [] _ _ Ha) in F2. destruct Hex as [Hex|(pl & n & Hr & t & K)].
      - destruct (creatable_resolve _ _ (Hcr Hex) Hex) as (pl & G1 & _ & _ & G4). rewrite G4, G1 in F2. cbn in F2. injection F2 as <- Hs. split; [reflexivity|]. rewrite <- Hs. exact Hfl.
      - apply resolve_node_split in Hr as [Hr1 Hr2]. rewrite Hr1, Hr2 in F2. cbn in F2. rewrite K in F2. injection F2 as <- Hs. split; [reflexivity|]. rewrite <- Hs. exact Hfl. }
    destruct Hy as [-> Hfl']. split; [exact F4|]. destruct H3 as [[_ [e He]]|(_ & pl & p' & S1 & S2)]; [congruence|].
    eapply fine_steady; [exact Hf|exact H1|exact F3|exact Hfl'|eapply sits_only; exact S1|]. assert (S1' := S1). destruct S1' as (_ & -> & _). destruct S2 as [[S2 _]|(n & t & S3 & S4 & S5)].
    - apply steady_grows, grows_insert. congruence.
    - apply resolve_node_split in S3 as [_ S3]. eapply steady_replace; [exact S3|exact S4|reflexivity|exact S5].
  Qed.

  (** reading where a link leads *)
  Lemma encode_esc_ok t b : utf8_encode t = Some b -> utf8_encode_esc t = Some b.
  Proof.
    unfold utf8_encode, utf8_encode_esc. revert b. induction t as [|x t IH]; intros b; cbn [enc_with]; [auto|].
    destruct (enc_cp x) as [u|] eqn:E; [|discriminate]. destruct (enc_with enc_cp t) as [v|]; [|discriminate]. rewrite (IH _ eq_refl).
    intros H. unfold enc_cp_esc. destruct ((56448 <=? x)%N && (x <=? 56575)%N) eqn:Ex; [|rewrite E; exact H].
    exfalso. unfold enc_cp in E. repeat match type of E with (if ?d then _ else _) = _ => destruct d eqn:?; try lia; try discriminate E end.
  Qed.
  Lemma readlink_step path c r c' pl n t : isabs path = true -> crun exec sha512 [lit "readlink"; lit "-n"; path] c = (r, c') ->
    resolve_node (o_fs (sysof c)) [] path false = Ok (pl, n) -> n_kind n = KLink t -> short t ->
    c' = set_remote (c_remote c') c /\ unaffected (sysof c) (sysof c') /\
    (forall z, r = Ok z -> decoded (cr_stdout z) = mret t) /\ (fine c -> c_string path -> (exists z, r = Ok z) /\ c' = c).
  Proof.
    intros Ha E Hr K [Ht1 Ht2]. destruct (encode_ok _ Ht1) as [b Hb]. assert (Hb' := encode_esc_ok _ _ Hb).
    assert (Hbl : small b) by (destruct (encode_some _ _ Hb) as [? ?]; unfold small; lia).
    assert (Hdo : forall p s1 x s', unaffected (sysof c) s1 -> do_readlink p path s1 = (x, s') -> unaffected (sysof c) s' /\ (forall o, x = Ok o -> o = b) /\ (o_faults s1 = [] -> x = Ok b /\ s' = s1)).
    { intros p s1 x s' Hu E1. unfold do_readlink in E1. assert (Hf1 : (match resolve_node (o_fs s1) (p_cwd p) path false with Err e => Err e | Ok (_, n) => match n_kind n with KLink t => Ok (default [] (utf8_encode_esc t)) | _ => Err (oserr EINVAL) end end) = Ok b).
      { rewrite (unaffected_fs _ _ Hu), (isabs_cwd_node _ _ [] _ _ Ha), Hr, K, Hb'. reflexivity. }
      split; [|split].
      - apply syscall_quiet in E1 as (s2 & Hu2 & [(k & -> & ->)|E1]); [eapply unaffected_trans; eassumption|]. injection E1 as _ <-. eapply unaffected_trans; eassumption.
      - intros o ->. apply syscall_quiet in E1 as (s2 & Hu2 & [(k & [=] & ->)|E1]). injection E1 as E1 _.
        rewrite (unaffected_fs _ _ Hu2), Hf1 in E1. injection E1 as <-. reflexivity.
      - intros Hfl. rewrite syscall_calm in E1 by exact Hfl. injection E1 as E1 <-. rewrite Hf1 in E1. auto. }
    destruct (crun_any exec sha512 _ c r c' E) as [H1 H2]. split; [exact H1|].
    assert (H3 : unaffected (sysof c) (sysof c') /\ (forall z, r = Ok z -> decoded (cr_stdout z) = mret t)).
    { destruct H2 as [[H2 [e ->]]|(p & s1 & x & F1 & F2 & F3 & F4)]; [split; [exact H2|discriminate]|].
      rewrite (run_readlink path p F3) in F2. unfold prints in F2. destruct (do_readlink p path s1) as [[o|e] s2] eqn:Ed; injection F2 as <- <-.
      - destruct (Hdo _ _ _ _ F1 Ed) as (D1 & D2 & _). specialize (D2 o eq_refl) as ->. split; [exact D1|]. intros z ->. destruct F4 as [F4|[e [=]]]. cbn in F4.
        specialize (F4 ltac:(unfold in_i32; lia) Hbl ltac:(unfold small; cbn; lia)). injection F4 as ->. unfold decoded. cbn [cr_stdout default from_option]. unfold id. rewrite (utf8_roundtrip _ _ Hb). reflexivity.
      - destruct (Hdo _ _ _ _ F1 Ed) as (D1 & _). split; [exact D1|]. intros z ->. destruct F4 as [F4|[e' [=]]]. cbn in F4. discriminate F4; unfold in_i32, small; cbn; lia. }
    split; [apply H3|]. split; [apply H3|]. intros Hf Hp.
    destruct (crun_fine exec sha512 _ c r c' E Hf) as (p & x & F1 & F2 & F3 & F4); [discriminate|reflexivity|words|].
    rewrite (run_readlink path p F2) in F1. unfold prints in F1. destruct (do_readlink p path (sysof c)) as [o s2] eqn:Ed.
    destruct (Hdo _ _ _ _ (unaffected_refl _) Ed) as (_ & _ & D3). destruct (D3 ltac:(apply Hf)) as [-> ->]. injection F1 as <- Hs.
    cbn in F3. specialize (F3 ltac:(unfold in_i32; lia) Hbl ltac:(unfold small; cbn; lia)). split; [eauto|].
    specialize (F4 _ _ _ eq_refl ltac:(unfold in_i32; lia) Hbl ltac:(unfold small; cbn; lia)).
    rewrite H1. destruct Hf as ((L & _) & _). assert (Hrem : c_remote c' = c_remote c) by (unfold sysof in *; destruct (c_remote c'), (c_remote c); cbn in *; congruence).
    rewrite Hrem. apply set_remote_self.
  Qed.

  (** *** The work *)
  Definition link_found (s : os) (path : pystr) (x : found_link) : Prop :=
    (x = None /\ resolve_node (o_fs s) [] path false = Err (oserr ENOENT)) \/
    (exists pl n t, resolve_node (o_fs s) [] path false = Ok (pl, n) /\ n_kind n = KLink t /\ x = Some (statres_of s n None, t)).
  (** its owner was as wanted, but it had another target *)
  Definition link_lost (s : os) (path target : pystr) (attr : settings) (a : account) (b : grent) (pl : place) : Prop :=
    exists n t, resolve_node (o_fs s) [] path false = Ok (pl, n) /\ n_kind n = KLink t /\ t <> target /\ good_owner attr a b n.
  Definition link_times (s : os) (target : pystr) (touch : bool) (pl : place) (n : node) : Prop :=
    match o_fs s !! pl with
    | None => n_mtime n = o_now s /\ n_ctime n = o_now s /\ n_mode n = 511%N
    | Some n0 => (n_kind n0 <> KLink target -> n_mtime n = o_now s /\ n_ctime n = o_now s /\ n_mode n = 511%N) /\
                 (n_kind n0 = KLink target -> n_mtime n = (if touch then o_now s else n_mtime n0) /\ (n_ctime n = o_now s \/ n_ctime n = n_ctime n0) /\ n_mode n = n_mode n0)
    end.
  Definition link_good (s : os) (path target : pystr) (attr : settings) (touch : bool) (a : account) (b : grent) (pl : place) (n : node) : Prop :=
    n_kind n = KLink target /\ (good_owner attr a b n \/ link_lost s path target attr a b pl) /\ link_times s target touch pl n.
  Lemma lstep path attr (d1 d2 : bool) c r c' s pl n a b : isabs path = true -> c_string path -> accounts_ok s -> accounts_of s attr a b ->
    (_ ← wif d1 (sh exec sha512 [lit "chown"; lit "--no-dereference"; owner_spec attr; lit "--"; path]);
     wif d2 (sh exec sha512 [lit "touch"; lit "--no-dereference"; lit "--"; path])) c = (r, c') ->
    sits path s (sysof c) pl n ->
    stepped path s pl n (fun n' => let n1 := if d1 then chowned (o_now s) (pw_uid a) (gr_gid b) n else n in n' = if d2 then touched (o_now s) n1 else n1) True c r c'.
  Proof.
    intros Ha Hp Hac Hof E Hs.
    assert (H := stepped_bind path s pl n (wif d1 (sh exec sha512 [lit "chown"; lit "--no-dereference"; owner_spec attr; lit "--"; path]))
      (wif d2 (sh exec sha512 [lit "touch"; lit "--no-dereference"; lit "--"; path]))
      (fun n' => if d1 then n' = chowned (o_now s) (pw_uid a) (gr_gid b) n else n' = n) (fun n1 n2 => if d2 then n2 = touched (o_now s) n1 else n2 = n1) True True c r c').
    destruct H as (H1 & (n3 & H2 & H3 & H4) & H5).
    - intros r1 c1 E1. assert (Ho := sits_only _ _ _ _ _ Hs).
      assert (Hac' : accounts_ok (sysof c)) by (unfold accounts_ok in *; rewrite (only_files_passwd _ _ Ho), (only_files_group _ _ Ho); exact Hac).
      assert (Hof' : accounts_of (sysof c) attr a b) by (unfold accounts_of in *; rewrite (only_files_passwd _ _ Ho), (only_files_group _ _ Ho); exact Hof).
      destruct (stepped_wif path s pl n d1 _ _ True c r1 c1 Hs E1 (fun _ E' => lchown_step rest sha512 path attr c r1 c1 s pl n a b Ha Hp Hac' Hof' E' Hs)) as (T1 & (n1 & T2 & T3 & T4) & T5).
      split; [exact T1|]. split; [|auto]. exists n1. split; [exact T2|]. split; [exact T3|]. rewrite (only_files_now _ _ Ho) in T4. exact T4.
    - intros n1 c1 r1 c2 Q1 Q2 Q3 Q4 E1. assert (Ho := sits_only _ _ _ _ _ Q3).
      destruct (stepped_wif path s pl n1 d2 _ _ True c1 r1 c2 Q3 E1 (fun _ E' => ltouch_step rest sha512 path c1 r1 c2 s pl n1 Ha Hp E' Q3)) as (T1 & (n2 & T2 & T3 & T4) & T5).
      split; [exact T1|]. split; [|auto]. exists n2. split; [exact T2|]. split; [exact T3|]. rewrite (only_files_now _ _ Ho) in T4. exact T4.
    - exact E.
    - split; [exact H1|]. split; [|auto]. exists n3. split; [exact H2|]. split; [exact H3|]. intros Hr. destruct (H4 Hr) as (n1 & Q1 & _ & Q2). cbv zeta. destruct d1, d2; congruence.
  Qed.
  Lemma seen_link_ok s attr a b n : accounts_ok s -> accounts_of s attr a b -> Some (st_owner (statres_of s n None)) = s_owner attr -> Some (st_group (statres_of s n None)) = s_group attr -> good_owner attr a b n.
  Proof. intros H1 H2 H3 H4. exact (seen_ok s attr a b n None H1 H2 H3 H4). Qed.
  Lemma link_work_any path target touch attr x c r c' a b : isabs path = true -> c_string path -> accounts_ok (sysof c) -> accounts_of (sysof c) attr a b ->
    (l_target x = Some target \/ tree (o_fs (sysof c)) /\ ~ enterable (o_fs (sysof c)) path) -> link_found (sysof c) path x ->
    link_work exec sha512 false path target true touch attr x c = (r, c') ->
    ((unaffected (sysof c) (sysof c') /\ exists e, r = Err e) \/
     exists pl n, sits path (sysof c) (sysof c') pl n /\ link_conf (sysof c) path target pl n /\ (r = Ok tt -> link_good (sysof c) path target attr touch a b pl n)) /\
    (fine c -> c_string target -> (x = None -> creatable (sysof c) path) -> r = Ok tt /\ fine c').
  Proof.
    intros Ha Hp Hac Hof Hen Hfd E. unfold link_work in E.
    assert (Hlk : linkable (sysof c) path) by (destruct Hfd as [[_ H]|(pl & n & t & H1 & H2 & _)]; [left; exact H|right; exists pl, n; split; [exact H1|exists t; exact H2]]).
    destruct (differ_spec (l_target x) (Some target)) as [D|D].
    - (* the link is made *)
      destruct Hen as [Hen|[Htr Hen]]; [contradiction|]. cbn [wif] in E.
      assert (Hold : forall pl, (o_fs (sysof c) !! pl = None /\ resolve_node (o_fs (sysof c)) [] path false = Err (oserr ENOENT)) \/ (exists n t, resolve_node (o_fs (sysof c)) [] path false = Ok (pl, n) /\ n_kind n = KLink t /\ blind (o_fs (sysof c)) pl t) ->
        forall n', n_kind n' = KLink target -> link_conf (sysof c) path target pl n').
      { intros pl [[H _]|(n & t & H1 & H2 & H3)] n' Hk; unfold link_conf; [rewrite H; exact Hk|]. assert (H1' := H1). apply resolve_node_split in H1' as [_ H1']. rewrite H1'. split; [exact H1|]. exists t. split; [exact H2|]. right.
        split; [exact Hk|]. split; [|exact H3]. intros ->. apply D. destruct Hfd as [[_ He]|(pl2 & n2 & t2 & G1 & G2 & ->)]; [congruence|]. rewrite H1 in G1. injection G1 as <- <-. cbn. congruence. }
      apply bind_spec in E as [([] & c1 & E1 & E)|(e & E & ->)].
      + destruct (ln_step path target c _ c1 Ha Htr Hen Hlk E1) as (L1 & [[_ [e [=]]]|(_ & pl & p & L2 & L3)] & L4).
        destruct (lstep path attr _ _ c1 r c' (sysof c) pl _ a b Ha Hp Hac Hof E L2) as (T1 & (n3 & T2 & T3 & T4) & T5). split.
        * right. exists pl, n3. split; [exact T2|]. split; [apply Hold; [exact L3|exact T3]|]. intros Hr. specialize (T4 Hr). cbv zeta in T4. split; [exact T3|].
          set (d1 := differ (l_owner x) (s_owner attr) || differ (l_group x) (s_group attr)) in *.
          assert (Hk0 : forall n0, o_fs (sysof c) !! pl = Some n0 -> n_kind n0 <> KLink target /\ x = Some (statres_of (sysof c) n0 None, match n_kind n0 with KLink t => t | _ => [] end) /\ (exists t, n_kind n0 = KLink t) /\ resolve_node (o_fs (sysof c)) [] path false = Ok (pl, n0)).
          { intros n0 Hn0. destruct L3 as [[L3 _]|(n & t & G1 & G2 & _)]; [congruence|]. assert (G1' := G1). apply resolve_node_split in G1' as [_ G1']. assert (n0 = n) as -> by congruence.
            destruct Hfd as [[_ He]|(pl2 & n2 & t2 & F1 & F2 & ->)]; [congruence|]. rewrite G1 in F1. injection F1 as <- <-. rewrite F2. cbn in D. split; [congruence|]. split; [reflexivity|split; [eauto|exact G1]]. }
          split.
          -- destruct d1 eqn:Ed.
             ++ left. rewrite T4. destruct (lthere x && touch); split; reflexivity.
             ++ unfold d1 in Ed. apply orb_false_elim in Ed as [Ed1 Ed2]. destruct (differ_spec (l_owner x) (s_owner attr)) as [|D1]; [discriminate|]. destruct (differ_spec (l_group x) (s_group attr)) as [|D2]; [discriminate|].
                apply dec_stable in D1. apply dec_stable in D2. right. destruct (o_fs (sysof c) !! pl) as [n0|] eqn:En.
                ** destruct (Hk0 n0 eq_refl) as (G1 & G2 & (t & G3) & G4). exists n0, t. split; [exact G4|]. split; [exact G3|]. split; [congruence|]. rewrite G2 in D1, D2. cbn in D1, D2. eapply seen_link_ok; eassumption.
                ** destruct Hfd as [[-> _]|(pl2 & n2 & t2 & F1 & F2 & Fx)].
                   --- exfalso. destruct Hof as (_ & _ & Ho & _). cbn in D1. congruence.
                   --- exfalso. destruct L3 as [[_ L3]|(n & t & G1 & _)]; [congruence|]. apply resolve_node_split in G1 as [_ G1]. congruence.
          -- unfold link_times. assert (Htm : n_mtime n3 = o_now (sysof c) /\ n_ctime n3 = o_now (sysof c) /\ n_mode n3 = 511%N) by (rewrite T4; destruct d1, (lthere x && touch); auto).
             destruct (o_fs (sysof c) !! pl) as [n0|] eqn:En; [|exact Htm]. split; [auto|]. intros Hk. destruct (Hk0 n0 eq_refl) as [Hk' _]. contradiction.
        * intros Hf Htg Hcr. destruct (L4 Hf Hp Htg) as [_ Hf1].
          -- intros He. apply Hcr. destruct Hfd as [[-> _]|(pl2 & n2 & t2 & F1 & _)]; [reflexivity|congruence].
          -- apply T5; auto.
      + destruct (ln_step path target c _ c' Ha Htr Hen Hlk E) as (L1 & L2 & L4). split; [destruct L2 as [L2|(_ & pl & p & L2 & L3)]; [left; exact L2|right; eexists pl, _; split; [exact L2|]; split; [apply Hold; [exact L3|reflexivity]|discriminate]]|]. intros Hf Htg Hcr. destruct (L4 Hf Hp Htg) as [[=] _].
        intros He. apply Hcr. destruct Hfd as [[-> _]|(pl2 & n2 & t2 & F1 & _)]; [reflexivity|congruence].
    - (* it is there *)
      apply dec_stable in D. cbn [wif] in E. destruct Hfd as [[-> _]|(pl & n & t & F1 & F2 & ->)]; [discriminate|]. cbn in D. injection D as ->.
      change ((_ ← wif (differ (l_owner (Some (statres_of (sysof c) n None, target))) (s_owner attr) || differ (l_group (Some (statres_of (sysof c) n None, target))) (s_group attr))
            (sh exec sha512 [lit "chown"; lit "--no-dereference"; owner_spec attr; lit "--"; path]);
          wif (lthere (Some (statres_of (sysof c) n None, target)) && touch) (sh exec sha512 [lit "touch"; lit "--no-dereference"; lit "--"; path])) c = (r, c')) in E.
      destruct (lstep path attr _ _ c r c' (sysof c) pl n a b Ha Hp Hac Hof E (sits_start _ _ _ _ F1)) as (T1 & (n3 & T2 & T3 & T4) & T5).
      assert (Hn := F1). apply resolve_node_split in Hn as [_ Hn]. split; [|intros; apply T5; auto].
      right. exists pl, n3. split; [exact T2|]. split; [unfold link_conf; rewrite Hn; split; [exact F1|]; exists target; split; [exact F2|left; congruence]|]. intros Hr. specialize (T4 Hr). cbv zeta in T4.
      split; [congruence|]. cbn [lthere andb] in T4. set (d1 := differ _ _ || differ _ _) in *. split.
      + left. destruct d1 eqn:Ed; [rewrite T4; destruct touch; split; reflexivity|]. unfold d1 in Ed. apply orb_false_elim in Ed as [Ed1 Ed2].
        destruct (differ_spec (l_owner (Some (statres_of (sysof c) n None, target))) (s_owner attr)) as [|D1]; [discriminate|]. destruct (differ_spec (l_group (Some (statres_of (sysof c) n None, target))) (s_group attr)) as [|D2]; [discriminate|].
        apply dec_stable in D1. apply dec_stable in D2. cbn in D1, D2. assert (Hgo : good_owner attr a b n) by (eapply seen_link_ok; eassumption). rewrite T4. destruct touch; exact Hgo.
      + unfold link_times. rewrite Hn. split; [congruence|]. intros _. rewrite T4. destruct d1, touch; cbn; auto.
        * rewrite F2. auto.
        * rewrite F2. auto.
  Qed.

  (** *** The body *)
  Definition link_match (s : os) (target : pystr) (attr : settings) (n : node) : Prop :=
    n_kind n = KLink target /\ s_owner attr = seen_owner (Some (statres_of s n None)) /\ s_group attr = seen_group (Some (statres_of s n None)).
  Lemma is_link n : node_ok n -> node_type n = lit "link" <-> a_link n.
  Proof.
    intros H. apply (type_kind n _ (fun k => exists t, k = KLink t)); auto.
    - intros b. split; [intros [t [=]]|intros E; discriminate E].
    - split; [intros [t [=]]|intros E; discriminate E].
    - intros t. split; [reflexivity|eauto].
    - intros t [t' [=]].
    - intros Hin. unfold other_types in Hin. repeat (apply elem_of_cons in Hin as [Hin|Hin]; [discriminate Hin|]). inversion Hin.
  Qed.
  Lemma link_goal_met target attr touch x : py_eq (VDict (link_report x)) (VDict (link_goal true target attr touch)) = true <->
    x <> None /\ l_target x = Some target /\ l_owner x = s_owner attr /\ l_group x = s_group attr /\ touch = false.
  Proof.
    rewrite link_report_eq. unfold link_goal. rewrite link_state_eq. destruct x as [[st t]|]; cbn [lthere Bool.eqb andb]; [|split; [discriminate|intros [H _]; destruct (H eq_refl)]].
    destruct (differ_spec (l_target (Some (st, t))) (Some target)) as [D|D]; [cbn [negb andb]; split; [discriminate|]; intros (_ & E & _); congruence|].
    destruct (differ_spec (l_owner (Some (st, t))) (s_owner attr)) as [D1|D1]; [cbn [negb andb]; split; [discriminate|]; intros (_ & _ & E & _); congruence|].
    destruct (differ_spec (l_group (Some (st, t))) (s_group attr)) as [D2|D2]; [cbn [negb andb]; split; [discriminate|]; intros (_ & _ & _ & E & _); congruence|].
    apply dec_stable in D. apply dec_stable in D1. apply dec_stable in D2. destruct touch; cbn [negb andb Bool.eqb]; split; auto; try discriminate.
    intros (_ & _ & _ & _ & [=]).
  Qed.
  (** the beginning that present and absent links share *)
  Lemma link_look path target present touch attr s c x c' : unaffected s (sysof c) -> isabs path = true -> c_string path -> os_ok (sysof c) -> honest (sysof c) ->
    link_body exec sha512 false path target present touch attr c = (x, c') ->
    (unaffected s (sysof c') /\ (forall res, x = Ok res -> or_success res = false) /\ (fine c -> hash_ok sha512 -> linkable s path -> False)) \/
    exists y c1, unaffected s (sysof c1) /\ link_found s path y /\ (fine c -> hash_ok sha512 -> c1 = c) /\
      conclude (link_report y) (link_goal present target attr touch) (link_work exec sha512 false path target present touch attr y) c1 = (x, c').
  Proof.
    intros Hu Ha Hp Hos Hh E.
    assert (Hfs : o_fs (sysof c) = o_fs s) by (rewrite (unaffected_fs _ _ Hu); reflexivity).
    assert (Hst : forall n h, statres_of (sysof c) n h = statres_of s n h) by (intros n h; rewrite Hu; reflexivity).
    assert (Hnode : forall pl n, resolve_node (o_fs s) [] path false = Ok (pl, n) -> node_ok n).
    { intros pl n Hr. apply resolve_node_split in Hr as [_ Hr]. rewrite <- Hfs in Hr. apply Hos in Hr. exact Hr. }
    unfold link_body in E. cbv zeta in E. apply bind_spec in E as [(st & c1 & Es & E)|(e & Es & ->)].
    - assert (Hsa := stat_any rest sha512 _ _ _ _ _ _ Es Ha (proj1 Hp)). destruct Hsa as (S1 & S2 & S3). specialize (S3 Hos Hh). rewrite Hfs in S3. cbn in S3.
      assert (Hu1 : unaffected s (sysof c1)) by (eapply unaffected_trans; eassumption).
      assert (Hfine1 : fine c -> hash_ok sha512 -> c1 = c).
      { intros [Hhl _] Hha. assert (Es' := stat_fine rest sha512 path false false c Hhl Hos Hha Hp). rewrite Es' in Es. injection Es as _ ->. reflexivity. }
      destruct st as [st|].
      + destruct S3 as (pl & n & Hr & Hst'). rewrite Hst in Hst'. assert (Hst2 : st = statres_of s n None) by (rewrite Hst'; reflexivity). clear Hst'.
        destruct (str_eqb_spec (st_type st) (lit "link")) as [Ht|Ht]; cbn [negb] in E.
        * assert (Hk : a_link n) by (apply (is_link n (Hnode _ _ Hr)); rewrite <- Ht, Hst2; reflexivity). destruct Hk as [t K].
          assert (Hsh : short t) by (destruct (Hnode _ _ Hr) as (Hn1 & _); rewrite K in Hn1; exact Hn1).
          assert (Hr1 : resolve_node (o_fs (sysof c1)) [] path false = Ok (pl, n)) by (rewrite (unaffected_fs _ _ Hu1); exact Hr).
          apply bind_spec in E as [(z & c2 & Er & E)|(e & Er & ->)].
          -- destruct (readlink_step path c1 _ c2 pl n t Ha Er Hr1 K Hsh) as (R1 & R2 & R3 & R4). rewrite (bind_works _ _ c2 t c2 (f_equal (fun w => w c2) (R3 z eq_refl))) in E.
             right. exists (Some (st, t)), c2. split; [eapply unaffected_trans; eassumption|]. split; [right; exists pl, n, t; rewrite Hst2; auto|]. split; [|exact E].
             intros Hf Hha. rewrite (Hfine1 Hf Hha) in *. apply R4; assumption.
          -- destruct (readlink_step path c1 _ c' pl n t Ha Er Hr1 K Hsh) as (R1 & R2 & R3 & R4). left. split; [eapply unaffected_trans; eassumption|]. split; [discriminate|].
             intros Hf Hha _. rewrite (Hfine1 Hf Hha) in *. destruct (R4 Hf Hp) as [[z [=]] _].
        * injection E as <- <-. left. split; [exact Hu1|]. split; [intros res [= <-]; reflexivity|]. intros Hf Hha [Hno|(pl' & n' & Hr' & Hk)]; [congruence|].
          rewrite Hr in Hr'. injection Hr' as <- <-. destruct Ht. apply (is_link n (Hnode _ _ Hr)) in Hk. rewrite <- Hk, Hst2. reflexivity.
      + right. exists None, c1. split; [exact Hu1|]. split; [left; auto|]. auto.
    - assert (Hsa := stat_any rest sha512 _ _ _ _ _ _ Es Ha (proj1 Hp)). destruct Hsa as (S1 & S2 & S3). left.
      split; [eapply unaffected_trans; eassumption|]. split; [discriminate|]. intros [Hhl _] Hha Hex.
      assert (Es' := stat_fine rest sha512 path false false c Hhl Hos Hha Hp). rewrite Es' in Es. unfold stat_result in Es. rewrite (isabs_cwd_node _ _ [] _ _ Ha), Hfs in Es.
      destruct Hex as [Hno|(pl & n & Hr & _)]; [rewrite Hno in Es|rewrite Hr in Es]; discriminate Es.
  Qed.
  Lemma link_body_any path target touch attr s c x c' a b :
    unaffected s (sysof c) -> isabs path = true -> c_string path -> os_ok (sysof c) -> honest (sysof c) -> accounts_ok s -> accounts_of s attr a b ->
    (tree (o_fs s) /\ ~ enterable (o_fs s) path \/ exists pl n, resolve_node (o_fs s) [] path false = Ok (pl, n) /\ n_kind n = KLink target) ->
    link_body exec sha512 false path target true touch attr c = (x, c') ->
    (unaffected s (sysof c') \/ exists pl n, sits path s (sysof c') pl n /\ link_conf s path target pl n) /\
    (forall res, x = Ok res -> or_success res = true ->
       exists pl n, sits path s (sysof c') pl n /\ link_conf s path target pl n /\ link_good s path target attr touch a b pl n /\ (or_changed res = false -> unaffected s (sysof c') /\ touch = false)) /\
    (fine c -> hash_ok sha512 -> c_string target ->
       (resolve_node (o_fs s) [] path false = Err (oserr ENOENT) /\ creatable s path) \/ (exists pl n, resolve_node (o_fs s) [] path false = Ok (pl, n) /\ a_link n) ->
       exists res, x = Ok res /\ or_success res = true /\ fine c' /\
         (or_changed res = false <-> exists pl n, resolve_node (o_fs s) [] path false = Ok (pl, n) /\ link_match s target attr n /\ touch = false)).
  Proof.
    intros Hu Ha Hp Hos Hh Hac Hof Hen E.
    destruct (link_look path target true touch attr s c x c' Hu Ha Hp Hos Hh E) as [(L1 & L2 & L3)|(y & c1 & L1 & L2 & L3 & L4)].
    - split; [left; exact L1|]. split; [intros res Hx Hs; specialize (L2 res Hx); congruence|]. intros Hf Hha _ Hex. destruct (L3 Hf Hha). destruct Hex as [[He _]|He]; [left; exact He|right; exact He].
    - unfold conclude in L4. destruct (py_eq (VDict (link_report y)) (VDict (link_goal true target attr touch))) eqn:Eq.
      + apply link_goal_met in Eq as (Q1 & Q2 & Q3 & Q4 & Q5). destruct L2 as [[-> _]|(pl & n & t & Hr & Hk & ->)]; [contradiction|].
        injection L4 as <- <-. cbn in Q2. injection Q2 as ->. assert (Hn := Hr). apply resolve_node_split in Hn as [_ Hn].
        assert (Hsit : sits path s (sysof c1) pl n) by (apply (sits_unaffected _ _ s); [exact L1|]; apply sits_start; exact Hr).
        split; [left; exact L1|]. split.
        * intros res [= <-] _. exists pl, n. split; [exact Hsit|]. split; [unfold link_conf; rewrite Hn; eauto|]. split; [|auto].
          split; [exact Hk|]. split; [left; eapply seen_link_ok; eauto|]. unfold link_times. rewrite Hn. split; [congruence|]. intros _. rewrite Q5. auto.
        * intros Hf Hha _ _. eexists. split; [reflexivity|]. split; [reflexivity|]. split; [rewrite (L3 Hf Hha); exact Hf|].
          split; [intros _|reflexivity]. exists pl, n. split; [exact Hr|]. split; [split_and!; auto|exact Q5].
      + assert (Hun : forall pl n, resolve_node (o_fs s) [] path false = Ok (pl, n) -> link_match s target attr n -> touch = false -> False).
        { intros pl n Hr (M1 & M2 & M3) Ht. destruct L2 as [[-> He]|(pl' & n' & t & Hr' & Hk & ->)]; [congruence|].
          rewrite Hr in Hr'. injection Hr' as <- <-. assert (Eq' := proj2 (link_goal_met target attr touch (Some (statres_of s n None, t)))). rewrite Eq in Eq'.
          discriminate Eq'. split; [discriminate|]. split; [cbn; congruence|]. auto. }
        assert (Hw : forall r c2, link_work exec sha512 false path target true touch attr y c1 = (r, c2) ->
          ((unaffected s (sysof c2) /\ exists e, r = Err e) \/
           exists pl n, sits path s (sysof c2) pl n /\ link_conf s path target pl n /\ (r = Ok tt -> link_good s path target attr touch a b pl n)) /\
          (fine c1 -> c_string target -> (y = None -> creatable s path) -> r = Ok tt /\ fine c2)).
        { intros r c2 Ew. assert (H := link_work_any path target touch attr y c1 r c2 a b Ha Hp). rewrite L1 in H. apply H; auto.
          destruct Hen as [Hen|(pl & n & Hr & Hk)]; [right; exact Hen|left]. destruct L2 as [[-> He]|(pl' & n' & t & Hr' & Hk' & ->)]; [cbn in *; congruence|].
          rewrite Hr in Hr'. injection Hr' as <- <-. cbn. congruence. }
        assert (Hcre : (resolve_node (o_fs s) [] path false = Err (oserr ENOENT) /\ creatable s path) \/ (exists pl n, resolve_node (o_fs s) [] path false = Ok (pl, n) /\ a_link n) -> y = None -> creatable s path).
        { intros [[_ H]|(pl & n & Hr & _)] ->; [exact H|]. destruct L2 as [[_ He]|(? & ? & ? & _ & _ & [=])]. congruence. }
        apply bind_spec in L4 as [([] & c2 & Ew & Ec)|(e & Ew & ->)].
        * injection Ec as <- <-. destruct (Hw _ _ Ew) as [[[_ [e [=]]]|(pl & n & W1 & W2 & W3)] W4]. split; [right; eauto|]. split.
          -- intros res [= <-] _. exists pl, n. split_and!; auto; discriminate.
          -- intros Hf Hha Htg Hex. rewrite (L3 Hf Hha) in *. destruct (W4 Hf Htg (Hcre Hex)) as [_ Hf']. eexists. split; [reflexivity|]. split; [reflexivity|]. split; [exact Hf'|].
             split; [discriminate|]. intros (pl' & n' & R1 & R2 & R3). destruct (Hun _ _ R1 R2 R3).
        * destruct (Hw _ _ Ew) as [H W4]. split; [destruct H as [[H _]|(pl & n & W1 & W2 & _)]; [left; exact H|right; eauto]|]. split; [discriminate|].
          intros Hf Hha Htg Hex. rewrite (L3 Hf Hha) in *. destruct (W4 Hf Htg (Hcre Hex)) as [[=] _].
  Qed.
  Lemma link_absent_any path target touch attr s c x c' :
    unaffected s (sysof c) -> isabs path = true -> c_string path -> os_ok (sysof c) -> honest (sysof c) ->
    link_body exec sha512 false path target false touch attr c = (x, c') ->
    (unaffected s (sysof c') \/ exists pl n, resolve_node (o_fs s) [] path false = Ok (pl, n) /\ (exists t, n_kind n = KLink t) /\ only_files s (sysof c') /\ o_fs (sysof c') = delete pl (o_fs s)) /\
    (forall res, x = Ok res -> or_success res = true -> missing (sysof c') path /\ (or_changed res = false -> unaffected s (sysof c'))) /\
    (fine c -> hash_ok sha512 ->
       resolve_node (o_fs s) [] path false = Err (oserr ENOENT) \/ (exists pl n, resolve_node (o_fs s) [] path false = Ok (pl, n) /\ (exists t, n_kind n = KLink t) /\ True) ->
       exists res, x = Ok res /\ or_success res = true /\ healthy c' /\ (or_changed res = false <-> resolve_node (o_fs s) [] path false = Err (oserr ENOENT))).
  Proof.
    intros Hu Ha Hp Hos Hh E.
    destruct (link_look path target false touch attr s c x c' Hu Ha Hp Hos Hh E) as [(L1 & L2 & L3)|(y & c1 & L1 & L2 & L3 & L4)].
    - split; [left; exact L1|]. split; [intros res Hx Hs; specialize (L2 res Hx); congruence|]. intros Hf Hha Hex. destruct (L3 Hf Hha).
      destruct Hex as [He|(pl & n & H1 & H2 & _)]; [left; exact He|right; exists pl, n; auto].
    - unfold conclude in L4. rewrite link_report_eq in L4. unfold link_goal in L4. rewrite link_state_eq in L4. destruct L2 as [[-> Hno]|(pl & n & t & Hr & Hk & ->)].
      + cbn [lthere Bool.eqb andb l_target l_owner l_group fmap option_fmap option_map] in L4.
        destruct (differ_spec None None) as [D|_]; [destruct (D eq_refl)|]. cbn [negb andb] in L4. injection L4 as <- <-. split; [left; exact L1|]. split.
        * intros res [= <-] _. split; [|auto]. apply none_missing. rewrite (unaffected_fs _ _ L1). exact Hno.
        * intros Hf Hha _. eexists. split; [reflexivity|]. split; [reflexivity|]. split; [rewrite (L3 Hf Hha); apply Hf|]. split; auto.
      + cbn [lthere Bool.eqb andb] in L4. unfold link_work in L4. cbn [lthere wif] in L4.
        assert (Hw : forall r c2, sh exec sha512 [lit "rm"; lit "--"; path] c1 = (r, c2) ->
          ((unaffected s (sysof c2) /\ exists e, r = Err e) \/ ((r = Ok tt \/ exists e, r = Err e) /\ only_files s (sysof c2) /\ o_fs (sysof c2) = delete pl (o_fs s))) /\ (fine c1 -> r = Ok tt /\ healthy c2)).
        { intros r c2 Ew. destruct (rm_any rest sha512 path c1 r c2 Ha Ew) as [_ H]. split.
          - destruct H as [[H1 H2]|(pl' & n' & H1 & H2 & H3 & H4)]; [left; split; [eapply unaffected_trans; eassumption|exact H2]|]. right. split; [exact H1|].
            rewrite (unaffected_fs _ _ L1) in H2, H4. rewrite Hr in H2. injection H2 as <- <-. split; [eapply only_files_trans; [apply unaffected_only; exact L1|exact H3]|exact H4].
          - intros Hf. eapply (rm_fine rest sha512 path c1 r c2 pl n); auto; [rewrite (unaffected_fs _ _ L1); exact Hr|congruence]. }
        apply bind_spec in L4 as [([] & c2 & Ew & Ec)|(e & Ew & ->)].
        * injection Ec as <- <-. destruct (Hw _ _ Ew) as [[[_ [e [=]]]|(_ & W1 & W2)] W3]. split; [right; exists pl, n; eauto|]. split.
          -- intros res [= <-] _. split; [|discriminate]. eapply gone_missing; [exact Hr|rewrite W2; apply grows_delete|rewrite W2; apply lookup_delete].
          -- intros Hf Hha _. rewrite (L3 Hf Hha) in *. destruct (W3 Hf) as [_ Hh']. eexists. split; [reflexivity|]. split; [reflexivity|]. split; [exact Hh'|]. split; [discriminate|congruence].
        * destruct (Hw _ _ Ew) as [H W3]. split; [destruct H as [[H _]|(_ & W1 & W2)]; [left; exact H|right; exists pl, n; eauto]|]. split; [discriminate|]. intros Hf Hha _. rewrite (L3 Hf Hha) in *. destruct (W3 Hf) as [[=] _].
  Qed.
End link.
