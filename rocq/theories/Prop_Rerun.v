(** C47: file operations that were interrupted can be run again. *)
From Coq Require Import Lia ZifyBool ZifyN ZifyNat.
From stdpp Require Import gmap.
From Verif Require Import Base Utf8 Codec Spec_Codec Codec_proofs Paths Sys Spec_Sys Sys_proofs Dispatcher Client Spec_Remote Remote_safe Remote_upload Remote_run Direct Control Spec_Control Control_settle Prop_Control Op Spec_Op Op_proofs Coreutils Files Walk_proofs Files_plain Spec_Files Shell_proofs Thrift Steps Dir_proofs Transfer Converge Content_proofs Spec_Link Link_walk Link_proofs Sound Remote_examples Files_examples Dry_files Prop_Files Prop_Content Prop_Link Spec_Line Line_text Line_proofs Prop_Line Rerun_proofs.
Local Open Scope nat_scope.

Section theorems.
  Variable rest : proc -> M xres.
  Variable sha512 : bytes -> bytes.
  Notation exec := (coreutils rest).
  Notation directory := (directory exec sha512 false).
  Notation file := (file exec sha512 false).
  Notation link := (link exec sha512 false).
  Lemma kept_ok a f q path body : yields f new_op (_ ← check_absolute_path path; script_defaults exec sha512 q body) -> (forall d, sound (body d)) ->
    forall c r c', os_ok (sysof c) -> operation a f c = (r, c') -> os_ok (sysof c').
  Proof.
    intros Hy Hb c r c' Hos E. assert (H := sound_operation a f _ Hy (sound_bind _ _ (sound_check path) (fun _ => sound_defaults exec sha512 q body Hb)) c Hos).
    rewrite E in H. exact H.
  Qed.

  (** ** C47 *)
  (** The first run may end anyhow: any system call may fail, the connection may be lost before or after any request took
      effect.  The second run, on a connection on which nothing fails, reaches what was asked for.  Both runs together have
      changed at most the file at the path. *)
  Theorem C47_directory t a a2 c r c' c2 r2 c3 reqs path touch mode owner group :
    ready c reqs -> honest (sysof c) -> o_uid (sysof c) = 0%N -> c_string path -> absolute path -> hash_ok sha512 -> unaliased (sysof c) ->
    feasible (sysof c) (c_base c) (reqs ++ [asking owner group None mode]) -> attainable (fun k => k = KDir) (sysof c) path ->
    operation a (directory path true touch mode owner group) c = (r, c') -> resumed t c c' c2 ->
    operation a2 (directory path true touch mode owner group) c2 = (r2, c3) ->
    exists res attr pl n, r2 = Ok res /\ or_success res = true /\ directory_made c2 c3 reqs (asking owner group None mode) path touch attr pl n /\
      only_at pl (at_time t (sysof c)) (sysof c3).
  Proof.
    intros Hrd Hh Hid Hp Ha Hha Hun Hfe Hat E Hre E2.
    assert (Hos' : os_ok (sysof c')) by (eapply kept_ok; [apply directory_plain|intros d; apply sound_dir|apply Hrd|exact E]).
    destruct (directory_any rest sha512 a c r c' reqs path touch mode owner group Hrd Hh Hp E) as [Hway _].
    assert (Hway' : unaffected (sysof c) (sysof c') \/ exists pl n, sits path (sysof c) (sysof c') pl n /\ n_kind n = KDir /\ steady (o_fs (sysof c)) (o_fs (sysof c'))).
    { destruct Hway as [H|(pl & n & H1 & H2)]; [left; exact H|right]. exists pl, n. destruct (dir_conf_facts _ _ _ H2) as (K1 & K2 & _). split; [exact H1|]. split; [exact K1|]. eapply steady_grows, sits_grows; eassumption. }
    destruct (resumed_present t c c' c2 reqs (asking owner group None mode) path (fun k => k = KDir) Hre Hrd Hos' Hid Hun Hfe Hat Hway') as (R1 & R2 & R3 & R4 & R5 & R6).
    destruct (C43_directory_works rest sha512 a2 c2 r2 c3 reqs path touch mode owner group R1 Hp Ha R2 Hha R3 R5 R6 E2) as (res & _ & _ & _ & -> & Hs & _).
    destruct (directory_any rest sha512 a2 c2 _ c3 reqs path touch mode owner group R1 R4 Hp E2) as [_ H].
    destruct (H res eq_refl Hs) as (_ & attr & x & y & pl & n & G1 & G2 & G3 & G4 & G5 & _). destruct (dir_conf_facts _ _ _ G4) as (_ & K2 & _).
    exists res, attr, pl, n. split; [reflexivity|]. split; [exact Hs|]. split; [eapply dir_made; eassumption|].
    eapply resumed_place; [exact Hre| |exact G3|].
    - destruct Hway as [Hw|(p1 & m1 & Hw & _)]; [left; exact Hw|right; eauto].
    - intros p1 m1. apply sees_grows. eapply sits_grows; eassumption.
  Qed.
  Theorem C47_file t a a2 c r c' c2 r2 c3 reqs path touch mode owner group :
    ready c reqs -> honest (sysof c) -> o_uid (sysof c) = 0%N -> c_string path -> absolute path -> hash_ok sha512 -> unaliased (sysof c) ->
    feasible (sysof c) (c_base c) (reqs ++ [asking owner group mode None]) -> attainable regular (sysof c) path ->
    operation a (file path true touch mode owner group) c = (r, c') -> resumed t c c' c2 ->
    operation a2 (file path true touch mode owner group) c2 = (r2, c3) ->
    exists res attr pl n, r2 = Ok res /\ or_success res = true /\ file_made c2 c3 reqs (asking owner group mode None) path touch attr pl n /\
      only_at pl (at_time t (sysof c)) (sysof c3).
  Proof.
    intros Hrd Hh Hid Hp Ha Hha Hun Hfe Hat E Hre E2.
    assert (Hos' : os_ok (sysof c')) by (eapply kept_ok; [apply file_plain|intros d; apply sound_file|apply Hrd|exact E]).
    destruct (file_any rest sha512 a c r c' reqs path touch mode owner group Hrd Hh Hp E) as [Hway _].
    assert (Hway' : unaffected (sysof c) (sysof c') \/ exists pl n, sits path (sysof c) (sysof c') pl n /\ regular (n_kind n) /\ steady (o_fs (sysof c)) (o_fs (sysof c'))).
    { destruct Hway as [H|(pl & n & H1 & H2)]; [left; exact H|right]. exists pl, n. destruct (file_conf_facts _ _ _ H2) as (K1 & K2 & _). split; [exact H1|]. split; [exact K1|]. eapply steady_grows, sits_grows; eassumption. }
    destruct (resumed_present t c c' c2 reqs (asking owner group mode None) path regular Hre Hrd Hos' Hid Hun Hfe Hat Hway') as (R1 & R2 & R3 & R4 & R5 & R6).
    destruct (C44_file_works rest sha512 a2 c2 r2 c3 reqs path touch mode owner group R1 Hp Ha R2 Hha R3 R5 R6 E2) as (res & _ & _ & _ & -> & Hs & _).
    destruct (file_any rest sha512 a2 c2 _ c3 reqs path touch mode owner group R1 R4 Hp E2) as [_ H].
    destruct (H res eq_refl Hs) as (_ & attr & x & y & pl & n & G1 & G2 & G3 & G4 & G5 & _). destruct (file_conf_facts _ _ _ G4) as (_ & K2 & _).
    exists res, attr, pl, n. split; [reflexivity|]. split; [exact Hs|]. split; [eapply fil_made; eassumption|].
    eapply resumed_place; [exact Hre| |exact G3|].
    - destruct Hway as [Hw|(p1 & m1 & Hw & _)]; [left; exact Hw|right; eauto].
    - intros p1 m1. apply sees_grows. eapply sits_grows; eassumption.
  Qed.
  (** uploads and templates *)
  Theorem C47_content t a a2 want_diff c r c' c2 r2 c3 reqs op path content mode owner group :
    delivers rest sha512 want_diff op mode owner group path content -> small content ->
    ready c reqs -> honest (sysof c) -> o_uid (sysof c) = 0%N -> c_string path -> absolute path -> hash_ok sha512 -> unaliased (sysof c) ->
    feasible (sysof c) (c_base c) (reqs ++ [asking owner group mode None]) -> attainable regular (sysof c) path ->
    operation a op c = (r, c') -> resumed t c c' c2 -> operation a2 op c2 = (r2, c3) ->
    exists res attr pl n, r2 = Ok res /\ or_success res = true /\ content_made sha512 c2 c3 reqs (asking owner group mode None) path content attr pl n /\
      only_at pl (at_time t (sysof c)) (sysof c3).
  Proof.
    intros Hdl Hsm Hrd Hh Hid Hp Ha Hha Hun Hfe Hat E Hre E2. assert (Hop := delivers_plain rest sha512 want_diff _ _ _ _ _ _ Hdl).
    assert (Hos' : os_ok (sysof c')) by (eapply kept_ok; [exact Hop|intros d; apply sound_content; exact Hsm|apply Hrd|exact E]).
    assert (Hany := fun a c r c' => present_any rest sha512 path false is_file s_file_mode (content_conf content) (content_good sha512 content) (fun s attr n => content_match sha512 content s (s_file_mode attr) attr n) (small content) _ _ _
      Hop (fun d => remotely_content rest sha512 want_diff content path d) file_msel (fun attr s c x c' a b => content_body_cap rest sha512 want_diff content attr s c x c' a b path) a c r c' reqs).
    destruct (Hany a c r c' Hrd Hh Hp E) as [Hway _].
    assert (Hway' : unaffected (sysof c) (sysof c') \/ exists pl n, sits path (sysof c) (sysof c') pl n /\ regular (n_kind n) /\ steady (o_fs (sysof c)) (o_fs (sysof c'))).
    { destruct Hway as [H|(pl & n & H1 & H2)]; [left; exact H|right]. exists pl, n. destruct (content_facts sha512 content _ _ _ Hsm H2) as (K1 & K2 & _). split; [exact H1|]. split; [exact K1|]. eapply steady_grows, sits_grows; eassumption. }
    destruct (resumed_present t c c' c2 reqs (asking owner group mode None) path regular Hre Hrd Hos' Hid Hun Hfe Hat Hway') as (R1 & R2 & R3 & R4 & R5 & R6).
    destruct (C46_works rest sha512 want_diff a2 c2 r2 c3 reqs op path content mode owner group Hdl R1 Hp Ha R2 Hha Hsm R3 R5 R6 E2) as (res & _ & _ & _ & -> & Hs & _).
    destruct (Hany a2 c2 _ c3 R1 R4 Hp E2) as [_ H].
    destruct (H res eq_refl Hs) as (_ & attr & x & y & pl & n & G1 & G2 & G3 & G4 & G5 & _). destruct (content_facts sha512 content _ _ _ Hsm G4) as (_ & K2 & _).
    exists res, attr, pl, n. split; [reflexivity|]. split; [exact Hs|]. split; [eapply put_made; eassumption|].
    eapply resumed_place; [exact Hre| |exact G3|].
    - destruct Hway as [Hw|(p1 & m1 & Hw & _)]; [left; exact Hw|right; eauto].
    - intros p1 m1. apply sees_grows. eapply sits_grows; eassumption.
  Qed.
  (** Missing from the full statement: paths that lead to a directory, as in C45 ([clear]). *)
  Lemma clear_again s s' path target pl n : sits path s s' pl n -> link_conf s path target pl n -> clear s path target -> clear s' path target.
  Proof.
    intros (_ & Hfs & Hr) Hc Hcl.
    assert (Hd : n_kind n = KLink target \/ exists n0 t, o_fs s !! pl = Some n0 /\ resolve_node (o_fs s) [] path false = Ok (pl, n0) /\ n_kind n0 = KLink t /\ n_kind n = KLink t).
    { unfold link_conf in Hc. destruct (o_fs s !! pl) as [n0|] eqn:E; [|left; exact Hc]. destruct Hc as (H0 & t & K0 & [K|[K _]]); [right|left; exact K]. eauto 10. }
    destruct Hd as [Hk|(n0 & t & E & H0 & K0 & K)]; [right; exists pl, n; auto|].
    destruct Hcl as [[Ht He]|(p & m & H1 & H2)].
    - left. assert (Hka : forall q, kind_at (o_fs s') q = kind_at (o_fs s) q).
      { intros q. unfold kind_at. rewrite Hfs. destruct (decide (q = pl)) as [-> |Hq]; [rewrite lookup_insert, E; cbn; congruence|rewrite lookup_insert_ne by congruence; reflexivity]. }
      assert (Hg1 : grows (o_fs s) (o_fs s')) by (rewrite Hfs; apply grows_insert; intros m Hm; assert (m = n0) as -> by congruence; unfold shape; rewrite K, K0; reflexivity).
      assert (Hg2 : grows (o_fs s') (o_fs s)).
      { intros q m Hm. rewrite Hfs in Hm. destruct (decide (q = pl)) as [-> |Hq]; [rewrite lookup_insert in Hm; injection Hm as <-; exists n0; split; [exact E|unfold shape; rewrite K, K0; reflexivity]|].
        rewrite lookup_insert_ne in Hm by congruence. exists m. auto. }
      split.
      + destruct Ht as [T1 T2]. split; [rewrite Hka; exact T1|]. intros x q m Hm. rewrite Hka. destruct (Hg2 _ _ Hm) as (m' & Hm' & _). eapply T2. exact Hm'.
      + intros [d Hd]. apply He. exists d. eapply leads_grows; eassumption.
    - right. unfold sees in H1. rewrite H0 in H1. injection H1 as <- <-. exists pl, n. split; [exact Hr|congruence].
  Qed.
  Theorem C47_link_partial t a a2 c r c' c2 r2 c3 reqs path target touch owner group :
    clear (sysof c) path target -> c_string target -> target <> [] ->
    ready c reqs -> honest (sysof c) -> o_uid (sysof c) = 0%N -> c_string path -> absolute path -> hash_ok sha512 -> unaliased (sysof c) ->
    feasible (sysof c) (c_base c) (reqs ++ [asking owner group None None]) -> attainable (fun k => exists t, k = KLink t) (sysof c) path ->
    operation a (link path target true touch owner group) c = (r, c') -> resumed t c c' c2 ->
    operation a2 (link path target true touch owner group) c2 = (r2, c3) ->
    exists res attr pl n, r2 = Ok res /\ or_success res = true /\ link_made c2 c3 reqs (asking owner group None None) path target touch attr pl n /\
      only_at pl (at_time t (sysof c)) (sysof c3).
  Proof.
    intros Hcl Hct Htg Hrd Hh Hid Hp Ha Hha Hun Hfe Hat E Hre E2.
    assert (Hos' : os_ok (sysof c')) by (eapply kept_ok; [apply link_form; exact Htg|intros d; apply sound_link; apply Hct|apply Hrd|exact E]).
    destruct (link_any rest sha512 a c r c' reqs path target touch owner group Htg Hcl Hrd Hh Hp E) as [Hway _].
    assert (Hway' : unaffected (sysof c) (sysof c') \/ exists pl n, sits path (sysof c) (sysof c') pl n /\ (exists t, n_kind n = KLink t) /\ steady (o_fs (sysof c)) (o_fs (sysof c'))).
    { destruct Hway as [H|(pl & n & H1 & H2)]; [left; exact H|right]. exists pl, n. split; [exact H1|]. split; [|eapply link_conf_steady; eassumption].
      unfold link_conf in H2. destruct (o_fs (sysof c) !! pl) as [n0|]; [destruct H2 as (_ & u & _ & [K|[K _]]); eauto|eauto]. }
    destruct (resumed_present t c c' c2 reqs (asking owner group None None) path (fun k => exists t, k = KLink t) Hre Hrd Hos' Hid Hun Hfe Hat Hway') as (R1 & R2 & R3 & R4 & R5 & R6).
    assert (Hcl2 : clear (sysof c2) path target).
    { assert (H : clear (sysof c') path target); [|destruct Hre as [_ ->]; exact H]. destruct Hway as [H|(pl & n & H1 & H2)]; [|eapply clear_again; eassumption].
      unfold clear, sees. rewrite (unaffected_fs _ _ H). exact Hcl. }
    destruct (C45_link_works_partial rest sha512 a2 c2 r2 c3 reqs path target touch owner group Hcl2 R1 Hp Ha Hct Htg R2 Hha R3 R5 R6 E2) as (res & _ & _ & _ & -> & Hs & _).
    destruct (link_any rest sha512 a2 c2 _ c3 reqs path target touch owner group Htg Hcl2 R1 R4 Hp E2) as [_ H].
    destruct (H res eq_refl Hs) as (_ & attr & x & y & pl & n & G1 & G2 & G3 & G4 & G5 & _).
    exists res, attr, pl, n. split; [reflexivity|]. split; [exact Hs|]. split; [eapply made_of; eassumption|].
    eapply resumed_place; [exact Hre| |exact G3|].
    - destruct Hway as [Hw|(p1 & m1 & Hw & _)]; [left; exact Hw|right; eauto].
    - intros p1 m1 H1. unfold link_conf in G4. destruct (o_fs (sysof c2) !! pl) as [n0|] eqn:E0.
      + destruct G4 as [G4 _]. unfold sees in *. rewrite G4 in H1. injection H1 as <- <-. exists n. apply G3.
      + eapply sees_grows; [|exact H1]. eapply sits_grows; [exact G3|]. congruence.
  Qed.
  (** The directory in which commands are run is still there. *)
  Definition cwd_kept (c c' : ctl) (reqs : list settings) : Prop :=
    forall w, wanted s_cwd (c_base c) reqs = Some w -> exists pl n, resolve_node (o_fs (sysof c')) (o_cwd (sysof c)) w false = Ok (pl, n) /\ n_kind n = KDir.
  Lemma alone_emptied pl s s' : only_at pl s s' /\ only_removed pl s s' <-> emptied eq pl s s'.
  Proof.
    split.
    - intros [[H1 H2] [_ H3]]. split; [exact H1|]. intros q. destruct (decide (q = pl)) as [-> |Hq]; [|left; apply H2; exact Hq]. destruct (H3 pl) as [H|[_ H]]; auto.
    - intros [H1 H2]. split; split; auto; [intros q Hq; destruct (H2 q) as [H|[-> _]]; [exact H|contradiction]|]. intros q. destruct (H2 q) as [H|[<- H]]; [left; exact H|right; split; [reflexivity|exact H]].
  Qed.
  Theorem C47_directory_absent t a a2 c r c' c2 r2 c3 reqs path touch mode owner group :
    ready c reqs -> honest (sysof c) -> o_uid (sysof c) = 0%N -> c_string path -> absolute path -> hash_ok sha512 -> unaliased (sysof c) ->
    feasible (sysof c) (c_base c) (reqs ++ [asking owner group None mode]) -> cwd_kept c c' (reqs ++ [asking owner group None mode]) ->
    sees_none (sysof c) path \/ (exists pl n, sees (sysof c) path pl n /\ n_kind n = KDir /\ pl <> [] /\ basename path <> lit "." /\ basename path <> lit "..") ->
    operation a (directory path false touch mode owner group) c = (r, c') -> resumed t c c' c2 ->
    operation a2 (directory path false touch mode owner group) c2 = (r2, c3) ->
    exists res, r2 = Ok res /\ or_success res = true /\ missing (sysof c3) path /\
      (unaffected (at_time t (sysof c)) (sysof c3) \/ exists pl n, at_path (sysof c) path pl n /\ n_kind n = KDir /\ only_removed pl (at_time t (sysof c)) (sysof c3)).
  Proof.
    intros Hrd Hh Hid Hp Ha Hha Hun Hfe Hcwd Hat E Hre E2.
    assert (Hos' : os_ok (sysof c')) by (eapply kept_ok; [apply directory_plain|intros d; apply sound_dir|apply Hrd|exact E]).
    destruct (C43_absent rest sha512 a c r c' reqs path touch mode owner group Hrd Hh Hp E) as [Hway _].
    assert (Hof : only_files (sysof c) (sysof c') /\ fewer (o_fs (sysof c)) (o_fs (sysof c'))).
    { destruct Hway as [H|(pl & n & _ & _ & H)]; [split; [apply unaffected_only; exact H|rewrite (unaffected_fs _ _ H); apply fewer_refl]|split; [apply H|eapply removed_fewer; exact H]]. }
    destruct (resumed_absent t c c' c2 reqs _ path Hre Hrd Hos' Hid Hun Hfe Hcwd (proj1 Hof) (proj2 Hof)) as (R1 & R2 & R3 & R4 & R5 & R6).
    destruct (C43_absent_works rest sha512 a2 c2 r2 c3 reqs path touch mode owner group R1 Hp Ha R2 Hha R5) as (res & -> & Hs & _ & Hm & _); auto.
    { destruct R6 as [R6|R6]; [left; exact R6|]. unfold sees_none, sees. rewrite R6. exact Hat. }
    exists res. split; [reflexivity|]. split; [exact Hs|]. split; [exact Hm|].
    apply (resumed_emptied (fun pl q => pl `suffix_of` q) t c c' c2 c3 path (fun k => k = KDir) Hre); auto.
    - destruct Hat as [H|(pl & n & H1 & H2 & _)]; [left; exact H|right; eauto].
    - apply (C43_absent rest sha512 a2 c2 _ c3 reqs path touch mode owner group R1 R4 Hp E2).
  Qed.
  Theorem C47_file_absent t a a2 c r c' c2 r2 c3 reqs path touch mode owner group :
    ready c reqs -> honest (sysof c) -> o_uid (sysof c) = 0%N -> c_string path -> absolute path -> hash_ok sha512 -> unaliased (sysof c) ->
    feasible (sysof c) (c_base c) (reqs ++ [asking owner group mode None]) -> cwd_kept c c' (reqs ++ [asking owner group mode None]) ->
    sees_none (sysof c) path \/ (exists pl n, sees (sysof c) path pl n /\ regular (n_kind n)) ->
    operation a (file path false touch mode owner group) c = (r, c') -> resumed t c c' c2 ->
    operation a2 (file path false touch mode owner group) c2 = (r2, c3) ->
    exists res, r2 = Ok res /\ or_success res = true /\ missing (sysof c3) path /\
      (unaffected (at_time t (sysof c)) (sysof c3) \/ exists pl n, at_path (sysof c) path pl n /\ regular (n_kind n) /\ only_at pl (at_time t (sysof c)) (sysof c3)).
  Proof.
    intros Hrd Hh Hid Hp Ha Hha Hun Hfe Hcwd Hat E Hre E2.
    assert (Hos' : os_ok (sysof c')) by (eapply kept_ok; [apply file_plain|intros d; apply sound_file|apply Hrd|exact E]).
    destruct (C44_absent rest sha512 a c r c' reqs path touch mode owner group Hrd Hh Hp E) as [Hway _].
    assert (Hof : only_files (sysof c) (sysof c') /\ fewer (o_fs (sysof c)) (o_fs (sysof c'))).
    { destruct Hway as [H|(pl & n & _ & _ & _ & H)]; [split; [apply unaffected_only; exact H|rewrite (unaffected_fs _ _ H); apply fewer_refl]|split; [apply H|eapply removed_fewer; exact H]]. }
    destruct (resumed_absent t c c' c2 reqs _ path Hre Hrd Hos' Hid Hun Hfe Hcwd (proj1 Hof) (proj2 Hof)) as (R1 & R2 & R3 & R4 & R5 & R6).
    destruct (C44_absent_works rest sha512 a2 c2 r2 c3 reqs path touch mode owner group R1 Hp Ha R2 Hha R5) as (res & -> & Hs & _ & Hm & _); auto.
    { destruct R6 as [R6|R6]; [left; exact R6|]. unfold sees_none, sees. rewrite R6. exact Hat. }
    exists res. split; [reflexivity|]. split; [exact Hs|]. split; [exact Hm|].
    destruct (resumed_emptied eq t c c' c2 c3 path regular Hre Hat R6) as [H|(pl & n & H1 & H2 & H3)]; [| |left; exact H|right; exists pl, n; apply alone_emptied in H3; tauto].
    - destruct Hway as [H|(pl & n & H1 & H2 & H3)]; [left; exact H|right; exists pl, n; rewrite <- alone_emptied; auto].
    - destruct (C44_absent rest sha512 a2 c2 _ c3 reqs path touch mode owner group R1 R4 Hp E2) as [[H|(pl & n & H1 & H2 & H3)] _]; [left; exact H|right; exists pl, n; rewrite <- alone_emptied; auto].
  Qed.
  Theorem C47_link_absent t a a2 c r c' c2 r2 c3 reqs path target touch owner group :
    short target -> target <> [] ->
    ready c reqs -> honest (sysof c) -> o_uid (sysof c) = 0%N -> c_string path -> absolute path -> hash_ok sha512 -> unaliased (sysof c) ->
    feasible (sysof c) (c_base c) (reqs ++ [asking owner group None None]) -> cwd_kept c c' (reqs ++ [asking owner group None None]) ->
    sees_none (sysof c) path \/ (exists pl n t, sees (sysof c) path pl n /\ n_kind n = KLink t) ->
    operation a (link path target false touch owner group) c = (r, c') -> resumed t c c' c2 ->
    operation a2 (link path target false touch owner group) c2 = (r2, c3) ->
    exists res, r2 = Ok res /\ or_success res = true /\ missing (sysof c3) path /\
      (unaffected (at_time t (sysof c)) (sysof c3) \/ exists pl n u, at_path (sysof c) path pl n /\ n_kind n = KLink u /\ only_at pl (at_time t (sysof c)) (sysof c3)).
  Proof.
    intros Hst Htg Hrd Hh Hid Hp Ha Hha Hun Hfe Hcwd Hat E Hre E2.
    assert (Hos' : os_ok (sysof c')) by (eapply kept_ok; [apply link_form; exact Htg|intros d; apply sound_link; exact Hst|apply Hrd|exact E]).
    assert (Hdel : forall pl s s', only_files s s' -> o_fs s' = delete pl (o_fs s) -> emptied eq pl s s').
    { intros pl s s' H1 H2. split; [exact H1|]. intros q. rewrite H2. destruct (decide (q = pl)) as [-> |Hq]; [right; split; [reflexivity|apply lookup_delete]|left; apply lookup_delete_ne; congruence]. }
    assert (Hany : forall a c r c', ready c reqs -> honest (sysof c) -> operation a (link path target false touch owner group) c = (r, c') ->
      unaffected (sysof c) (sysof c') \/ exists pl n, at_path (sysof c) path pl n /\ (exists u, n_kind n = KLink u) /\ emptied eq pl (sysof c) (sysof c')).
    { intros b d q d' Q1 Q2 Q3. destruct (C45_absent rest sha512 b d q d' reqs path target touch owner group Q1 Q2 Hp Q3) as [[H|(pl & n & u & H1 & H2 & H3 & H4)] _]; [left; exact H|right; exists pl, n; eauto]. }
    assert (Hway := Hany _ _ _ _ Hrd Hh E).
    assert (Hof : only_files (sysof c) (sysof c') /\ fewer (o_fs (sysof c)) (o_fs (sysof c'))).
    { destruct Hway as [H|(pl & n & _ & _ & H)]; [split; [apply unaffected_only; exact H|rewrite (unaffected_fs _ _ H); apply fewer_refl]|split; [apply H|eapply removed_fewer; apply alone_emptied; exact H]]. }
    destruct (resumed_absent t c c' c2 reqs _ path Hre Hrd Hos' Hid Hun Hfe Hcwd (proj1 Hof) (proj2 Hof)) as (R1 & R2 & R3 & R4 & R5 & R6).
    destruct (C45_absent_works rest sha512 a2 c2 r2 c3 reqs path target touch owner group R1 Hp Ha Htg R2 Hha R5) as (res & -> & Hs & _ & Hm & _); auto.
    { destruct R6 as [R6|R6]; [left; exact R6|]. unfold sees_none, sees. rewrite R6. exact Hat. }
    exists res. split; [reflexivity|]. split; [exact Hs|]. split; [exact Hm|].
    destruct (resumed_emptied eq t c c' c2 c3 path (fun k => exists u, k = KLink u) Hre) as [H|(pl & n & H1 & (u & H2) & H3)]; auto.
    - destruct Hat as [H|(pl & n & u & H1 & H2)]; [left; exact H|right; eauto].
    - apply (Hany _ _ _ _ R1 R4 E2).
    - right. exists pl, n, u. apply alone_emptied in H3. tauto.
  Qed.
End theorems.
Print Assumptions C47_directory.
Print Assumptions C47_file.
Print Assumptions C47_content.
Print Assumptions C47_link_partial.
Print Assumptions C47_directory_absent.
Print Assumptions C47_file_absent.
Print Assumptions C47_link_absent.

(** ** Refutation *)
Definition resume (t : Z) (c c' : ctl) : ctl := set_remote (Remote (at_time t (set_faults [] (sysof c'))) Up) c.
Lemma resume_resumed t c c' : in_u64 t -> resumed t c c' (resume t c c'). Proof. intros H. split; [exact H|reflexivity]. Qed.
(** Full statement (false for files.line): after a run that failed, an undisturbed rerun reaches the state asked for, with nothing
    else changed.  The new content is written over the old one; if that fails halfway, the rest of the file is lost, and the
    next run adds the line to what is left and reports success.  Here "keep" becomes "k". *)
Theorem C47_line_refuted : exists t c r c' c2 r2 c3 n0 n, ready c [] /\ honest (sysof c) /\ o_uid (sysof c) = 0%N /\ absolute p_run /\
  feasible (sysof c) (c_base c) ([] ++ [no_settings]) /\
  sees (sysof c) p_run run_place n0 /\ (exists b, n_kind n0 = KFile b /\ file_lines b [lit "keep"]) /\
  run_line p_run (lit "b") true None true (inl false) c = (r, c') /\ resumed t c c' c2 /\
  run_line p_run (lit "b") true None true (inl false) c2 = (Ok r2, c3) /\ or_success r2 = true /\
  sees (sysof c3) p_run run_place n /\ (exists b, n_kind n = KFile b /\ file_lines b [lit "k"; lit "b"]).
Proof.
  set (c := set_remote (Remote (set_faults (repeat FOk 4 ++ [FErr 28 1]) (note (blit "keep" ++ [lf]))) Up) on_site). set (f := run_line p_run (lit "b") true None true (inl false)).
  exists 300%Z, c, (fst (f c)), (snd (f c)), (resume 300 c (snd (f c))), (result_of (f (resume 300 c (snd (f c))))), (snd (f (resume 300 c (snd (f c))))),
    (Node (KFile (blit "keep" ++ [lf])) 493 0 0 100 100), (Node (KFile (blit "k" ++ [lf] ++ blit "b" ++ [lf])) 493 0 0 300 300).
  destruct (note_ready (blit "keep" ++ [lf])) as [N1 N2]; [unfold small; vm_compute; reflexivity|].
  split; [destruct N1 as (M1 & M2 & M3 & (O1 & O2 & O3 & O4 & O5 & O6 & O7 & O8 & O9 & _)); split; [exact M1|]; split; [exact M2|]; split; [exact M3|]; split_and!; auto; repeat constructor; vm_compute; discriminate|].
  split; [intros k H; repeat (apply elem_of_cons in H as [H|H]; [discriminate H|]); inversion H|]. split; [reflexivity|]. split; [eexists; reflexivity|]. split; [exact N2|].
  split; [vm_compute; reflexivity|]. split; [eexists; split; [reflexivity|]; apply lines_of_iff; vm_compute; reflexivity|]. split; [apply surjective_pairing|].
  split; [apply resume_resumed; split; vm_compute; [discriminate|reflexivity]|]. split; [ran|]. split; [vm_compute; reflexivity|]. split; [vm_compute; reflexivity|].
  eexists; split; [reflexivity|]. apply lines_of_iff. vm_compute. reflexivity.
Qed.
Print Assumptions C47_line_refuted.

(** ** Cases that meet the hypotheses *)
(** The connection is lost after mkdir has been carried out and before its answer arrives; the rerun completes the directory. *)
Definition sub_place : place := [lit "sub"; lit "old"; lit "srv"].
Example C47_lost_case : let c := set_remote (Remote site (Losing 6 true)) on_site in let x := mk p_sub m755 alice c in let y := mk p_sub m755 alice (resume 300 c (snd x)) in
  ready c [] /\ honest (sysof c) /\ o_uid (sysof c) = 0%N /\ unaliased (sysof c) /\ feasible (sysof c) (c_base c) ([] ++ [asking alice None None m755]) /\ attainable (fun k => k = KDir) (sysof c) p_sub /\
  resumed 300 c (snd x) (resume 300 c (snd x)) /\ (exists e, fst x = Err e) /\
  file_at c sub_place = None /\ file_at (snd x) sub_place = Some (Node KDir 448 0 0 200 200) /\
  or_success (result_of y) = true /\ or_changed (result_of y) = true /\ file_at (snd y) sub_place = Some (Node KDir 493 1000 0 200 300).
Proof.
  cbv zeta. split; [exact site_ready|]. split; [exact site_honest|]. split; [reflexivity|]. split; [apply site_accounts|]. split; [exact (site_feasible alice None m755 (or_intror eq_refl) I ex_c755)|].
  split; [exact (ex_attainable (fun k => k = KDir) (lit "sub") (or_introl eq_refl))|]. split; [apply resume_resumed; split; vm_compute; [discriminate|reflexivity]|].
  split; [vm_compute; eexists; reflexivity|]. split; [vm_compute; reflexivity|]. split; [vm_compute; reflexivity|]. split; [vm_compute; reflexivity|]. split; vm_compute; reflexivity.
Qed.
(** A write fails after two bytes; the rerun completes the file. *)
Example C47_content_case : let c := set_remote (Remote (set_faults (repeat FOk 5 ++ [FErr 28 2]) site) Up) on_site in let x := put (blit "data") p_run m755 alice c in let y := put (blit "data") p_run m755 alice (resume 300 c (snd x)) in
  ready c [] /\ honest (sysof c) /\ (exists e, fst x = Err e) /\
  file_at c run_place = Some (Node (KFile (blit "#!")) 493 0 0 100 100) /\ file_at (snd x) run_place = Some (Node (KFile (blit "da")) 493 0 0 200 200) /\
  or_success (result_of y) = true /\ or_changed (result_of y) = true /\ file_at (snd y) run_place = Some (Node (KFile (blit "data")) 493 1000 0 300 300).
Proof.
  cbv zeta. split; [destruct site_ready as (M1 & M2 & M3 & (O1 & O2 & O3 & O4 & O5 & O6 & O7 & O8 & O9 & _)); split; [exact M1|]; split; [exact M2|]; split; [exact M3|]; split_and!; auto; repeat constructor; vm_compute; discriminate|].
  split; [intros k H; repeat (apply elem_of_cons in H as [H|H]; [discriminate H|]); inversion H|].
  split; [vm_compute; eexists; reflexivity|]. split; [vm_compute; reflexivity|]. split; [vm_compute; reflexivity|]. split; [vm_compute; reflexivity|]. split; vm_compute; reflexivity.
Qed.
(** Removing a directory stops in the middle; the rerun removes the rest. *)
Example C47_absent_case : let rm := operation NotGiven (directory (coreutils echo) fake_hash false p_srv false false None None None) in
  let c := set_remote (Remote (set_faults (repeat FOk 7 ++ [FErr 5 1]) site) Up) on_site in let x := rm c in let y := rm (resume 300 c (snd x)) in
  (exists e, fst x = Err e) /\ file_at c run_place = Some (Node (KFile (blit "#!")) 493 0 0 100 100) /\
  cwd_kept c (snd x) ([] ++ [asking None None None None]) /\
  (file_at (snd x) [lit "srv"] = Some (Node KDir 1517 0 0 100 100) /\ (file_at (snd x) run_place = None \/ file_at (snd x) [lit "old"; lit "srv"] = None \/ file_at (snd x) [lit "now"; lit "srv"] = None)) /\
  or_success (result_of y) = true /\ file_at (snd y) [lit "srv"] = None /\ file_at (snd y) run_place = None /\ file_at (snd y) [lit "old"; lit "srv"] = None.
Proof.
  cbv zeta. split; [vm_compute; eexists; reflexivity|]. split; [vm_compute; reflexivity|]. split; [intros w Hw; change (Some (lit "/tmp") = Some w) in Hw; injection Hw as <-; eexists _, _; split; [vm_compute; reflexivity|reflexivity]|].
  split; [split; [vm_compute; reflexivity|first [left; vm_compute; reflexivity|right; left; vm_compute; reflexivity|right; right; vm_compute; reflexivity]]|]. split; [vm_compute; reflexivity|]. split; [vm_compute; reflexivity|]. split; vm_compute; reflexivity.
Qed.
