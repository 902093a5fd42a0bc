(** An operation that was interrupted can be run again: the state it leaves is one from which it works. *)
From Coq Require Import Lia ZifyBool ZifyN ZifyNat.
From stdpp Require Import gmap.
From Verif Require Import Base Utf8 Codec Spec_Codec Codec_proofs Paths Sys Spec_Sys Sys_proofs Dispatcher Client Spec_Remote Remote_safe Remote_upload Remote_run Direct Control Spec_Control Control_settle Prop_Control Op Spec_Op Op_proofs Coreutils Files Walk_proofs Files_plain Spec_Files Shell_proofs Thrift Steps Dir_proofs Converge Spec_Link Link_walk Link_proofs Sound.
Local Open Scope nat_scope.

(** The same system at another time. *)
Definition at_time (t : Z) (s : os) : os :=
  OS (o_passwd s) (o_group s) (o_shadow s) (o_env s) (o_fs s) (o_uid s) (o_gid s) (o_groups s) (o_cwd s) t (o_faults s).
(** The script is where it was in [c], the system is as it was left in [c'], at some time.  The connection works and nothing fails any more. *)
Definition resumed (t : Z) (c c' c2 : ctl) : Prop := in_u64 t /\ c2 = set_remote (Remote (at_time t (set_faults [] (sysof c'))) Up) c.

(** ** Removing files *)
Definition fewer (fs fs' : fsys) : Prop := forall q, fs' !! q = fs !! q \/ fs' !! q = None.
Lemma walk_fewer fs fs' f : fewer fs fs' -> forall budget l cur,
  walk fs' f budget cur l = walk fs f budget cur l \/ walk fs' f budget cur l = Err (oserr ENOENT) \/ exists q, walk fs' f budget cur l = Ok q /\ fs' !! q = None.
Proof.
  intros Hs. induction budget as [|b IHb]; induction l as [|c r IH]; intros cur; rewrite (walk_unfold fs'), (walk_unfold fs); auto;
    destruct (str_eqb c (lit ".")); auto; destruct (str_eqb c (lit "..")); auto;
    destruct (Hs (c :: cur)) as [E|E]; rewrite E; [| |  |]; try (right; destruct r; eauto; fail);
    destruct (fs !! (c :: cur)) as [n|]; auto; destruct (n_kind n) as [x| |t|x]; auto.
  destruct (match r with [] => negb f | _ => false end); auto. destruct t; auto.
Qed.
Lemma resolve_fewer fs fs' cwd p f : fewer fs fs' ->
  resolve_node fs' cwd p f = resolve_node fs cwd p f \/ resolve_node fs' cwd p f = Err (oserr ENOENT).
Proof.
  intros Hs. unfold resolve_node, resolve. destruct (has_char nul p); [auto|]. destruct p as [|x p]; [auto|].
  destruct (walk_fewer fs fs' f Hs max_links (comps (x :: p)) (if isabs (x :: p) then [] else cwd)) as [H|[H|(q & H & Hq)]]; rewrite H.
  - destruct (walk fs f _ _ _) as [q|e]; [|auto]. cbn. destruct (Hs q) as [E|E]; rewrite E; auto.
  - right. reflexivity.
  - right. cbn. rewrite Hq. reflexivity.
Qed.
Lemma removed_fewer pl s s' : only_removed pl s s' -> fewer (o_fs s) (o_fs s').
Proof. intros [_ H] q. destruct (H q) as [E|[_ E]]; auto. Qed.
Lemma fewer_refl fs : fewer fs fs. Proof. left. reflexivity. Qed.

(** ** What the resumed state keeps *)
Lemma resumed_base t c c' c2 reqs : resumed t c c' c2 -> ready c reqs -> only_files (sysof c) (sysof c') -> os_ok (sysof c') -> o_uid (sysof c) = 0%N -> unaliased (sysof c) ->
  ready c2 reqs /\ healthy c2 /\ unaliased (sysof c2) /\ honest (sysof c2) /\ c_base c2 = c_base c /\ o_fs (sysof c2) = o_fs (sysof c') /\ only_files (at_time t (sysof c)) (sysof c2).
Proof.
  intros [Ht ->] ((d0 & Ha & He) & Hkb & Hac & Hos) Ho Hos' Hid Hun. set (s' := sysof c') in *. clearbody s'.
  assert (Hs : sysof (set_remote (Remote (at_time t (set_faults [] s')) Up) c) = at_time t (set_faults [] s')) by reflexivity.
  split; [|split; [|split; [|split; [|split; [|split]]]]].
  - split; [exists d0; split; [exact Ha|]|split; [exact Hkb|split]]; rewrite Hs.
    + apply (enclosing_files _ _ _ _ _ Ho) in He. exact He.
    + apply (accounts_files _ _ Ho) in Hac. exact Hac.
    + destruct Hos' as (O1 & O2 & O3 & O4 & O5 & O6 & O7 & O8 & O9 & O10). split_and!; auto. constructor.
  - split; [reflexivity|]. split; [reflexivity|]. rewrite Hs. rewrite Ho. exact Hid.
  - rewrite Hs. apply (unaliased_files _ _ Ho) in Hun. exact Hun.
  - rewrite Hs. intros k Hk. inversion Hk.
  - reflexivity.
  - reflexivity.
  - rewrite Hs, Ho. reflexivity.
Qed.

(** The operation was to make something of kind [isk]. *)
Lemma resumed_present t c c' c2 reqs q path isk : resumed t c c' c2 -> ready c reqs -> os_ok (sysof c') -> o_uid (sysof c) = 0%N -> unaliased (sysof c) ->
  feasible (sysof c) (c_base c) (reqs ++ [q]) -> attainable isk (sysof c) path ->
  (unaffected (sysof c) (sysof c') \/ exists pl n, sits path (sysof c) (sysof c') pl n /\ isk (n_kind n) /\ steady (o_fs (sysof c)) (o_fs (sysof c'))) ->
  ready c2 reqs /\ healthy c2 /\ unaliased (sysof c2) /\ honest (sysof c2) /\ feasible (sysof c2) (c_base c2) (reqs ++ [q]) /\ attainable isk (sysof c2) path.
Proof.
  intros Hre Hrd Hos' Hid Hun Hfe Hat Hway.
  assert (Ho : only_files (sysof c) (sysof c')) by (destruct Hway as [H|(pl & n & H & _)]; [apply unaffected_only; exact H|eapply sits_only; exact H]).
  destruct (resumed_base t c c' c2 reqs Hre Hrd Ho Hos' Hid Hun) as (B1 & B2 & B3 & B4 & B5 & B6 & B7).
  assert (Hst : steady (o_fs (sysof c)) (o_fs (sysof c'))).
  { destruct Hway as [H|(pl & n & _ & _ & H)]; [|exact H]. rewrite (unaffected_fs _ _ H). apply steady_grows, grows_refl. }
  assert (Hfe' := feasible_steady _ _ _ _ Ho Hst Hfe).
  split; [exact B1|]. split; [exact B2|]. split; [exact B3|]. split; [exact B4|]. split.
  - rewrite B5. destruct Hre as [_ ->]. exact Hfe'.
  - unfold attainable, sees_none, sees, creatable. rewrite B6. destruct Hway as [H|(pl & n & H & Hk & _)].
    + rewrite (unaffected_fs _ _ H). exact Hat.
    + right. exists pl, n. split; [apply H|exact Hk].
Qed.
(** Both runs together *)
Lemma resumed_place t c c' c2 c3 path pl n : resumed t c c' c2 ->
  (unaffected (sysof c) (sysof c') \/ exists pl1 n1, sits path (sysof c) (sysof c') pl1 n1) -> sits path (sysof c2) (sysof c3) pl n ->
  (forall pl1 n1, sees (sysof c2) path pl1 n1 -> exists n2, sees (sysof c3) path pl1 n2) ->
  only_at pl (at_time t (sysof c)) (sysof c3).
Proof.
  intros [_ Hre] Hway Hsit Hkeep. set (s2 := sysof c2) in *. assert (Hs2 : s2 = at_time t (set_faults [] (sysof c'))) by (unfold s2; rewrite Hre; reflexivity). clearbody s2.
  assert (Ho : only_files (sysof c) (sysof c')) by (destruct Hway as [H|(p1 & m1 & H)]; [apply unaffected_only; exact H|eapply sits_only; exact H]).
  assert (Ho2 : only_files (at_time t (sysof c)) s2) by (rewrite Hs2, Ho; reflexivity).
  split; [eapply only_files_trans; [exact Ho2|eapply sits_only; exact Hsit]|]. intros q Hq.
  assert (Hfs2 : o_fs s2 = o_fs (sysof c')) by (rewrite Hs2; reflexivity).
  assert (Hsit' := Hsit). destruct Hsit' as (_ & Hfs & Hr). rewrite Hfs, lookup_insert_ne, Hfs2 by congruence. cbn [o_fs at_time].
  destruct Hway as [H|(p1 & m1 & _ & H1 & H2)]; [rewrite (unaffected_fs _ _ H); reflexivity|].
  destruct (Hkeep p1 m1) as [n2 Hn2]; [unfold sees; rewrite Hfs2; exact H2|]. unfold sees in Hn2. rewrite Hr in Hn2. injection Hn2 as <- _.
  rewrite H1, lookup_insert_ne by congruence. reflexivity.
Qed.
Lemma sees_grows s s' path pl n : grows (o_fs s) (o_fs s') -> sees s path pl n -> exists n2, sees s' path pl n2.
Proof.
  intros Hg H. assert (Hn := H). apply resolve_node_split in Hn as [_ Hn]. destruct (Hg _ _ Hn) as (n' & Hn' & _). exists n'. eapply resolve_node_grows; eassumption.
Qed.
(** The operation was to remove something. *)
Lemma resumed_absent t c c' c2 reqs q path : resumed t c c' c2 -> ready c reqs -> os_ok (sysof c') -> o_uid (sysof c) = 0%N -> unaliased (sysof c) ->
  feasible (sysof c) (c_base c) (reqs ++ [q]) ->
  (forall w, wanted s_cwd (c_base c) (reqs ++ [q]) = Some w -> exists pl n, resolve_node (o_fs (sysof c')) (o_cwd (sysof c)) w false = Ok (pl, n) /\ n_kind n = KDir) ->
  only_files (sysof c) (sysof c') -> fewer (o_fs (sysof c)) (o_fs (sysof c')) ->
  ready c2 reqs /\ healthy c2 /\ unaliased (sysof c2) /\ honest (sysof c2) /\ feasible (sysof c2) (c_base c2) (reqs ++ [q]) /\
  (sees_none (sysof c2) path \/ resolve_node (o_fs (sysof c2)) [] path false = resolve_node (o_fs (sysof c)) [] path false).
Proof.
  intros Hre Hrd Hos' Hid Hun Hfe Hcwd Ho Hfw.
  destruct (resumed_base t c c' c2 reqs Hre Hrd Ho Hos' Hid Hun) as (B1 & B2 & B3 & B4 & B5 & B6 & B7).
  split; [exact B1|]. split; [exact B2|]. split; [exact B3|]. split; [exact B4|]. split.
  - assert (Hfe' : feasible (sysof c') (c_base c) (reqs ++ [q])).
    { destruct Hfe as (F1 & F2 & F3 & F4 & F5 & F6 & F7 & F8). rewrite Ho. split_and!; auto. cbn [o_fs o_cwd set_faults set_fs].
      destruct (wanted s_cwd (c_base c) (reqs ++ [q])) as [w|]; [|exact I]. destruct F8 as (W1 & W2 & _). split; [exact W1|]. split; [exact W2|]. exact (Hcwd w eq_refl). }
    rewrite B5. destruct Hre as [_ ->]. exact Hfe'.
  - unfold sees_none. rewrite B6. destruct (resolve_fewer _ _ [] path false Hfw) as [H|H]; auto.
Qed.
(** Both runs together.  [B] tells which places the operation may empty. *)
Definition emptied (B : place -> place -> Prop) (pl : place) (s s' : os) : Prop :=
  only_files s s' /\ forall q, o_fs s' !! q = o_fs s !! q \/ (B pl q /\ o_fs s' !! q = None).
Lemma emptied_trans B pl s1 s2 s3 : emptied B pl s1 s2 -> emptied B pl s2 s3 -> emptied B pl s1 s3.
Proof.
  intros [H1 H2] [H3 H4]. split; [eapply only_files_trans; eassumption|]. intros q. destruct (H4 q) as [E|E]; [|right; exact E]. rewrite E. apply H2.
Qed.
Lemma resumed_emptied B t c c' c2 c3 path isk : resumed t c c' c2 ->
  (sees_none (sysof c) path \/ exists pl n, sees (sysof c) path pl n /\ isk (n_kind n)) ->
  (sees_none (sysof c2) path \/ resolve_node (o_fs (sysof c2)) [] path false = resolve_node (o_fs (sysof c)) [] path false) ->
  (unaffected (sysof c) (sysof c') \/ exists pl n, at_path (sysof c) path pl n /\ isk (n_kind n) /\ emptied B pl (sysof c) (sysof c')) ->
  (unaffected (sysof c2) (sysof c3) \/ exists pl n, at_path (sysof c2) path pl n /\ isk (n_kind n) /\ emptied B pl (sysof c2) (sysof c3)) ->
  unaffected (at_time t (sysof c)) (sysof c3) \/ exists pl n, at_path (sysof c) path pl n /\ isk (n_kind n) /\ emptied B pl (at_time t (sysof c)) (sysof c3).
Proof.
  intros [_ Hre] Hat Hsee H1 H2. assert (Hs2 : sysof c2 = at_time t (set_faults [] (sysof c'))) by (rewrite Hre; reflexivity).
  assert (Hun : forall pl s s', unaffected s s' -> emptied B pl s s') by (intros pl s s' Hu; split; [apply unaffected_only; exact Hu|intros q; left; rewrite (unaffected_fs _ _ Hu); reflexivity]).
  destruct H1 as [H1|(pl & n & P1 & P2 & P3)].
  - assert (Hu : unaffected (at_time t (sysof c)) (sysof c2)) by (rewrite Hs2, H1; reflexivity).
    assert (Hfs : o_fs (sysof c2) = o_fs (sysof c)) by (rewrite (unaffected_fs _ _ Hu); reflexivity).
    destruct H2 as [H2|(p & m & Q1 & Q2 & Q3)]; [left; eapply unaffected_trans; eassumption|right]. exists p, m. split; [unfold at_path in *; rewrite Hfs in Q1; exact Q1|]. split; [exact Q2|].
    eapply emptied_trans; [apply Hun; exact Hu|exact Q3].
  - right. exists pl, n. split; [exact P1|]. split; [exact P2|].
    assert (Hstep : emptied B pl (at_time t (sysof c)) (sysof c2)).
    { destruct P3 as [P3 P4]. split; [rewrite Hs2, P3; reflexivity|]. intros q. rewrite Hs2. cbn [o_fs at_time set_faults]. apply P4. }
    destruct H2 as [H2|(p & m & Q1 & Q2 & Q3)]; [eapply emptied_trans; [exact Hstep|apply Hun; exact H2]|].
    assert (p = pl) as ->; [|eapply emptied_trans; eassumption].
    destruct Hsee as [Hsee|Hsee]; [destruct (none_missing _ _ Hsee p m Q1)|].
    destruct Hat as [Hat|(p0 & m0 & Hat & _)]; [destruct (none_missing _ _ Hat pl n P1)|].
    unfold sees in Hat. rewrite Hat in Hsee. apply resolve_node_names in Hat. apply resolve_node_names in Hsee.
    destruct (names_det _ _ _ _ _ _ _ _ Hat P1) as [<- _]. destruct (names_det _ _ _ _ _ _ _ _ Hsee Q1) as [<- _]. reflexivity.
Qed.
