(** C43, C44, C48: files.directory and files.file. *)
From Coq Require Import Lia ZifyBool ZifyN ZifyNat.
From stdpp Require Import gmap.
From Verif Require Import Base Utf8 Codec Spec_Codec Codec_proofs Paths Sys Spec_Sys Sys_proofs Dispatcher Client Spec_Remote Remote_run Direct Control Spec_Control Control_settle Prop_Control Op Spec_Op Op_proofs Coreutils Files Walk_proofs Files_plain Spec_Files Shell_proofs Thrift Steps Dir_proofs Converge Remote_examples Files_examples.
Local Open Scope nat_scope.

(** ** From the lemmas to the statements *)
Lemma matching_wanted s m attr n : matching s m attr n -> as_wanted s m (s_owner attr) (s_group attr) n.
Proof.
  intros (H1 & H2 & H3). cbn in H1, H2, H3. eexists _, _, _. split; [exact H1|].
  destruct (oct_tail_text _ _ (oct_tail_value (n_mode n))) as (k & Hk & Ht). apply N2Z.inj in Hk as <-.
  split; [exact Ht|]. split; [exact H2|]. split; [apply names_user; reflexivity|]. split; [exact H3|]. apply names_group. reflexivity.
Qed.
Lemma wanted_matching s m attr n : unaliased s -> as_wanted s m (s_owner attr) (s_group attr) n -> matching s m attr n.
Proof.
  intros [U1 U2] (t & u & g & -> & Ht & Eu & Hu & Eg & Hg). unfold matching. rewrite Eu, Eg. clear Eu Eg. apply octal_text_unique in Ht as ->. split; [reflexivity|]. unfold seen_owner, seen_group, statres_of.
  cbn [fmap option_fmap option_map st_owner st_group]. split.
  - destruct Hu as [(a & A1 & A2 & <-)|[Hu ->]].
    + unfold getpwuid. rewrite <- A2, (find_id pw_uid _ _ U1 A1). reflexivity.
    + destruct (getpwuid s (Z.of_N (n_uid n))) as [a|e] eqn:E; [|reflexivity]. unfold getpwuid in E. destruct (List.find _ _) as [b|] eqn:F; [|discriminate]. apply List.find_some in F as [F1 F2].
      destruct (Hu b (proj2 (elem_of_list_In _ _) F1)). lia.
  - destruct Hg as [(a & A1 & A2 & <-)|[Hg ->]].
    + unfold getgrgid. rewrite <- A2, (find_id gr_gid _ _ U2 A1). reflexivity.
    + destruct (getgrgid s (Z.of_N (n_gid n))) as [a|e] eqn:E; [|reflexivity]. unfold getgrgid in E. destruct (List.find _ _) as [b|] eqn:F; [|discriminate]. apply List.find_some in F as [F1 F2].
      destruct (Hg b (proj2 (elem_of_list_In _ _) F1)). lia.
Qed.

Lemma mode_below attr : octal_below 4096 (s_file_mode attr) -> octal_below 4096 (s_dir_mode attr) -> octal_below 4096 (s_dir_mode attr). Proof. auto. Qed.
Lemma means_octal m n t : m = Some t -> octal_text n t -> means m n. Proof. intros -> H. exists t. split; [reflexivity|apply H]. Qed.

(** The directory at the end of a run that ended in success: the owner and group asked for; the mode asked for, to which the
    set-id bits the directory had or inherited may have been added (see the refutation below); nothing else has changed. *)
Definition directory_made (c c' : ctl) (reqs : list settings) (q : settings) (path : pystr) (touch : bool) (attr : settings) (pl : place) (n : node) : Prop :=
  settles (sysof c) (c_base c) (reqs ++ [q]) attr /\ at_path (sysof c') path pl n /\ n_kind n = KDir /\
  owned (sysof c') (s_owner attr) (s_group attr) n /\
  (exists z, means (s_dir_mode attr) z /\ (n_mode n = z \/ n_mode n = N.lor z (kept_bits (sysof c) pl))) /\
  dated (sysof c) touch pl n /\ only_at pl (sysof c) (sysof c').
(** The file likewise; it keeps its content, and is empty if it is new.  Giving a file to another account takes its set-id bits. *)
Definition file_made (c c' : ctl) (reqs : list settings) (q : settings) (path : pystr) (touch : bool) (attr : settings) (pl : place) (n : node) : Prop :=
  settles (sysof c) (c_base c) (reqs ++ [q]) attr /\ at_path (sysof c') path pl n /\
  (match o_fs (sysof c) !! pl with Some n0 => regular (n_kind n0) /\ n_kind n = n_kind n0 | None => n_kind n = KFile [] end) /\
  owned (sysof c') (s_owner attr) (s_group attr) n /\
  (exists z, means (s_file_mode attr) z /\ (n_mode n = z \/ n_mode n = drop_suid z)) /\
  dated (sysof c) touch pl n /\ only_at pl (sysof c) (sysof c').

Section theorems.
  Variable rest : proc -> M xres.
  Variable sha512 : bytes -> bytes.
  Notation exec := (coreutils rest).
  Notation directory := (directory exec sha512 false).
  Notation file := (file exec sha512 false).

  (** *** The operations as instances *)
  Local Ltac cap H := destruct H as (P1 & P2 & P3); split; [exact P1|]; split; [exact P2|]; intros ? ? _; auto.
  Lemma dir_body_cap attr s c x c' a b path touch :
    unaffected s (sysof c) -> isabs path = true -> c_string path -> os_ok (sysof c) -> honest (sysof c) ->
    accounts_ok s -> accounts_of s attr a b -> s_dir_mode attr <> None -> dir_body exec sha512 false path true touch attr c = (x, c') ->
    (unaffected s (sysof c') \/ exists pl n, sits path s (sysof c') pl n /\ dir_conf s pl n) /\
    (forall res, x = Ok res -> or_success res = true ->
       exists pl n, sits path s (sysof c') pl n /\ dir_conf s pl n /\ dir_good s attr touch a b pl n /\ (or_changed res = false -> unaffected s (sysof c') /\ touch = false)) /\
    (fine c -> hash_ok sha512 -> True -> octal_below 4096 (s_dir_mode attr) ->
       (resolve_node (o_fs s) [] path false = Err (oserr ENOENT) /\ creatable s path) \/ (exists pl n, resolve_node (o_fs s) [] path false = Ok (pl, n) /\ n_kind n = KDir) ->
       exists res, x = Ok res /\ or_success res = true /\ fine c' /\
         (or_changed res = false <-> exists pl n, resolve_node (o_fs s) [] path false = Ok (pl, n) /\ matching s (s_dir_mode attr) attr n /\ touch = false)).
  Proof. intros H1 H2 H3 H4 H5 H6 H7 H8 H9. cap (dir_body_any rest sha512 path touch attr s c x c' a b H1 H2 H3 H4 H5 H6 H7 H8 H9). Qed.
  Lemma file_body_cap attr s c x c' a b path touch :
    unaffected s (sysof c) -> isabs path = true -> c_string path -> os_ok (sysof c) -> honest (sysof c) ->
    accounts_ok s -> accounts_of s attr a b -> s_file_mode attr <> None -> file_body exec sha512 false path true touch attr c = (x, c') ->
    (unaffected s (sysof c') \/ exists pl n, sits path s (sysof c') pl n /\ file_conf s pl n) /\
    (forall res, x = Ok res -> or_success res = true ->
       exists pl n, sits path s (sysof c') pl n /\ file_conf s pl n /\ file_good s attr touch a b pl n /\ (or_changed res = false -> unaffected s (sysof c') /\ touch = false)) /\
    (fine c -> hash_ok sha512 -> True -> octal_below 4096 (s_file_mode attr) ->
       (resolve_node (o_fs s) [] path false = Err (oserr ENOENT) /\ creatable s path) \/ (exists pl n, resolve_node (o_fs s) [] path false = Ok (pl, n) /\ is_file (n_kind n)) ->
       exists res, x = Ok res /\ or_success res = true /\ fine c' /\
         (or_changed res = false <-> exists pl n, resolve_node (o_fs s) [] path false = Ok (pl, n) /\ matching s (s_file_mode attr) attr n /\ touch = false)).
  Proof. intros H1 H2 H3 H4 H5 H6 H7 H8 H9. cap (file_body_any rest sha512 path touch attr s c x c' a b H1 H2 H3 H4 H5 H6 H7 H8 H9). Qed.
  Lemma directory_any a c r c' reqs path touch mode owner group :
    ready c reqs -> honest (sysof c) -> c_string path -> operation a (directory path true touch mode owner group) c = (r, c') ->
    (unaffected (sysof c) (sysof c') \/ exists pl n, sits path (sysof c) (sysof c') pl n /\ dir_conf (sysof c) pl n) /\
    (forall res, r = Ok res -> or_success res = true ->
       isabs path = true /\ exists attr x y pl n, settles (sysof c) (c_base c) (reqs ++ [want owner group None mode]) attr /\ accounts_of (sysof c) attr x y /\
         sits path (sysof c) (sysof c') pl n /\ dir_conf (sysof c) pl n /\ dir_good (sysof c) attr touch x y pl n /\ (or_changed res = false -> unaffected (sysof c) (sysof c') /\ touch = false)).
  Proof.
    intros Hr Hh Hp E.
    apply (present_any rest sha512 path touch (fun k => k = KDir) s_dir_mode dir_conf (fun s attr a b pl n => dir_good s attr touch a b pl n) (fun s attr n => matching s (s_dir_mode attr) attr n) True (dir_body exec sha512 false path true touch) (want owner group None mode) _
      (directory_plain exec sha512 false path true touch mode owner group) (fun d => remotely_dir _ _ _ _ _ _ _) dir_msel (fun attr s c x c' a b => dir_body_cap attr s c x c' a b path touch) a c r c' reqs); assumption.
  Qed.
  Lemma file_any a c r c' reqs path touch mode owner group :
    ready c reqs -> honest (sysof c) -> c_string path -> operation a (file path true touch mode owner group) c = (r, c') ->
    (unaffected (sysof c) (sysof c') \/ exists pl n, sits path (sysof c) (sysof c') pl n /\ file_conf (sysof c) pl n) /\
    (forall res, r = Ok res -> or_success res = true ->
       isabs path = true /\ exists attr x y pl n, settles (sysof c) (c_base c) (reqs ++ [want owner group mode None]) attr /\ accounts_of (sysof c) attr x y /\
         sits path (sysof c) (sysof c') pl n /\ file_conf (sysof c) pl n /\ file_good (sysof c) attr touch x y pl n /\ (or_changed res = false -> unaffected (sysof c) (sysof c') /\ touch = false)).
  Proof.
    intros Hr Hh Hp E.
    apply (present_any rest sha512 path touch is_file s_file_mode file_conf (fun s attr a b pl n => file_good s attr touch a b pl n) (fun s attr n => matching s (s_file_mode attr) attr n) True (file_body exec sha512 false path true touch) (want owner group mode None) _
      (file_plain exec sha512 false path true touch mode owner group) (fun d => remotely_file _ _ _ _ _ _ _) file_msel (fun attr s c x c' a b => file_body_cap attr s c x c' a b path touch) a c r c' reqs); assumption.
  Qed.
  Lemma dir_made c c' reqs q path touch attr x y pl n : settles (sysof c) (c_base c) (reqs ++ [q]) attr -> accounts_of (sysof c) attr x y ->
    sits path (sysof c) (sysof c') pl n -> dir_conf (sysof c) pl n -> dir_good (sysof c) attr touch x y pl n -> directory_made c c' reqs q path touch attr pl n.
  Proof.
    intros Hse Hof Hsit Hc (Hg & Hm & Hd). split; [exact Hse|]. split; [eapply sits_at; exact Hsit|]. split; [exact (proj1 Hc)|].
    split; [eapply owned_of; [eapply sits_only|..]; eassumption|]. split; [exact Hm|]. split; [exact Hd|]. eapply sits_only_at. exact Hsit.
  Qed.
  Lemma fil_made c c' reqs q path touch attr x y pl n : settles (sysof c) (c_base c) (reqs ++ [q]) attr -> accounts_of (sysof c) attr x y ->
    sits path (sysof c) (sysof c') pl n -> file_conf (sysof c) pl n -> file_good (sysof c) attr touch x y pl n -> file_made c c' reqs q path touch attr pl n.
  Proof.
    intros Hse Hof Hsit Hc (Hg & Hm & Hd). split; [exact Hse|]. split; [eapply sits_at; exact Hsit|]. split; [exact Hc|].
    split; [eapply owned_of; [eapply sits_only|..]; eassumption|]. split; [exact Hm|]. split; [exact Hd|]. eapply sits_only_at. exact Hsit.
  Qed.

  (** ** C43 *)
  (** Full statement: after success the directory has exactly the mode, owner and group asked for, and nothing else has changed.
      Missing: the set-id bits ([C43_directory_refuted]). *)
  Theorem C43_directory_partial a c r c' reqs path touch mode owner group :
    ready c reqs -> honest (sysof c) -> c_string path ->
    operation a (directory path true touch mode owner group) c = (Ok r, c') -> or_success r = true ->
    absolute path /\ exists attr pl n, directory_made c c' reqs (asking owner group None mode) path touch attr pl n /\
      (or_changed r = false -> unaffected (sysof c) (sysof c') /\ touch = false).
  Proof.
    intros Hr Hh Hp E Hs. destruct (directory_any _ _ _ _ _ _ _ _ _ _ Hr Hh Hp E) as [_ H].
    destruct (H r eq_refl Hs) as (Ha & attr & x & y & pl & n & Hse & Hof & Hsit & Hc & Hg & Hch).
    split; [apply absolute_isabs; exact Ha|]. exists attr, pl, n. split; [|exact Hch]. eapply dir_made; eassumption.
  Qed.
  (** However it ends: at most this directory has been created or changed; its place held a directory or nothing before. *)
  Theorem C43_directory_confined a c r c' reqs path touch mode owner group :
    ready c reqs -> honest (sysof c) -> c_string path ->
    operation a (directory path true touch mode owner group) c = (r, c') ->
    unaffected (sysof c) (sysof c') \/
    exists pl n, at_path (sysof c') path pl n /\ n_kind n = KDir /\ (forall n0, o_fs (sysof c) !! pl = Some n0 -> n_kind n0 = KDir) /\ only_at pl (sysof c) (sysof c').
  Proof.
    intros Hr Hh Hp E. destruct (directory_any _ _ _ _ _ _ _ _ _ _ Hr Hh Hp E) as [[H|(pl & n & H1 & H2 & H3)] _]; [left; exact H|right].
    exists pl, n. split; [eapply sits_at; exact H1|]. split; [exact H2|]. split; [exact H3|]. eapply sits_only_at. exact H1.
  Qed.
  (** It succeeds whenever nothing fails and the directory is there or can be created.  It reports no change iff the directory
      is there already, as wanted, and is not to be touched; then it does nothing. *)
  Theorem C43_directory_works a c r c' reqs path touch mode owner group :
    ready c reqs -> c_string path -> absolute path -> healthy c -> hash_ok sha512 -> unaliased (sysof c) ->
    feasible (sysof c) (c_base c) (reqs ++ [asking owner group None mode]) ->
    attainable (fun k => k = KDir) (sysof c) path ->
    operation a (directory path true touch mode owner group) c = (r, c') ->
    exists res attr pl n, r = Ok res /\ or_success res = true /\ healthy c' /\ c' = set_remote (c_remote c') c /\
      directory_made c c' reqs (asking owner group None mode) path touch attr pl n /\
      (or_changed res = false <-> (exists pl0 n0, sees (sysof c) path pl0 n0 /\ as_wanted (sysof c) (s_dir_mode attr) (s_owner attr) (s_group attr) n0) /\ touch = false) /\
      (or_changed res = false -> unaffected (sysof c) (sysof c')).
  Proof.
    intros Hr Hp Ha Hhl Hha Hun Hfe Hat E. apply absolute_isabs in Ha.
    destruct (present_works rest sha512 path touch (fun k => k = KDir) s_dir_mode dir_conf (fun s attr a b pl n => dir_good s attr touch a b pl n) (fun s attr n => matching s (s_dir_mode attr) attr n) True (dir_body exec sha512 false path true touch) (want owner group None mode) _
      (directory_plain exec sha512 false path true touch mode owner group) (fun d => remotely_dir _ _ _ _ _ _ _) dir_msel (fun attr s c x c' a b => dir_body_cap attr s c x c' a b path touch) a c r c' reqs) as
      (H1 & res & attr & -> & H2 & H3 & H4 & H5 & H6 & x & y & pl & n & H7 & H8 & H9 & H10 & H11); auto.
    exists res, attr, pl, n. split; [reflexivity|]. split; [exact H2|]. split; [exact H3|]. split; [exact H1|]. split; [eapply dir_made; eassumption|]. split; [|exact H11].
    rewrite H6. split.
    - intros (p0 & n0 & M1 & M2 & M3). split; [|exact M3]. exists p0, n0. split; [exact M1|]. apply matching_wanted. exact M2.
    - intros ((p0 & n0 & M1 & M2) & M3). exists p0, n0. split; [exact M1|]. split; [|exact M3]. apply wanted_matching; assumption.
  Qed.
  (** Full statement: running it again reports no change and changes nothing.  Missing: directories that keep or inherit a set-id
      bit, modes of the connection that are not written canonically, and accounts that share an id; all three are refuted below. *)
  Theorem C43_again_partial a a2 c r c' r2 c2 reqs path mode owner group touch :
    ready c reqs -> c_string path -> absolute path -> healthy c -> hash_ok sha512 ->
    feasible (sysof c) (c_base c) (reqs ++ [asking owner group None mode]) ->
    attainable (fun k => k = KDir) (sysof c) path ->
    unaliased (sysof c) -> canonical (s_dir_mode (c_base c)) -> 
    (forall pl n, at_path (sysof c') path pl n -> kept_bits (sysof c) pl = 0%N) ->
    operation a (directory path true touch mode owner group) c = (r, c') -> operation a2 (directory path true touch mode owner group) c' = (r2, c2) ->
    exists res2, r2 = Ok res2 /\ or_success res2 = true /\ (touch = false -> or_changed res2 = false /\ c2 = c').
  Proof.
    intros Hr Hp Ha Hhl Hha Hfe Hat Hun Hcan Hb E E2. apply absolute_isabs in Ha.
    destruct (present_again rest sha512 path touch (fun k => k = KDir) s_dir_mode dir_conf (fun s attr a b pl n => dir_good s attr touch a b pl n) (fun s attr n => matching s (s_dir_mode attr) attr n) True (dir_body exec sha512 false path true touch) (want owner group None mode) _
      (directory_plain exec sha512 false path true touch mode owner group) (fun d => remotely_dir _ _ _ _ _ _ _) dir_msel (fun attr s c x c' a b => dir_body_cap attr s c x c' a b path touch)
      (dir_fields touch) (fun _ _ _ _ _ _ _ _ _ H => H) dir_conf_facts a a2 c r c' r2 c2 reqs) as (_ & _ & _ & H); auto.
    intros attr x y pl n z Hse (Hg & (z' & Hz & Hm) & Hd) Hsit Hmz. rewrite (Hb pl n) in Hm by (eapply sits_at; exact Hsit). rewrite N.lor_0_r in Hm.
    destruct Hz as (t & Ht & Hv), Hmz as (t' & Ht' & Hv'). rewrite Ht in Ht'. injection Ht' as <-. rewrite Hv in Hv'. injection Hv' as Hv'. apply N2Z.inj in Hv'. destruct Hm; congruence.
  Qed.
  (** present=False *)
  Theorem C43_absent a c r c' reqs path touch mode owner group :
    ready c reqs -> honest (sysof c) -> c_string path ->
    operation a (directory path false touch mode owner group) c = (r, c') ->
    (unaffected (sysof c) (sysof c') \/ exists pl n, at_path (sysof c) path pl n /\ n_kind n = KDir /\ only_removed pl (sysof c) (sysof c')) /\
    (forall res, r = Ok res -> or_success res = true -> missing (sysof c') path /\ (or_changed res = false -> unaffected (sysof c) (sysof c'))).
  Proof.
    intros Hr Hh Hp E.
    destruct (absent_op rest sha512 path (fun k => k = KDir) (fun s pl s' => only_removed pl s s') (fun pl _ => removable path pl) (dir_body exec sha512 false path false touch) (want owner group None mode) _
      (directory_plain exec sha512 false path false touch mode owner group) (fun d => remotely_dir _ _ _ _ _ _ _) (fun attr s c x c' => dir_absent_any rest sha512 path touch attr s c x c') a c r c' reqs Hr Hh Hp E) as [H1 H2].
    split; [|exact H2]. destruct H1 as [H1|(pl & n & H3 & H4 & H5)]; [left; exact H1|right]. exists pl, n. split; [apply resolve_node_names; exact H3|]. auto.
  Qed.
  Theorem C43_absent_works a c r c' reqs path touch mode owner group :
    ready c reqs -> c_string path -> absolute path -> healthy c -> hash_ok sha512 ->
    feasible (sysof c) (c_base c) (reqs ++ [asking owner group None mode]) ->
    sees_none (sysof c) path \/ (exists pl n, sees (sysof c) path pl n /\ n_kind n = KDir /\ pl <> [] /\ basename path <> lit "." /\ basename path <> lit "..") ->
    operation a (directory path false touch mode owner group) c = (r, c') ->
    exists res, r = Ok res /\ or_success res = true /\ healthy c' /\ missing (sysof c') path /\
      (or_changed res = false <-> sees_none (sysof c) path) /\ (or_changed res = false -> c' = c).
  Proof.
    intros Hr Hp Ha Hhl Hha Hfe Hat E. apply absolute_isabs in Ha.
    destruct (absent_works rest sha512 path (fun k => k = KDir) (fun s pl s' => only_removed pl s s') (fun pl _ => removable path pl) (dir_body exec sha512 false path false touch) (want owner group None mode) _
      (directory_plain exec sha512 false path false touch mode owner group) (fun d => remotely_dir _ _ _ _ _ _ _) (fun attr s c x c' => dir_absent_any rest sha512 path touch attr s c x c') a c r c' reqs Hr Hp Ha E Hhl Hha Hfe)
      as (_ & res & -> & H1 & H2 & H3 & H4).
    - destruct Hat as [H|(pl & n & H)]; [left; exact H|right; exists pl, n; unfold sees, removable in *; tauto].
    - exists res. split; [reflexivity|]. split; [exact H1|]. split; [exact H2|]. split; [|split; [exact H3|exact H4]].
      eapply C43_absent in E; [|eassumption| |assumption]; [|intros k Hk; destruct Hhl as (_ & Hf & _); rewrite Hf in Hk; inversion Hk].
      destruct E as [_ E]. apply (E res eq_refl H1).
  Qed.

  (** ** C44 *)
  (** Full statement: after success the file has exactly the mode, owner and group asked for.  Missing: set-id bits, which are
      lost if the owner or group changes ([C44_file_refuted]). *)
  Theorem C44_file_partial a c r c' reqs path touch mode owner group :
    ready c reqs -> honest (sysof c) -> c_string path ->
    operation a (file path true touch mode owner group) c = (Ok r, c') -> or_success r = true ->
    absolute path /\ exists attr pl n, file_made c c' reqs (asking owner group mode None) path touch attr pl n /\
      (or_changed r = false -> unaffected (sysof c) (sysof c') /\ touch = false).
  Proof.
    intros Hr Hh Hp E Hs. destruct (file_any _ _ _ _ _ _ _ _ _ _ Hr Hh Hp E) as [_ H].
    destruct (H r eq_refl Hs) as (Ha & attr & x & y & pl & n & Hse & Hof & Hsit & Hc & Hg & Hch).
    split; [apply absolute_isabs; exact Ha|]. exists attr, pl, n. split; [|exact Hch]. eapply fil_made; eassumption.
  Qed.
  Theorem C44_file_confined a c r c' reqs path touch mode owner group :
    ready c reqs -> honest (sysof c) -> c_string path ->
    operation a (file path true touch mode owner group) c = (r, c') ->
    unaffected (sysof c) (sysof c') \/
    exists pl n, at_path (sysof c') path pl n /\
      (match o_fs (sysof c) !! pl with Some n0 => regular (n_kind n0) /\ n_kind n = n_kind n0 | None => n_kind n = KFile [] end) /\ only_at pl (sysof c) (sysof c').
  Proof.
    intros Hr Hh Hp E. destruct (file_any _ _ _ _ _ _ _ _ _ _ Hr Hh Hp E) as [[H|(pl & n & H1 & H2)] _]; [left; exact H|right].
    exists pl, n. split; [eapply sits_at; exact H1|]. split; [exact H2|]. eapply sits_only_at. exact H1.
  Qed.
  Theorem C44_file_works a c r c' reqs path touch mode owner group :
    ready c reqs -> c_string path -> absolute path -> healthy c -> hash_ok sha512 -> unaliased (sysof c) ->
    feasible (sysof c) (c_base c) (reqs ++ [asking owner group mode None]) ->
    attainable regular (sysof c) path ->
    operation a (file path true touch mode owner group) c = (r, c') ->
    exists res attr pl n, r = Ok res /\ or_success res = true /\ healthy c' /\ c' = set_remote (c_remote c') c /\
      file_made c c' reqs (asking owner group mode None) path touch attr pl n /\
      (or_changed res = false <-> (exists pl0 n0, sees (sysof c) path pl0 n0 /\ as_wanted (sysof c) (s_file_mode attr) (s_owner attr) (s_group attr) n0) /\ touch = false) /\
      (or_changed res = false -> unaffected (sysof c) (sysof c')).
  Proof.
    intros Hr Hp Ha Hhl Hha Hun Hfe Hat E. apply absolute_isabs in Ha.
    destruct (present_works rest sha512 path touch is_file s_file_mode file_conf (fun s attr a b pl n => file_good s attr touch a b pl n) (fun s attr n => matching s (s_file_mode attr) attr n) True (file_body exec sha512 false path true touch) (want owner group mode None) _
      (file_plain exec sha512 false path true touch mode owner group) (fun d => remotely_file _ _ _ _ _ _ _) file_msel (fun attr s c x c' a b => file_body_cap attr s c x c' a b path touch) a c r c' reqs) as
      (H1 & res & attr & -> & H2 & H3 & H4 & H5 & H6 & x & y & pl & n & H7 & H8 & H9 & H10 & H11); auto.
    exists res, attr, pl, n. split; [reflexivity|]. split; [exact H2|]. split; [exact H3|]. split; [exact H1|]. split; [eapply fil_made; eassumption|]. split; [|exact H11].
    rewrite H6. split.
    - intros (p0 & n0 & M1 & M2 & M3). split; [|exact M3]. exists p0, n0. split; [exact M1|]. apply matching_wanted. exact M2.
    - intros ((p0 & n0 & M1 & M2) & M3). exists p0, n0. split; [exact M1|]. split; [|exact M3]. apply wanted_matching; assumption.
  Qed.
  (** Missing from the full statement: modes with set-id bits, non-canonical modes of the connection, accounts that share an id. *)
  Theorem C44_again_partial a a2 c r c' r2 c2 reqs path mode owner group touch :
    ready c reqs -> c_string path -> absolute path -> healthy c -> hash_ok sha512 ->
    feasible (sysof c) (c_base c) (reqs ++ [asking owner group mode None]) ->
    attainable regular (sysof c) path ->
    unaliased (sysof c) -> canonical (s_file_mode (c_base c)) ->
    octal_below 1024 (wanted s_file_mode (c_base c) (reqs ++ [asking owner group mode None])) ->
    operation a (file path true touch mode owner group) c = (r, c') -> operation a2 (file path true touch mode owner group) c' = (r2, c2) ->
    exists res2, r2 = Ok res2 /\ or_success res2 = true /\ (touch = false -> or_changed res2 = false /\ c2 = c').
  Proof.
    intros Hr Hp Ha Hhl Hha Hfe Hat Hun Hcan Hb E E2. apply absolute_isabs in Ha.
    destruct (present_again rest sha512 path touch is_file s_file_mode file_conf (fun s attr a b pl n => file_good s attr touch a b pl n) (fun s attr n => matching s (s_file_mode attr) attr n) True (file_body exec sha512 false path true touch) (want owner group mode None) _
      (file_plain exec sha512 false path true touch mode owner group) (fun d => remotely_file _ _ _ _ _ _ _) file_msel (fun attr s c x c' a b => file_body_cap attr s c x c' a b path touch)
      (file_fields touch) (fun _ _ _ _ _ _ _ _ _ H => H) file_conf_facts a a2 c r c' r2 c2 reqs) as (_ & _ & _ & H); auto.
    intros attr x y pl n z Hse (Hg & (z' & Hz & Hm) & Hd) Hsit Hmz.
    assert (Hzz : z' = z). { destruct Hz as (t & Ht & Hv), Hmz as (t' & Ht' & Hv'). rewrite Ht in Ht'. injection Ht' as <-. rewrite Hv in Hv'. injection Hv' as Hv'. apply N2Z.inj in Hv'. congruence. }
    subst z'. assert (Hlt : (z < 1024)%N).
    { apply file_msel in Hse. destruct Hb as (t & v & Ht & _ & _ & _ & Hv & Hlt). unfold wanted in Ht. cbn [innermost] in Ht. change (want owner group mode None) with (asking owner group mode None) in Hse.
      destruct Hmz as (t' & Ht' & Hv'). unfold mode_settles in Hse. destruct (innermost (List.map s_file_mode (reqs ++ [asking owner group mode None]))) as [m|].
      - injection Ht as <-. destruct Hse as (k & u & K1 & K2 & K3 & _). rewrite K2 in Ht'. injection Ht' as <-. rewrite K3 in Hv'. rewrite K1 in Hv. injection Hv as Hv. injection Hv' as Hv'. lia.
      - destruct Hse as [Hse _]. rewrite Hse, Ht in Ht'. injection Ht' as <-. rewrite Hv in Hv'. injection Hv' as Hv'. lia. }
    rewrite (drop_suid_none z Hlt) in Hm. destruct Hm; assumption.
  Qed.
  Theorem C44_absent a c r c' reqs path touch mode owner group :
    ready c reqs -> honest (sysof c) -> c_string path ->
    operation a (file path false touch mode owner group) c = (r, c') ->
    (unaffected (sysof c) (sysof c') \/ exists pl n, at_path (sysof c) path pl n /\ regular (n_kind n) /\ only_at pl (sysof c) (sysof c') /\ only_removed pl (sysof c) (sysof c')) /\
    (forall res, r = Ok res -> or_success res = true -> missing (sysof c') path /\ (or_changed res = false -> unaffected (sysof c) (sysof c'))).
  Proof.
    intros Hr Hh Hp E.
    destruct (absent_op rest sha512 path is_file (fun s pl s' => only_at pl s s' /\ only_removed pl s s') (fun _ _ => True) (file_body exec sha512 false path false touch) (want owner group mode None) _
      (file_plain exec sha512 false path false touch mode owner group) (fun d => remotely_file _ _ _ _ _ _ _)) with (a := a) (c := c) (r := r) (c' := c') (reqs := reqs) as [H1 H2]; auto.
    - intros attr s c0 x c0' A1 A2 A3 A4 A5 A6. destruct (file_absent_any rest sha512 path touch attr s c0 x c0' A1 A2 A3 A4 A5 A6) as (B1 & B2 & B3). split; [exact B1|]. split; [exact B2|].
      intros B4 B5 [B6|(pl & n & B6 & B7 & _)]; apply B3; eauto.
    - split; [|exact H2]. destruct H1 as [H1|(pl & n & H3 & H4 & H5)]; [left; exact H1|right]. exists pl, n. split; [apply resolve_node_names; exact H3|]. auto.
  Qed.
  Theorem C44_absent_works a c r c' reqs path touch mode owner group :
    ready c reqs -> c_string path -> absolute path -> healthy c -> hash_ok sha512 ->
    feasible (sysof c) (c_base c) (reqs ++ [asking owner group mode None]) ->
    sees_none (sysof c) path \/ (exists pl n, sees (sysof c) path pl n /\ regular (n_kind n)) ->
    operation a (file path false touch mode owner group) c = (r, c') ->
    exists res, r = Ok res /\ or_success res = true /\ healthy c' /\ missing (sysof c') path /\
      (or_changed res = false <-> sees_none (sysof c) path) /\ (or_changed res = false -> c' = c).
  Proof.
    intros Hr Hp Ha Hhl Hha Hfe Hat E. apply absolute_isabs in Ha.
    destruct (absent_works rest sha512 path is_file (fun s pl s' => only_at pl s s' /\ only_removed pl s s') (fun _ _ => True) (file_body exec sha512 false path false touch) (want owner group mode None) _
      (file_plain exec sha512 false path false touch mode owner group) (fun d => remotely_file _ _ _ _ _ _ _)) with (a := a) (c := c) (r := r) (c' := c') (reqs := reqs)
      as (_ & res & -> & H1 & H2 & H3 & H4); auto.
    - intros attr s c0 x c0' A1 A2 A3 A4 A5 A6. destruct (file_absent_any rest sha512 path touch attr s c0 x c0' A1 A2 A3 A4 A5 A6) as (B1 & B2 & B3). split; [exact B1|]. split; [exact B2|].
      intros B4 B5 [B6|(pl & n & B6 & B7 & _)]; apply B3; eauto.
    - destruct Hat as [H|(pl & n & H & H')]; [left; exact H|right; exists pl, n; auto].
    - exists res. split; [reflexivity|]. split; [exact H1|]. split; [exact H2|]. split; [|split; [exact H3|exact H4]].
      eapply C44_absent in E; [|eassumption| |assumption]; [|intros k Hk; destruct Hhl as (_ & Hf & _); rewrite Hf in Hk; inversion Hk].
      destruct E as [_ E]. apply (E res eq_refl H1).
  Qed.
End theorems.
Print Assumptions C43_directory_partial.
Print Assumptions C43_directory_confined.
Print Assumptions C43_directory_works.
Print Assumptions C43_again_partial.
Print Assumptions C43_absent.
Print Assumptions C43_absent_works.
Print Assumptions C44_file_partial.
Print Assumptions C44_file_confined.
Print Assumptions C44_file_works.
Print Assumptions C44_again_partial.
Print Assumptions C44_absent.
Print Assumptions C44_absent_works.

(** ** Refutations.  In each the operation succeeds twice on a healthy system, and the second time it has again something to change. *)
Definition p_srv := lit "/srv". Definition p_run := lit "/srv/run". Definition p_new := lit "/srv/new".
Definition m755 := Some (lit "755"). Definition alice := Some (lit "alice").
Definition mk path mode owner := operation NotGiven (directory (coreutils echo) fake_hash false path true false mode owner None).
Definition mkf path mode owner := operation NotGiven (file (coreutils echo) fake_hash false path true false mode owner None).
Definition result_of (x : result opres * ctl) : opres := match fst x with Ok r => r | Err _ => OpRes false false [] [] None end.
Lemma surely x : or_success (result_of x) = true -> x = (Ok (result_of x), snd x).
Proof. destruct x as [[r|e] c]; cbn; [reflexivity|discriminate]. Qed.
Ltac ran := apply surely; vm_compute; reflexivity.

(** Full statement (false): after a successful run the directory has the mode asked for.  [chmod 755] keeps the set-group-id bit. *)
Theorem C43_directory_refuted : exists c r c' r2 c2 pl n, ready c [] /\ healthy c /\
  mk p_srv m755 None c = (Ok r, c') /\ or_success r = true /\
  mk p_srv m755 None c' = (Ok r2, c2) /\ or_success r2 = true /\ or_changed r2 = true /\
  at_path (sysof c2) p_srv pl n /\ ~ means m755 (n_mode n).
Proof.
  exists on_site. set (c1 := snd (mk p_srv m755 None on_site)). set (c2 := snd (mk p_srv m755 None c1)).
  exists (result_of (mk p_srv m755 None on_site)), c1, (result_of (mk p_srv m755 None c1)), c2. eexists [_], (Node KDir 1517 0 0 100 200).
  split; [exact site_ready|]. split; [exact site_healthy|]. split; [ran|]. split; [vm_compute; reflexivity|]. split; [ran|]. split; [vm_compute; reflexivity|]. split; [vm_compute; reflexivity|].
  split; [apply resolve_node_names; vm_compute; reflexivity|]. intros (t & [= <-] & H). vm_compute in H. discriminate H.
Qed.
Print Assumptions C43_directory_refuted.
(** It is enough that the parent directory has the bit. *)
Theorem C43_directory_refuted_new : exists c r c' r2 c2 pl n, ready c [] /\ healthy c /\ sees_none (sysof c) p_new /\
  mk p_new m755 None c = (Ok r, c') /\ or_success r = true /\
  mk p_new m755 None c' = (Ok r2, c2) /\ or_success r2 = true /\ or_changed r2 = true /\
  at_path (sysof c2) p_new pl n /\ ~ means m755 (n_mode n).
Proof.
  exists on_site. set (c1 := snd (mk p_new m755 None on_site)). set (c2 := snd (mk p_new m755 None c1)).
  exists (result_of (mk p_new m755 None on_site)), c1, (result_of (mk p_new m755 None c1)), c2. eexists [_; _], (Node KDir 1517 0 0 200 200).
  split; [exact site_ready|]. split; [exact site_healthy|]. split; [vm_compute; reflexivity|]. split; [ran|]. split; [vm_compute; reflexivity|]. split; [ran|]. split; [vm_compute; reflexivity|]. split; [vm_compute; reflexivity|].
  split; [apply resolve_node_names; vm_compute; reflexivity|]. intros (t & [= <-] & H). vm_compute in H. discriminate H.
Qed.
Print Assumptions C43_directory_refuted_new.
(** Full statement (false): after a successful run the file has the mode asked for.  The set-user-id bit is set, and lost again when
    the file is given to alice. *)
Theorem C44_file_refuted : exists c r c' pl n, ready c [] /\ healthy c /\
  mkf p_run (Some (lit "4755")) alice c = (Ok r, c') /\ or_success r = true /\
  at_path (sysof c') p_run pl n /\ ~ means (Some (lit "4755")) (n_mode n).
Proof.
  exists on_site, (result_of (mkf p_run (Some (lit "4755")) alice on_site)), (snd (mkf p_run (Some (lit "4755")) alice on_site)).
  eexists [_; _], (Node (KFile (blit "#!")) 493 1000 0 100 200).
  split; [exact site_ready|]. split; [exact site_healthy|]. split; [ran|]. split; [vm_compute; reflexivity|].
  split; [apply resolve_node_names; vm_compute; reflexivity|]. intros (t & [= <-] & H). vm_compute in H. discriminate H.
Qed.
Print Assumptions C44_file_refuted.

(** Full statement (false): the second run reports no change.  The connection's default mode is written "0700". *)
Definition odd_base : settings := Settings (s_as_user ex_base) (s_as_group ex_base) (s_owner ex_base) (s_group ex_base) (s_file_mode ex_base) (Some (lit "0700")) (s_umask ex_base) (s_cwd ex_base).
Definition odd_settled : settings := Settings (s_as_user ex_settled) (s_as_group ex_settled) (s_owner ex_settled) (s_group ex_settled) (s_file_mode ex_settled) (Some (lit "0700")) (s_umask ex_settled) (s_cwd ex_settled).
Definition on_odd : ctl := Ctl (Remote site Up) odd_base [Script' [odd_settled; no_settings] (Some (lit "/s"))] (Some 0%nat) [0%nat] (lit "/d") [] 1.
Lemma odd_ready : ready on_odd [].
Proof.
  split; [|split; [split; discriminate|]; split; [apply site_accounts|apply site_ok]]. exists odd_settled. split; [reflexivity|].
  left. pose proof (site_root []). pose proof (site_root_group []).
  split_and!; try (eexists; split; [eassumption|reflexivity]); try (split; [reflexivity|discriminate]). reflexivity.
Qed.
Definition p_old := lit "/srv/old".
Theorem C43_again_refuted : exists c r c' r2 c2 pl n, ready c [] /\ healthy c /\ unaliased (sysof c) /\
  mk p_old None None c = (Ok r, c') /\ or_success r = true /\ at_path (sysof c') p_old pl n /\ kept_bits (sysof c) pl = 0%N /\
  mk p_old None None c' = (Ok r2, c2) /\ or_success r2 = true /\ or_changed r2 = true.
Proof.
  exists on_odd. set (c1 := snd (mk p_old None None on_odd)). set (c2 := snd (mk p_old None None c1)).
  exists (result_of (mk p_old None None on_odd)), c1, (result_of (mk p_old None None c1)), c2, [lit "old"; lit "srv"], (Node KDir 448 0 0 100 200).
  split; [exact odd_ready|]. split; [split_and!; reflexivity|]. split; [apply site_accounts|]. split; [ran|]. split; [vm_compute; reflexivity|].
  split; [apply resolve_node_names; vm_compute; reflexivity|]. split; [vm_compute; reflexivity|]. split; [ran|]. split; vm_compute; reflexivity.
Qed.
Print Assumptions C43_again_refuted.
(** bob has the same user id as alice: the system shows a file of bob's as alice's. *)
Definition bob : account := Account (lit "bob") 1000 100 [] (lit "/home") (lit "/bin/sh").
Definition on_shared : ctl := on (site_with [bob]) ex_base.
Lemma shared_ready : ready on_shared [].
Proof.
  split; [exists ex_settled; split; [reflexivity|apply site_enclosing]|]. split; [split; discriminate|]. split.
  - split_and!; try dec; each; (apply word_dec; [text|vm_compute; reflexivity|vm_compute; reflexivity]).
  - apply site_with_ok. assert (S : forall x, short x -> str_ok x) by (intros x [H1 H2]; split; [exact H1|unfold small; lia]).
    each; unfold acct_ok; parts; try (apply S; text); unfold id_ok; cbn; lia.
Qed.
Theorem C44_again_refuted : exists c r c' r2 c2, ready c [] /\ healthy c /\ canonical_base (c_base c) /\
  mkf p_run m755 (Some (lit "bob")) c = (Ok r, c') /\ or_success r = true /\
  mkf p_run m755 (Some (lit "bob")) c' = (Ok r2, c2) /\ or_success r2 = true /\ or_changed r2 = true.
Proof.
  exists on_shared. set (f := mkf p_run m755 (Some (lit "bob"))). set (c1 := snd (f on_shared)). set (c2 := snd (f c1)).
  exists (result_of (f on_shared)), c1, (result_of (f c1)), c2. split; [exact shared_ready|]. split; [split_and!; reflexivity|].
  split; [split; [exists 384%N|exists 448%N]; (eexists; split; [reflexivity|]; split; [vm_compute; reflexivity|]; split; [dec|split; [discriminate|discriminate]])|].
  split; [ran|]. split; [vm_compute; reflexivity|]. split; [ran|]. split; vm_compute; reflexivity.
Qed.
Print Assumptions C44_again_refuted.

(** ** Cases that meet the hypotheses *)
Definition p_sub := lit "/srv/old/sub". Definition p_file := lit "/srv/old/file".
Lemma ex_attainable k x : (x = lit "sub" \/ x = lit "file") -> attainable k (sysof on_site) (lit "/srv/old/" ++ x).
Proof.
  intros Hx. left. split; [destruct Hx as [-> | ->]; vm_compute; reflexivity|].
  exists (lit "/srv/old"), x. eexists _, _. split; [reflexivity|]. split; [destruct Hx as [-> | ->]; split_and!; try dec; split_and!; dec|].
  split; [|right; split; [eexists; reflexivity|]; split; [reflexivity|vm_compute; reflexivity]]. reflexivity.
Qed.
Lemma ex_hash : hash_ok fake_hash.
Proof. intros b. unfold fake_hash, small. rewrite firstn_length. lia. Qed.
Lemma ex_c755 : octal_below 4096 m755. Proof. apply (octal_below_dec _ _ 493). vm_compute. reflexivity. Qed.
Definition file_at (c : ctl) (pl : place) := o_fs (sysof c) !! pl.
Example C43_directory_case :
  ready on_site [] /\ healthy on_site /\ honest (sysof on_site) /\ c_string p_sub /\ absolute p_sub /\ hash_ok fake_hash /\ unaliased (sysof on_site) /\
  feasible (sysof on_site) (c_base on_site) ([] ++ [asking alice None None m755]) /\ attainable (fun k => k = KDir) (sysof on_site) p_sub /\
  let x := mk p_sub m755 alice on_site in let y := mk p_sub m755 alice (snd x) in
  or_success (result_of x) = true /\ or_changed (result_of x) = true /\
  file_at (snd x) [lit "sub"; lit "old"; lit "srv"] = Some (Node KDir 493 1000 0 200 200) /\
  or_success (result_of y) = true /\ or_changed (result_of y) = false.
Proof.
  split; [exact site_ready|]. split; [exact site_healthy|]. split; [exact site_honest|]. split; [split; [text|dec]|]. split; [eexists; reflexivity|]. split; [exact ex_hash|].
  split; [apply site_accounts|]. split; [apply site_feasible; [right; reflexivity|exact I|exact ex_c755]|]. split; [apply (ex_attainable _ (lit "sub")); left; reflexivity|].
  cbn zeta. split; [vm_compute; reflexivity|]. split; [vm_compute; reflexivity|]. split; [vm_compute; reflexivity|]. split; vm_compute; reflexivity.
Qed.
Example C43_absent_case : let x := operation NotGiven (directory (coreutils echo) fake_hash false p_srv false false None None None) on_site in
  or_success (result_of x) = true /\ or_changed (result_of x) = true /\ file_at (snd x) [lit "srv"] = None /\ file_at (snd x) [lit "old"; lit "srv"] = None /\
  sees (sysof on_site) p_srv [lit "srv"] (Node KDir 1517 0 0 100 100).
Proof. cbn zeta. split; [vm_compute; reflexivity|]. split; [vm_compute; reflexivity|]. split; [vm_compute; reflexivity|]. split; vm_compute; reflexivity. Qed.
Example C44_file_case :
  feasible (sysof on_site) (c_base on_site) ([] ++ [asking alice None m755 None]) /\ attainable regular (sysof on_site) p_run /\ attainable regular (sysof on_site) p_file /\
  (let x := mkf p_run m755 alice on_site in let y := mkf p_run m755 alice (snd x) in or_success (result_of x) = true /\ or_changed (result_of x) = true /\
    file_at (snd x) [lit "run"; lit "srv"] = Some (Node (KFile (blit "#!")) 493 1000 0 100 200) /\ or_success (result_of y) = true /\ or_changed (result_of y) = false) /\
  (let x := mkf p_file m755 alice on_site in or_success (result_of x) = true /\
    file_at (snd x) [lit "file"; lit "old"; lit "srv"] = Some (Node (KFile []) 493 1000 0 200 200)).
Proof.
  split; [apply site_feasible; [right; reflexivity|exact ex_c755|exact I]|]. split; [right; exists [lit "run"; lit "srv"], (Node (KFile (blit "#!")) 493 0 0 100 100); split; [vm_compute; reflexivity|eexists; reflexivity]|].
  split; [apply (ex_attainable _ (lit "file")); right; reflexivity|]. cbn zeta. split.
  - split; [vm_compute; reflexivity|]. split; [vm_compute; reflexivity|]. split; [vm_compute; reflexivity|]. split; vm_compute; reflexivity.
  - split; vm_compute; reflexivity.
Qed.
Example C44_absent_case : let x := operation NotGiven (file (coreutils echo) fake_hash false p_run false false None None None) on_site in
  or_success (result_of x) = true /\ or_changed (result_of x) = true /\ file_at (snd x) [lit "run"; lit "srv"] = None.
Proof. cbn zeta. split; [vm_compute; reflexivity|]. split; vm_compute; reflexivity. Qed.

(** ** C48: every file operation rejects a relative path before it sends anything *)
Section relative.
  Variable exec : proc -> M xres.
  Variable sha512 : bytes -> bytes.
  Variables dry want_diff : bool.
  Variable search : bool -> pystr -> pystr -> result bool.
  Variables date : pystr.
  (** the operations of files.py that are given [path] *)
  Definition file_operation (path : pystr) (op : O opres) : Prop :=
    (exists present touch mode owner group, op = directory exec sha512 dry path present touch mode owner group) \/
    (exists present touch mode owner group, op = file exec sha512 dry path present touch mode owner group) \/
    (exists target present touch owner group, op = link exec sha512 dry path target present touch owner group) \/
    (exists content mode owner group, op = upload_content exec sha512 dry want_diff content path mode owner group) \/
    (exists content src mode owner group, op = upload_file exec sha512 dry want_diff content src path mode owner group) \/
    (exists tree src dm fm owner group, op = upload_dir exec sha512 dry want_diff tree src path dm fm owner group) \/
    (exists render content mode owner group, op = template_content exec sha512 dry want_diff render content path mode owner group) \/
    (exists render content src mode owner group, op = template exec sha512 dry want_diff render content src path mode owner group) \/
    (exists text present regex ws backup, op = line exec sha512 dry want_diff search date path text present regex ws backup).
  Lemma rejects_bind (k : unit -> O opres) path a c : ~ absolute path -> exists m, operation a (_ ← olift (check_absolute_path path); k tt) c = (Err (ValueError m), c).
  Proof.
    intros Hp. destruct (check_path path c) as [[Hp' _]|[_ [m Hc]]]; [apply absolute_isabs in Hp'; contradiction|]. exists m.
    unfold operation, mbind, O_bind, W_bind, olift, mbind, W_bind. rewrite Hc. reflexivity.
  Qed.
  Theorem C48_relative_path a path op c : file_operation path op -> ~ absolute path ->
    exists m, operation a op c = (Err (ValueError m), c).
  Proof.
    intros H Hp. unfold file_operation in H. decompose [or ex] H; clear H; subst op.
    all: try (apply (rejects_bind (fun _ => _)); exact Hp).
    destruct (check_path path c) as [[Hp' _]|[_ [m Hc]]]; [apply absolute_isabs in Hp'; contradiction|]. exists m.
    unfold operation, upload_dir, nested, mbind, O_bind, W_bind, getO, putO, mret, W_ret, olift, mbind, W_bind. cbn [fst snd]. rewrite Hc. reflexivity.
  Qed.
End relative.
Print Assumptions C48_relative_path.
Example C48_example : ~ absolute (lit "srv/run") /\ exists m,
  fst (operation NotGiven (directory (coreutils echo) fake_hash false (lit "srv/run") true false None None None) on_site) = Err (ValueError m).
Proof. split; [intros [r [=]]|]. eexists. vm_compute. reflexivity. Qed.
