(** C46: files.upload_content, files.upload, files.template_content and files.template. *)
From Coq Require Import Lia ZifyBool ZifyN ZifyNat.
From stdpp Require Import gmap.
From Verif Require Import Base Utf8 Codec Spec_Codec Codec_proofs Paths Sys Spec_Sys Sys_proofs Dispatcher Client Spec_Remote Remote_run Direct Control Spec_Control Control_settle Prop_Control Op Spec_Op Op_proofs Coreutils Files Walk_proofs Files_plain Spec_Files Shell_proofs Thrift Steps Dir_proofs Transfer Converge Content_proofs Remote_examples Files_examples Dry_files Prop_Files.
Local Open Scope nat_scope.

(** ** Specification *)
(** A destination that ends in a slash is a directory that receives the file under its own name. *)
Definition lands (src dest path : pystr) : Prop :=
  (exists d x, dest = d ++ [slash] /\ (slash ∉ x) /\ (src = x \/ exists pre, src = pre ++ slash :: x) /\ path = dest ++ x) \/
  ((forall d, dest <> d ++ [slash]) /\ path = dest).
(** the mode as the system takes it: the lowest twelve bits of the number written in octal digits *)
Definition taken (m : option pystr) (z : N) : Prop := exists t i, m = Some t /\ py_int 8 t = Some i /\ z = Z.to_N (i mod 4096).
Section spec.
  Variable sha512 : bytes -> bytes.
  (** The file at the end of a run that ended in success.  It has the given content, unless it had another content with the same
      SHA-512 sum.  It is written if and only if the sums differ.  Giving a file to an account takes its set-id bits. *)
  Definition content_made (c c' : ctl) (reqs : list settings) (q : settings) (path : pystr) (content : bytes) (attr : settings) (pl : place) (n : node) : Prop :=
    settles (sysof c) (c_base c) (reqs ++ [q]) attr /\ at_path (sysof c') path pl n /\
    (n_kind n = KFile content \/ exists d, n_kind n = KFile d /\ d <> content /\ sha512 d = sha512 content) /\
    (match o_fs (sysof c) !! pl with
     | Some n0 => exists d, n_kind n0 = KFile d /\
         (sha512 d = sha512 content -> n_kind n = KFile d /\ n_mtime n = n_mtime n0) /\ (sha512 d <> sha512 content -> n_mtime n = o_now (sysof c))
     | None => n_mtime n = o_now (sysof c)
     end) /\
    owned (sysof c') (s_owner attr) (s_group attr) n /\
    (exists z, taken (s_file_mode attr) z /\ (n_mode n = z \/ n_mode n = drop_suid z)) /\ only_at pl (sysof c) (sysof c').
End spec.

Lemma lands_into src dest path : lands src dest path -> into_dir src dest = path.
Proof.
  unfold into_dir. intros [(d & x & -> & Hx & Hs & ->)|[H ->]].
  - assert (He : endswith (d ++ [slash]) (lit "/") = true).
    { unfold endswith. rewrite rev_app_distr. change (rev (lit "/")) with [slash]. cbn [app startswith rev]. rewrite N.eqb_refl. destruct (rev d); reflexivity. }
    rewrite He. assert (Hb : py_basename src = x).
    { unfold py_basename. destruct Hs as [-> |[pre ->]]; [rewrite (split_no_char _ _ Hx); reflexivity|]. rewrite split_char_app, (split_no_char _ _ Hx), last_snoc. reflexivity. }
    rewrite Hb. unfold path_join. assert (Hr : isabs x = false).
    { destruct (isabs x) eqn:E; [|reflexivity]. apply absolute_isabs in E as [r ->]. destruct Hx. left. }
    rewrite Hr, He. destruct d; reflexivity.
  - destruct (endswith dest (lit "/")) eqn:E; [|reflexivity]. exfalso. unfold endswith in E. change (rev (lit "/")) with [slash] in E.
    destruct (rev dest) as [|x r] eqn:Er; [discriminate E|]. cbn [startswith] in E. apply andb_prop in E as [E _]. apply N.eqb_eq in E as <-.
    apply (H (rev r)). rewrite <- (rev_involutive dest), Er. reflexivity.
Qed.
Lemma into_absolute src dest : absolute dest -> absolute (into_dir src dest).
Proof.
  intros [r ->]. unfold into_dir. destruct (endswith (slash :: r) (lit "/")) eqn:E; [|eexists; reflexivity].
  unfold path_join. assert (Hr : isabs (py_basename src) = false).
  { destruct (isabs (py_basename src)) eqn:Ei; [|reflexivity]. apply absolute_isabs in Ei as [q Hq]. exfalso. unfold py_basename in Hq.
    assert (H : Forall (fun w => slash ∉ w) (split_char slash src)) by (clear; induction src as [|d s IH]; cbn; [repeat constructor; apply not_elem_of_nil|];
      destruct (N.eqb_spec d slash); [constructor; [apply not_elem_of_nil|exact IH]|]; destruct (split_char slash s) as [|w ws]; inversion IH; subst; repeat constructor; auto; rewrite not_elem_of_cons; auto using not_elem_of_nil).
    destruct (last (split_char slash src)) as [w|] eqn:El; [|discriminate Hq]. cbn in Hq. subst w. rewrite Forall_forall in H. destruct (H (slash :: q)); [|left].
    apply last_Some_elem_of. exact El. }
  rewrite Hr, E. eexists. reflexivity.
Qed.

Section theorems.
  Variable rest : proc -> M xres.
  Variable sha512 : bytes -> bytes.
  Variable want_diff : bool.
  Notation exec := (coreutils rest).
  Notation upload_content := (upload_content exec sha512 false want_diff).
  Notation upload_file := (upload_file exec sha512 false want_diff).
  Notation template_content := (template_content exec sha512 false want_diff).
  Notation template := (template exec sha512 false want_diff).

  (** The call [op] is to put [content] at [path]. *)
  Definition delivers (op : O opres) (mode owner group : option pystr) (path : pystr) (content : bytes) : Prop :=
    (exists arg, op = upload_content arg path mode owner group /\ (arg = inl content \/ exists t, arg = inr t /\ utf8_encode t = Some content)) \/
    (exists src dest, op = upload_file (Ok content) src dest mode owner group /\ absolute dest /\ lands src dest path) \/
    (exists render t, op = template_content render t path mode owner group /\ render t = inr (Ok content)) \/
    (exists render t src dest, op = template render (Ok t) src dest mode owner group /\ absolute dest /\ lands src dest path /\ render t = inr (Ok content)).

  Lemma delivers_plain op mode owner group path content : delivers op mode owner group path content ->
    yields op new_op (_ ← check_absolute_path path; script_defaults exec sha512 (want owner group mode None) (content_body exec sha512 false want_diff content path)).
  Proof.
    assert (Hsave : forall p, isabs p = true -> yields (save_content exec sha512 false want_diff content p mode owner group) new_op
      (_ ← check_absolute_path p; script_defaults exec sha512 (want owner group mode None) (content_body exec sha512 false want_diff content p))).
    { intros p Hp. eapply yields_ext; [apply save_plain|]. intros c. destruct (check_path p c) as [[_ Hc]|[Hf _]]; [|congruence]. rewrite (bind_works _ _ _ _ _ Hc). reflexivity. }
    assert (Hlift : forall A (x : A) o, keeps (olift (mret x : W A)) o (mret x)) by (intros A x o c; reflexivity).
    intros [(arg & -> & Harg)|[(src & dest & -> & Hab & Hl)|[(render & t & -> & Hr)|(render & t & src & dest & -> & Hab & Hl & Hr)]]].
    - unfold Files.upload_content. eapply yields_bind; [apply keeps_lift|]. intros [].
      eapply yields_pure; [|apply save_plain]. destruct Harg as [-> |(t & -> & Ht)]; [intros c; reflexivity|]. intros c. cbn [encoded]. rewrite Ht. reflexivity.
    - unfold Files.upload_file. apply lands_into in Hl. assert (Hp := into_absolute src dest Hab). rewrite Hl in *. apply absolute_isabs in Hab, Hp.
      eapply yields_pure; [|eapply yields_pure; [|apply Hsave; exact Hp]]; [|intros c; reflexivity].
      intros c. unfold olift. destruct (check_path dest c) as [[_ Hc]|[Hf _]]; [|congruence]. unfold mbind, W_bind. rewrite Hc. reflexivity.
    - unfold Files.template_content. eapply yields_bind; [apply keeps_lift|]. intros [].
      eapply yields_pure; [|apply save_plain]. rewrite Hr. intros c. reflexivity.
    - unfold Files.template. apply lands_into in Hl. assert (Hp := into_absolute src dest Hab). rewrite Hl in *. apply absolute_isabs in Hab, Hp.
      eapply yields_pure; [|eapply yields_pure; [|eapply yields_pure; [|apply Hsave; exact Hp]]]; [|intros c; reflexivity|rewrite Hr; intros c; reflexivity].
      intros c. unfold olift. destruct (check_path dest c) as [[_ Hc]|[Hf _]]; [|congruence]. unfold mbind, W_bind. rewrite Hc. reflexivity.
  Qed.

  Lemma remotely_content content dest attr : remotely (content_body exec sha512 false want_diff content dest attr).
  Proof.
    unfold content_body. apply remotely_bind; [apply remotely_stat|]. intros st.
    assert (Hw : remotely (content_work exec sha512 false want_diff content dest attr st)).
    { unfold content_work. apply remotely_bind.
      - destruct want_diff; [|apply remotely_ret]. apply remotely_bind; [apply remotely_download_or|intros; apply remotely_ret].
      - intros []. destruct (negb (there st) || bdiffer _ _); [apply remotely_upload|].
        apply remotely_bind; [apply remotely_wif, remotely_chmod|intros []; apply remotely_wif, remotely_sh]. }
    destruct st as [x|]; [destruct (negb (str_eqb (st_type x) (lit "file"))); [apply remotely_ret|]|]; apply remotely_conclude; exact Hw.
  Qed.
  Lemma content_body_cap content attr s c x c' a b path :
    unaffected s (sysof c) -> isabs path = true -> c_string path -> os_ok (sysof c) -> honest (sysof c) ->
    accounts_ok s -> accounts_of s attr a b -> s_file_mode attr <> None -> content_body exec sha512 false want_diff content path attr c = (x, c') ->
    (unaffected s (sysof c') \/ exists pl n, sits path s (sysof c') pl n /\ content_conf content s pl n) /\
    (forall res, x = Ok res -> or_success res = true ->
       exists pl n, sits path s (sysof c') pl n /\ content_conf content s pl n /\ content_good sha512 content s attr a b pl n /\ (or_changed res = false -> unaffected s (sysof c') /\ false = false)) /\
    (fine c -> hash_ok sha512 -> small content -> octal_below 4096 (s_file_mode attr) ->
       (resolve_node (o_fs s) [] path false = Err (oserr ENOENT) /\ creatable s path) \/ (exists pl n, resolve_node (o_fs s) [] path false = Ok (pl, n) /\ is_file (n_kind n)) ->
       exists res, x = Ok res /\ or_success res = true /\ fine c' /\
         (or_changed res = false <-> exists pl n, resolve_node (o_fs s) [] path false = Ok (pl, n) /\ content_match sha512 content s (s_file_mode attr) attr n /\ false = false)).
  Proof.
    intros H1 H2 H3 H4 H5 H6 H7 H8 H9. destruct (content_body_any rest sha512 want_diff content path attr s c x c' a b H1 H2 H3 H4 H5 H6 H7 H8 H9) as (P1 & P2 & P3).
    split; [exact P1|]. split.
    - intros res Hx Hs. destruct (P2 res Hx Hs) as (pl & n & Q1 & Q2 & Q3 & Q4). exists pl, n. split; [exact Q1|]. split; [exact Q2|]. split; [exact Q3|]. auto.
    - intros Hf Hh Hsm Ho He. destruct (P3 Hf Hh Hsm Ho He) as (res & Q1 & Q2 & Q3 & Q4). exists res. split; [exact Q1|]. split; [exact Q2|]. split; [exact Q3|]. rewrite Q4.
      split; intros (pl & n & R); exists pl, n; tauto.
  Qed.
  Lemma part_kind content k : part_of content k -> is_file k. Proof. intros [i ->]. eexists. reflexivity. Qed.
  Lemma content_facts content s pl n : small content -> content_conf content s pl n ->
    is_file (n_kind n) /\ (forall n0, o_fs s !! pl = Some n0 -> shape n = shape n0) /\ (os_ok s -> kind_ok (n_kind n)).
  Proof.
    intros Hsm [H1 H2]. assert (Hk : is_file (n_kind n)) by (destruct H2 as [H2|(n0 & H2 & H3)]; [eapply part_kind; exact H2|rewrite H3; apply H1; exact H2]).
    split; [exact Hk|]. split.
    - intros n0 Hn. destruct (H1 n0 Hn) as [b0 K0]. destruct Hk as [b1 K1]. unfold shape. rewrite K0, K1. reflexivity.
    - intros Hos. destruct H2 as [[i H2]|(n0 & H2 & H3)].
      + rewrite H2. unfold kind_ok. unfold small in *. assert (H := take_length content i). lia.
      + rewrite H3. destruct Hos as (_ & _ & _ & _ & _ & O6 & _). apply (O6 _ _ H2).
  Qed.
  Lemma content_fields content s attr a b pl n : content_good sha512 content s attr a b pl n -> good_owner attr a b n /\ recent s pl n.
  Proof. intros (H1 & _ & H2 & _). auto. Qed.
  Lemma delivered_sum content s pl n : delivered sha512 content s pl n -> exists d, n_kind n = KFile d /\ sha512 d = sha512 content.
  Proof.
    unfold delivered. destruct (o_fs s !! pl) as [n0|]; [|intros [H _]; eauto]. intros (b0 & _ & [(H1 & H2 & _)|(_ & H2 & _)]); eauto.
  Qed.
  Lemma content_final content s s' attr a b pl n attr2 : content_good sha512 content s attr a b pl n -> matching s' (s_file_mode attr2) attr2 n ->
    content_match sha512 content s' (s_file_mode attr2) attr2 n.
  Proof. intros (_ & _ & _ & H) Hm. split; [exact Hm|]. eapply delivered_sum. exact H. Qed.
  Lemma put_made c c' reqs q path content attr x y pl n : settles (sysof c) (c_base c) (reqs ++ [q]) attr -> accounts_of (sysof c) attr x y ->
    sits path (sysof c) (sysof c') pl n -> content_good sha512 content (sysof c) attr x y pl n -> content_made sha512 c c' reqs q path content attr pl n.
  Proof.
    intros Hse Hof Hsit (Hg & Hm & _ & Hd). split; [exact Hse|]. split; [eapply sits_at; exact Hsit|]. split; [|split; [|split; [|split]]].
    - unfold delivered in Hd. destruct (o_fs (sysof c) !! pl) as [n0|]; [|left; apply Hd]. destruct Hd as (b0 & _ & [(H1 & H2 & _)|(_ & H2 & _)]); [|left; exact H2].
      destruct (decide (b0 = content)) as [-> |Hne]; [left; exact H2|right; eauto].
    - unfold delivered in Hd. destruct (o_fs (sysof c) !! pl) as [n0|]; [|apply Hd]. destruct Hd as (b0 & Hk & [(H1 & H2 & H3)|(H1 & H2 & H3)]); exists b0; (split; [exact Hk|]); split; intros H; auto; contradiction.
    - eapply owned_of; [eapply sits_only|..]; eassumption.
    - exact Hm.
    - eapply sits_only_at. exact Hsit.
  Qed.

  (** ** C46 *)
  (** Full statement: after success the file has exactly the content, mode, owner and group asked for.  Missing: set-id bits, which
      are lost when the file is given to an account ([C46_refuted]), and two contents with the same SHA-512 sum. *)
  Theorem C46_content_partial a c r c' reqs op path content mode owner group :
    delivers op mode owner group path content -> ready c reqs -> honest (sysof c) -> c_string path ->
    operation a op c = (Ok r, c') -> or_success r = true ->
    absolute path /\ exists attr pl n, content_made sha512 c c' reqs (asking owner group mode None) path content attr pl n /\
      (or_changed r = false -> unaffected (sysof c) (sysof c')).
  Proof.
    intros Hop Hr Hh Hp E Hs. apply delivers_plain in Hop.
    destruct (present_any rest sha512 path false is_file s_file_mode (content_conf content) (content_good sha512 content) (fun s attr n => content_match sha512 content s (s_file_mode attr) attr n) (small content) _ _ _
      Hop (fun d => remotely_content content path d) file_msel (fun attr s c x c' a b => content_body_cap content attr s c x c' a b path) a c _ c' reqs Hr Hh Hp E) as [_ H].
    destruct (H r eq_refl Hs) as (Ha & attr & x & y & pl & n & Hse & Hof & Hsit & Hc & Hg & Hch).
    split; [apply absolute_isabs; exact Ha|]. exists attr, pl, n. split; [eapply put_made; eassumption|]. intros H0. apply Hch. exact H0.
  Qed.
  (** However it ends: at most this file has been created or changed.  It was a regular file or did not exist, and is now a regular
      file with its old content or the first part of the new. *)
  Theorem C46_confined a c r c' reqs op path content mode owner group :
    delivers op mode owner group path content -> ready c reqs -> honest (sysof c) -> c_string path ->
    operation a op c = (r, c') ->
    unaffected (sysof c) (sysof c') \/
    exists pl n, at_path (sysof c') path pl n /\ (forall n0, o_fs (sysof c) !! pl = Some n0 -> regular (n_kind n0)) /\
      ((exists i, n_kind n = KFile (take i content)) \/ exists n0, o_fs (sysof c) !! pl = Some n0 /\ n_kind n = n_kind n0) /\ only_at pl (sysof c) (sysof c').
  Proof.
    intros Hop Hr Hh Hp E. apply delivers_plain in Hop.
    destruct (present_any rest sha512 path false is_file s_file_mode (content_conf content) (content_good sha512 content) (fun s attr n => content_match sha512 content s (s_file_mode attr) attr n) (small content) _ _ _
      Hop (fun d => remotely_content content path d) file_msel (fun attr s c x c' a b => content_body_cap content attr s c x c' a b path) a c _ c' reqs Hr Hh Hp E) as [[H|(pl & n & H1 & H2 & H3)] _]; [left; exact H|right].
    exists pl, n. split; [eapply sits_at; exact H1|]. split; [exact H2|]. split; [exact H3|]. eapply sits_only_at. exact H1.
  Qed.
  (** It succeeds whenever nothing fails and there is a regular file, or one can be created.  It reports no change iff the file is
      there already, as wanted, with a content of the same SHA-512 sum; then it does nothing. *)
  Theorem C46_works a c r c' reqs op path content mode owner group :
    delivers op mode owner group path content -> ready c reqs -> c_string path -> absolute path -> healthy c -> hash_ok sha512 -> small content -> unaliased (sysof c) ->
    feasible (sysof c) (c_base c) (reqs ++ [asking owner group mode None]) ->
    attainable regular (sysof c) path ->
    operation a op c = (r, c') ->
    exists res attr pl n, r = Ok res /\ or_success res = true /\ healthy c' /\ c' = set_remote (c_remote c') c /\
      content_made sha512 c c' reqs (asking owner group mode None) path content attr pl n /\
      (or_changed res = false <-> exists pl0 n0 d, sees (sysof c) path pl0 n0 /\ as_wanted (sysof c) (s_file_mode attr) (s_owner attr) (s_group attr) n0 /\ n_kind n0 = KFile d /\ sha512 d = sha512 content) /\
      (or_changed res = false -> unaffected (sysof c) (sysof c')).
  Proof.
    intros Hop Hr Hp Ha Hhl Hha Hsm Hun Hfe Hat E. apply absolute_isabs in Ha. apply delivers_plain in Hop.
    destruct (present_works rest sha512 path false is_file s_file_mode (content_conf content) (content_good sha512 content) (fun s attr n => content_match sha512 content s (s_file_mode attr) attr n) (small content) _ _ _
      Hop (fun d => remotely_content content path d) file_msel (fun attr s c x c' a b => content_body_cap content attr s c x c' a b path) a c r c' reqs) as
      (H1 & res & attr & -> & H2 & H3 & H4 & H5 & H6 & x & y & pl & n & H7 & H8 & H9 & H10 & H11); auto.
    exists res, attr, pl, n. split; [reflexivity|]. split; [exact H2|]. split; [exact H3|]. split; [exact H1|]. split; [eapply put_made; eassumption|]. split; [|exact H11].
    rewrite H6. split.
    - intros (p0 & n0 & M1 & (M2 & d & M4 & M5) & _). exists p0, n0, d. split; [exact M1|]. split; [apply matching_wanted; exact M2|]. auto.
    - intros (p0 & n0 & d & M1 & M2 & M3 & M4). exists p0, n0. split; [exact M1|]. split; [|reflexivity]. split; [apply wanted_matching; assumption|]. eauto.
  Qed.
  (** Missing from the full statement: modes with set-id bits, non-canonical modes of the connection, accounts that share an id. *)
  Theorem C46_again_partial a a2 c r c' r2 c2 reqs op path content mode owner group :
    delivers op mode owner group path content -> ready c reqs -> c_string path -> absolute path -> healthy c -> hash_ok sha512 -> small content ->
    feasible (sysof c) (c_base c) (reqs ++ [asking owner group mode None]) ->
    attainable regular (sysof c) path ->
    unaliased (sysof c) -> canonical (s_file_mode (c_base c)) ->
    octal_below 1024 (wanted s_file_mode (c_base c) (reqs ++ [asking owner group mode None])) ->
    operation a op c = (r, c') -> operation a2 op c' = (r2, c2) ->
    exists res2, r2 = Ok res2 /\ or_success res2 = true /\ or_changed res2 = false /\ c2 = c'.
  Proof.
    intros Hop Hr Hp Ha Hhl Hha Hsm Hfe Hat Hun Hcan Hb E E2. apply absolute_isabs in Ha. apply delivers_plain in Hop.
    destruct (present_again rest sha512 path false is_file s_file_mode (content_conf content) (content_good sha512 content) (fun s attr n => content_match sha512 content s (s_file_mode attr) attr n) (small content) _ _ _
      Hop (fun d => remotely_content content path d) file_msel (fun attr s c x c' a b => content_body_cap content attr s c x c' a b path)
      (content_fields content) (content_final content) (fun s pl n => content_facts content s pl n Hsm) a a2 c r c' r2 c2 reqs) as (_ & _ & _ & res2 & R1 & R2 & R3); auto.
    - intros attr x y pl n z Hse (Hg & (z' & Hz & Hm) & Hd) Hsit Hmz.
      assert (Hlt : (z < 1024)%N).
      { apply file_msel in Hse. destruct Hb as (t & v & Ht & _ & _ & _ & Hv & Hlt). unfold wanted in Ht. cbn [innermost] in Ht. change (want owner group mode None) with (asking owner group mode None) in Hse.
        destruct Hmz as (t' & Ht' & Hv'). unfold mode_settles in Hse. destruct (innermost (List.map s_file_mode (reqs ++ [asking owner group mode None]))) as [m|].
        - injection Ht as <-. destruct Hse as (k & u & K1 & K2 & K3 & _). rewrite K2 in Ht'. injection Ht' as <-. rewrite K3 in Hv'. rewrite K1 in Hv. injection Hv as Hv. injection Hv' as Hv'. lia.
        - destruct Hse as [Hse _]. rewrite Hse, Ht in Ht'. injection Ht' as <-. rewrite Hv in Hv'. injection Hv' as Hv'. lia. }
      assert (z' = z) as ->. { eapply asked_means; [exact Hmz| |exact Hz]. lia. }
      rewrite (drop_suid_none z Hlt) in Hm. destruct Hm; assumption.
    - destruct (R3 eq_refl). eauto 10.
  Qed.
  (** A content that cannot be had: nothing is sent. *)
  Definition undeliverable (op : O opres) (dest : pystr) : Prop :=
    (exists t mode owner group, op = upload_content (inr t) dest mode owner group /\ utf8_encode t = None) \/
    (exists e src mode owner group, op = upload_file (Err e) src dest mode owner group) \/
    (exists render t x mode owner group, op = template_content render t dest mode owner group /\ render t = x /\ forall b, x <> inr (Ok b)) \/
    (exists render e src mode owner group, op = template render (Err e) src dest mode owner group) \/
    (exists render t src x mode owner group, op = template render (Ok t) src dest mode owner group /\ render t = x /\ forall b, x <> inr (Ok b)).
  Theorem C46_nothing_sent a op dest c : undeliverable op dest -> exists e, operation a op c = (Err e, c).
  Proof.
    assert (Hc : (exists c0, check_absolute_path dest c = (Ok tt, c0) /\ c0 = c) \/ exists m, check_absolute_path dest c = (Err (ValueError m), c)).
    { destruct (check_path dest c) as [[_ Hc]|[_ [m Hc]]]; [left|right]; eauto. }
    intros H. destruct Hc as [(c0 & Hc & ->)|[m Hc]].
    - destruct H as [(t & mode & owner & group & -> & H)|[(e & src & mode & owner & group & ->)|[(render & t & x & mode & owner & group & -> & H & H')|[(render & e & src & mode & owner & group & ->)|(render & t & src & x & mode & owner & group & -> & H & H')]]]];
        unfold Files.upload_content, Files.upload_file, Files.template_content, Files.template, operation, mbind, O_bind, W_bind, olift, mbind, W_bind; rewrite Hc; cbn [encoded].
      + rewrite H. eexists. reflexivity.
      + eexists. reflexivity.
      + rewrite H. destruct x as [e|[b|e]]; [eexists; reflexivity|destruct (H' b eq_refl)|eexists; reflexivity].
      + eexists. reflexivity.
      + cbv [mret W_ret liftW]; cbn [fst snd]; rewrite H. destruct x as [e|[b|e]]; [eexists; reflexivity|destruct (H' b eq_refl)|eexists; reflexivity].
    - destruct H as [(t & mode & owner & group & -> & H)|[(e & src & mode & owner & group & ->)|[(render & t & x & mode & owner & group & -> & H & H')|[(render & e & src & mode & owner & group & ->)|(render & t & src & x & mode & owner & group & -> & H & H')]]]];
        unfold Files.upload_content, Files.upload_file, Files.template_content, Files.template, operation, mbind, O_bind, W_bind, olift, mbind, W_bind; rewrite Hc; eexists; reflexivity.
  Qed.
End theorems.
Print Assumptions C46_content_partial.
Print Assumptions C46_confined.
Print Assumptions C46_works.
Print Assumptions C46_again_partial.
Print Assumptions C46_nothing_sent.

(** ** Refutation *)
Definition put content path mode owner := operation NotGiven (upload_content (coreutils echo) fake_hash false true (inl content) path mode owner None).
(** Full statement (false): after a successful run the file has the mode asked for, and running again changes nothing.  The
    set-user-id bit is set and lost again when the file is given to alice; the next run sets it. *)
Theorem C46_refuted : exists c r c' r2 c2 pl n, ready c [] /\ healthy c /\ absolute p_run /\
  put (blit "data") p_run (Some (lit "4755")) alice c = (Ok r, c') /\ or_success r = true /\
  at_path (sysof c') p_run pl n /\ ~ taken (Some (lit "4755")) (n_mode n) /\
  put (blit "data") p_run (Some (lit "4755")) alice c' = (Ok r2, c2) /\ or_success r2 = true /\ or_changed r2 = true.
Proof.
  exists on_site. set (f := put (blit "data") p_run (Some (lit "4755")) alice). set (c1 := snd (f on_site)). set (c2 := snd (f c1)).
  exists (result_of (f on_site)), c1, (result_of (f c1)), c2, [lit "run"; lit "srv"], (Node (KFile (blit "data")) 493 1000 0 200 200).
  split; [exact site_ready|]. split; [exact site_healthy|]. split; [eexists; reflexivity|]. split; [ran|]. split; [vm_compute; reflexivity|].
  split; [apply resolve_node_names; vm_compute; reflexivity|]. split; [intros (t & i & [= <-] & H & H'); vm_compute in H; injection H as <-; discriminate H'|].
  split; [ran|]. split; vm_compute; reflexivity.
Qed.
Print Assumptions C46_refuted.

(** ** Cases that meet the hypotheses *)
Example C46_case :
  let op := upload_content (coreutils echo) fake_hash false true (inl (blit "data")) p_run m755 alice None in
  delivers echo fake_hash true op m755 alice None p_run (blit "data") /\ small (blit "data") /\ c_string p_run /\
  feasible (sysof on_site) (c_base on_site) ([] ++ [asking alice None m755 None]) /\ attainable regular (sysof on_site) p_run /\
  octal_below 1024 (wanted s_file_mode (c_base on_site) ([] ++ [asking alice None m755 None])) /\
  (let x := operation NotGiven op on_site in let y := operation NotGiven op (snd x) in or_success (result_of x) = true /\ or_changed (result_of x) = true /\
    file_at (snd x) [lit "run"; lit "srv"] = Some (Node (KFile (blit "data")) 493 1000 0 200 200) /\ or_success (result_of y) = true /\ or_changed (result_of y) = false) /\
  (let x := put (blit "data") p_file m755 alice on_site in or_success (result_of x) = true /\
    file_at (snd x) [lit "file"; lit "old"; lit "srv"] = Some (Node (KFile (blit "data")) 493 1000 0 200 200)) /\
  (let x := put (blit "#!") p_run m755 alice on_site in or_success (result_of x) = true /\
    file_at (snd x) [lit "run"; lit "srv"] = Some (Node (KFile (blit "#!")) 493 1000 0 100 200)).
Proof.
  cbn zeta. split; [left; eexists; split; [reflexivity|left; reflexivity]|]. split; [unfold small; vm_compute; reflexivity|]. split; [split; [text|dec]|].
  split; [apply site_feasible; [right; reflexivity|exact ex_c755|exact I]|]. split; [right; exists [lit "run"; lit "srv"], (Node (KFile (blit "#!")) 493 0 0 100 100); split; [vm_compute; reflexivity|eexists; reflexivity]|].
  split; [apply (octal_below_dec _ _ 493); vm_compute; reflexivity|]. split; [|split].
  - split; [vm_compute; reflexivity|]. split; [vm_compute; reflexivity|]. split; [vm_compute; reflexivity|]. split; vm_compute; reflexivity.
  - split; vm_compute; reflexivity.
  - split; vm_compute; reflexivity.
Qed.
Example C46_lands : lands (lit "a/b.conf") (lit "/srv/old/") (lit "/srv/old/b.conf") /\ lands (lit "a/b.conf") (lit "/srv/old") (lit "/srv/old").
Proof.
  split; [left|right].
  - exists (lit "/srv/old"), (lit "b.conf"). split; [reflexivity|]. split; [vm_compute; intros H; repeat (apply elem_of_cons in H as [H|H]; [discriminate H|]); inversion H|]. split; [right; exists (lit "a"); reflexivity|reflexivity].
  - split; [|reflexivity]. intros d Hd. assert (H : last (lit "/srv/old") = last (d ++ [slash])) by (rewrite <- Hd; reflexivity). rewrite last_snoc in H. vm_compute in H. discriminate H.
Qed.
Example C46_nothing_sent_case : undeliverable echo fake_hash true (upload_content (coreutils echo) fake_hash false true (inr [55296%N]) p_run m755 alice None) p_run.
Proof. left. exists [55296%N], m755, alice, None. split; [reflexivity|vm_compute; reflexivity]. Qed.
