(** files.line: what it does to the system. *)
From Coq Require Import Lia ZifyBool ZifyN ZifyNat.
From stdpp Require Import gmap.
From Verif Require Import Base Utf8 Dict_proofs Digits Codec Spec_Codec Codec_proofs Codec_proofs2 Paths Sys Spec_Sys Sys_proofs Dispatcher Client Spec_Session Session_proofs Spec_Remote
  Remote_safe Remote_proofs Remote_upload Remote_run Direct Control Spec_Control Control_proofs Control_settle Quiet Thrift Op Op_proofs Files Coreutils Walk_proofs Spec_Files Shell_proofs Files_plain Steps Dir_proofs Transfer Converge Content_proofs Dry_files Utf8_proofs Spec_Line Line_text.
Local Open Scope nat_scope.

Definition line_state (b : bool) : state := [(s_line_present, VBool b)].
Lemma line_state_eq a b : py_eq (VDict (line_state a)) (VDict (line_state b)) = Bool.eqb a b.
Proof. destruct a, b; vm_compute; reflexivity. Qed.

Section plain.
  Variable exec : proc -> M xres.
  Variable sha512 : bytes -> bytes.
  Variables dry want_diff : bool.
  Variable search : bool -> pystr -> pystr -> result bool.
  Variable date : pystr.
  Variables (path text : pystr) (present : bool) (regex : option pystr) (ws : bool) (backup : bool + pystr).

  Definition found_in (b : bytes) : result bool := find_line search text regex ws (utf8_decode_esc b).
  Definition edited (orig : option bytes) : result bytes :=
    ls ← new_lines search text present regex ws (match orig with Some b => utf8_decode_esc b | None => [] end); new_bytes ls.
  Definition line_copy : W unit :=
    match backup_name date backup with Some n => sh exec sha512 [lit "cp"; lit "-a"; lit "--"; path; path_join (py_dirname path) n] | None => mret tt end.
  Definition line_write (attr : settings) (orig : option bytes) (b : bytes) : W unit :=
    if dry then mret tt
    else match orig with
         | None => upload exec sha512 path b (s_file_mode attr) (s_owner attr) (s_group attr)
         | Some _ => _ ← line_copy; upload exec sha512 path b None None None
         end.
  Definition line_work (attr : settings) (orig : option bytes) : W unit := b ← liftW (edited orig); line_write attr orig b.
  Definition line_rest (attr : settings) (orig : option bytes) (found : bool) : W opres :=
    conclude (line_state found) (line_state present) (line_work attr orig).
  Definition line_cont (attr : settings) (st : option statres) : W opres :=
    match st with
    | None => line_rest attr None false
    | Some _ => b ← download exec sha512 path; found ← liftW (found_in b); line_rest attr (Some b) found
    end.
  Definition line_body (attr : settings) : W opres :=
    st ← stat exec sha512 path false false;
    match st with
    | Some x => if negb (str_eqb (st_type x) (lit "file")) then mret (OpRes false false [] (line_state present) (Some (lit "path '" ++ path ++ lit "' exists but is not a file!"))) else line_cont attr st
    | None => line_cont attr st
    end.

  Lemma line_rest_plain attr orig found ds :
    yields (_ ← initial_state [(s_line_present, VBool found)];
        u ← unchanged false;
        if u : bool then success
        else
          ls ← olift (liftW (new_lines search text present regex ws (match orig with Some b => utf8_decode_esc b | None => [] end)));
          b ← olift (liftW (new_bytes ls));
          _ ← (if want_diff then diff path orig (Some b) else mret tt);
          _ ← (if dry then mret tt
               else match orig with
                    | None => olift (upload exec sha512 path b (s_file_mode attr) (s_owner attr) (s_group attr))
                    | Some _ =>
                        _ ← (match backup_name date backup with
                             | Some n => olift (sh exec sha512 [lit "cp"; lit "-a"; lit "--"; path; path_join (py_dirname path) n])
                             | None => mret tt
                             end);
                        olift (upload exec sha512 path b None None None)
                    end);
          success) (Op false None (Some (line_state present)) ds) (line_rest attr orig found).
  Proof.
    apply yields_initial. eapply yields_pure; [apply keeps_unchanged|]. unfold line_rest, conclude. fold (line_state found).
    destruct (py_eq (VDict (line_state found)) (VDict (line_state present))) eqn:E.
    - eapply yields_ext; [apply keeps_yields, keeps_success|]. rewrite E. reflexivity.
    - assert (Hw : forall b ds, yields (_ ← (if dry then mret tt
               else match orig with
                    | None => olift (upload exec sha512 path b (s_file_mode attr) (s_owner attr) (s_group attr))
                    | Some _ =>
                        _ ← (match backup_name date backup with
                             | Some n => olift (sh exec sha512 [lit "cp"; lit "-a"; lit "--"; path; path_join (py_dirname path) n])
                             | None => mret tt
                             end);
                        olift (upload exec sha512 path b None None None)
                    end);
          success) (Op false (Some (line_state found)) (Some (line_state present)) ds) (_ ← line_write attr orig b; mret (OpRes true true (line_state found) (line_state present) None))).
      { intros b ds'. eapply yields_bind.
        - unfold line_write. destruct dry; [apply keeps_ret|]. destruct orig; [|apply keeps_lift].
          eapply keeps_bind; [unfold line_copy; destruct (backup_name date backup); [apply keeps_lift|apply keeps_ret]|]. intros []. apply keeps_lift.
        - intros []. eapply yields_ext; [apply keeps_yields, keeps_success|]. rewrite E. reflexivity. }
      eapply yields_ext.
      + eapply yields_bind; [apply keeps_lift|]. intros ls. eapply yields_bind; [apply keeps_lift|]. intros b.
        instantiate (1 := fun b => _ ← line_write attr orig b; mret (OpRes true true (line_state found) (line_state present) None)). cbn beta.
        destruct want_diff; [apply yields_diff; intros ds'; apply Hw|]. eapply yields_pure; [apply keeps_ret|apply Hw].
      + intros c. unfold line_work, edited. unfold mbind, W_bind, liftW. destruct (new_lines search text present regex ws _) as [ls|e]; cbn; [|reflexivity].
        destruct (new_bytes ls) as [b|e]; cbn; reflexivity.
  Qed.
  Lemma line_plain :
    yields (line exec sha512 dry want_diff search date path text present regex ws backup) new_op (_ ← check_absolute_path path; script_defaults exec sha512 no_settings line_body).
  Proof.
    unfold line. eapply yields_bind; [apply keeps_lift|]. intros []. apply yields_defaults. intros attr. unfold new_op. apply yields_final.
    eapply yields_bind; [apply keeps_lift|]. intros st. unfold line_cont. destruct st as [x|].
    - destruct (negb (str_eqb (st_type x) (lit "file"))); [apply yields_failure|].
      eapply yields_bind; [apply keeps_lift|]. intros b. eapply yields_bind; [apply keeps_lift|]. intros found. apply (line_rest_plain attr (Some b)).
    - apply (line_rest_plain attr None).
  Qed.
  Lemma remotely_line attr : remotely (line_body attr).
  Proof.
    assert (Hw : forall orig, remotely (line_work attr orig)).
    { intros orig. unfold line_work. apply remotely_bind; [apply remotely_lift|]. intros b. unfold line_write. destruct dry; [apply remotely_ret|].
      destruct orig; [|apply remotely_upload]. apply remotely_bind; [|intros []; apply remotely_upload]. unfold line_copy. destruct (backup_name date backup); [apply remotely_sh'|apply remotely_ret]. }
    assert (Hr : forall orig f, remotely (line_rest attr orig f)) by (intros; apply remotely_conclude; apply Hw).
    assert (Hc : forall st, remotely (line_cont attr st)).
    { intros [st|]; [|apply Hr]. apply remotely_bind; [apply remotely_download|]. intros b. apply remotely_bind; [apply remotely_lift|]. intros f. apply Hr. }
    unfold line_body. apply remotely_bind; [apply remotely_stat|]. intros [x|]; [|apply Hc]. destruct (negb _); [apply remotely_ret|apply Hc].
  Qed.
End plain.

(** ** The path of the copy *)
Lemma from_slash_suffix p : exists q, p = q ++ from_slash p.
Proof.
  induction p as [|c p [q IH]]; [exists []; reflexivity|]. cbn [from_slash]. destruct (N.eqb_spec c slash); [exists []; reflexivity|].
  exists (c :: q). cbn [app]. rewrite <- IH. reflexivity.
Qed.
Lemma no_slashes_suffix p : exists q, p = q ++ no_slashes p.
Proof.
  induction p as [|c p [q IH]]; [exists []; reflexivity|]. cbn [no_slashes]. destruct (N.eqb_spec c slash); [|exists []; reflexivity].
  exists (c :: q). cbn [app]. rewrite <- IH. reflexivity.
Qed.
Lemma from_slash_some p : slash ∈ p -> from_slash p <> [].
Proof. induction p as [|y p IH]; intros H; [inversion H|]. cbn [from_slash]. destruct (N.eqb_spec y slash) as [|Hn]; [discriminate|]. apply IH. apply elem_of_cons in H as [H|H]; [congruence|exact H]. Qed.
Lemma isabs_prefix a b : isabs (a ++ b) = true -> a <> [] -> isabs a = true.
Proof.
  intros H Ha. apply absolute_isabs in H as [r Hr]. apply absolute_isabs. destruct a as [|x a]; [contradiction|]. injection Hr as -> _. eexists. reflexivity.
Qed.
Lemma dirname_abs path : isabs path = true -> isabs (py_dirname path) = true.
Proof.
  intros Ha. unfold py_dirname. destruct (from_slash_suffix (rev path)) as [q Hq].
  assert (Hne : from_slash (rev path) <> []) by (apply from_slash_some; apply absolute_isabs in Ha as [r ->]; apply elem_of_list_In, in_rev; rewrite rev_involutive; left; reflexivity).
  set (h := from_slash (rev path)) in *. assert (Hp : path = rev h ++ rev q) by (rewrite <- (rev_involutive path), Hq, rev_app_distr; reflexivity).
  assert (Hh : isabs (rev h) = true) by (eapply isabs_prefix; [rewrite <- Hp; exact Ha|]; intros E; apply Hne; rewrite <- (rev_involutive h), E; reflexivity).
  destruct (no_slashes h) as [|x d] eqn:En; [exact Hh|]. destruct (no_slashes_suffix h) as [q' Hq']. rewrite En in Hq'.
  rewrite Hq', rev_app_distr in Hh. eapply isabs_prefix; [exact Hh|]. cbn [rev]. destruct (rev d); discriminate.
Qed.
Lemma join_abs a b : isabs a = true -> isabs (path_join a b) = true.
Proof.
  intros Ha. unfold path_join. destruct (isabs b) eqn:E; [exact E|]. apply absolute_isabs in Ha as [r ->]. apply absolute_isabs.
  destruct (endswith (slash :: r) (lit "/")); eexists; reflexivity.
Qed.

(** ** cp *)
Definition copy_of (s : os) (n : node) : node := Node (n_kind n) (n_mode n) (n_uid n) (n_gid n) (n_mtime n) (o_now s).
(** where the copy goes *)
Definition copied (path bp : pystr) (s s1 : os) : Prop :=
  exists from n b bp' pl m, resolve_node (o_fs s) [] path false = Ok (from, n) /\ n_kind n = KFile b /\
    (bp' = bp \/ (exists q d, resolve_node (o_fs s) [] bp true = Ok (q, d) /\ n_kind d = KDir) /\ bp' = path_join bp (basename path)) /\
    resolve (o_fs s) [] bp' true = Ok pl /\ pl <> from /\ only_files s s1 /\ o_fs s1 = <[pl := m]> (o_fs s) /\
    (o_fs s !! pl = None -> resolve (o_fs s) [] bp' false = Ok pl) /\
    match o_fs s !! pl with
    | Some n0 => (exists t, n_kind n0 = KOther t /\ m = Node (KOther t) (n_mode n) (n_uid n) (n_gid n) (n_mtime n) (o_now s)) \/ ((exists b0, n_kind n0 = KFile b0) /\ m = copy_of s n)
    | None => m = copy_of s n
    end.
Lemma copied_grows path bp s s1 : copied path bp s s1 -> grows (o_fs s) (o_fs s1).
Proof.
  intros (from & n & b & bp' & pl & m & _ & Hk & _ & _ & _ & _ & -> & _ & Hm). apply grows_insert. intros n0 H0. rewrite H0 in Hm. unfold shape.
  destruct Hm as [(t & E1 & ->)|[[b0 E1] ->]]; [rewrite E1; reflexivity|]. cbn [copy_of n_kind]. rewrite Hk, E1. reflexivity.
Qed.
Lemma copied_source path bp s s1 pl n : copied path bp s s1 -> resolve_node (o_fs s) [] path false = Ok (pl, n) -> resolve_node (o_fs s1) [] path false = Ok (pl, n).
Proof.
  intros Hc Hr. eapply resolve_node_grows; [eapply copied_grows; exact Hc|exact Hr|].
  destruct Hc as (from & n' & b & bp' & q & m & Hr' & Hk & _ & _ & Hne & _ & -> & _). rewrite Hr in Hr'. injection Hr' as <- <-. rewrite lookup_insert_ne by congruence.
  apply resolve_node_split in Hr. apply Hr.
Qed.
Lemma do_cp_inv p path bp s s1 y s' pl n b : isabs path = true -> isabs bp = true -> resolve_node (o_fs s) [] path false = Ok (pl, n) -> n_kind n = KFile b ->
  unaffected s s1 -> do_cp p path bp s1 = (y, s') ->
  match y with Ok _ => copied path bp s s' | Err _ => unaffected s s' end.
Proof.
  intros Ha Hb Hr Hk Hu E. apply syscall_inv in E as (s0 & Hs0 & [(k & -> & ->)|E]); [eapply unaffected_trans; eassumption|].
  assert (Hu0 : unaffected s s0) by (eapply unaffected_trans; eassumption). clear Hs0 Hu s1.
  assert (Hfs := unaffected_fs _ _ Hu0). rewrite Hfs in E. rewrite (isabs_cwd_node _ _ [] _ _ Ha), Hr in E. cbv zeta in E.
  set (bp' := match resolve_node (o_fs s) (p_cwd p) bp true with Ok (_, m) => match n_kind m with KDir => path_join bp (basename path) | _ => bp end | Err _ => bp end) in *.
  assert (Hbp : bp' = bp \/ (exists q d, resolve_node (o_fs s) [] bp true = Ok (q, d) /\ n_kind d = KDir) /\ bp' = path_join bp (basename path)).
  { unfold bp'. rewrite (isabs_cwd_node _ _ [] _ _ Hb). destruct (resolve_node (o_fs s) [] bp true) as [[q d]|e]; [|auto]. destruct (n_kind d) eqn:Kd; auto. right. split; [|reflexivity]. eauto. }
  assert (Hb' : isabs bp' = true) by (destruct Hbp as [-> |[_ ->]]; [exact Hb|apply join_abs; exact Hb]).
  clearbody bp'. rewrite (isabs_cwd (o_fs s) (p_cwd p) [] bp' true Hb'), (isabs_cwd (o_fs s) (p_cwd p) [] bp' false Hb') in E.
  destruct (resolve (o_fs s) [] bp' true) as [q|e] eqn:Eq; [|injection E as <- <-; exact Hu0].
  match type of E with (if ?d then _ else _) = _ => destruct d eqn:Ed end; [injection E as <- <-; exact Hu0|]. rewrite Hk in E.
  assert (Hnone : o_fs s !! q = None -> resolve (o_fs s) [] bp' false = Ok q).
  { intros Hn. rewrite Hn in Ed. assert (Hne : exists x, resolve (o_fs s) [] bp' false = Ok x).
    { unfold resolve in Eq |- *. destruct (has_char nul bp'); [discriminate|]. destruct bp'; [discriminate|].
      apply walk_unfollow in Eq as [H|(x & ? & ? & H & _)]; rewrite H; eauto. }
    destruct Hne as [x Hx]. rewrite Hx in Ed |- *. destruct (bool_decide_reflect (x = q)); [congruence|discriminate]. }
  assert (Hgo : forall k, (Ok tt, set_fs (<[q := Node k (n_mode n) (n_uid n) (n_gid n) (n_mtime n) (o_now s0)]> (o_fs s)) s0) = (y, s') -> q <> pl ->
    (match o_fs s !! q with Some n0 => (exists t, n_kind n0 = KOther t /\ k = KOther t) \/ ((exists b0, n_kind n0 = KFile b0) /\ k = KFile b) | None => k = KFile b end) ->
    match y with Ok _ => copied path bp s s' | Err _ => unaffected s s' end).
  { intros k Hy Hne Hkk. injection Hy as <- <-. exists pl, n, b, bp', q, (Node k (n_mode n) (n_uid n) (n_gid n) (n_mtime n) (o_now s0)).
    split; [exact Hr|]. split; [exact Hk|]. split; [exact Hbp|]. split; [exact Eq|]. split; [exact Hne|].
    split; [eapply only_files_trans; [apply unaffected_only; exact Hu0|apply only_files_set]|]. split; [reflexivity|]. split; [exact Hnone|].
    unfold copy_of. rewrite Hk, (unaffected_now _ _ Hu0). destruct (o_fs s !! q) as [n0|]; [|rewrite Hkk; reflexivity].
    destruct Hkk as [(t & H1 & ->)|[H1 ->]]; [left; exists t; rewrite ?(unaffected_now _ _ Hu0); auto|right; auto]. }
  destruct (o_fs s !! q) as [n0|] eqn:En; cbn [fmap option_fmap option_map] in E.
  - destruct (n_kind n0) eqn:K0; try (injection E as <- <-; exact Hu0).
    + destruct (bool_decide_reflect (q = pl)); [injection E as <- <-; exact Hu0|]. eapply Hgo; [exact E|assumption|]. right. split; [eexists; reflexivity|reflexivity].
    + destruct (bool_decide_reflect (q = pl)); [injection E as <- <-; exact Hu0|]. eapply Hgo; [exact E|assumption|]. left. eauto.
  - destruct (bool_decide_reflect (q = pl)); [injection E as <- <-; exact Hu0|]. eapply Hgo; [exact E|assumption|]. reflexivity.
Qed.
(** a free or regular place for the copy *)
Definition copy_ok (path bp : pystr) (s : os) : Prop :=
  (resolve_node (o_fs s) [] bp false = Err (oserr ENOENT) /\ creatable s bp) \/
  (exists q m b0, resolve_node (o_fs s) [] bp false = Ok (q, m) /\ n_kind m = KFile b0 /\ forall pl n, resolve_node (o_fs s) [] path false = Ok (pl, n) -> q <> pl).
Lemma do_cp_ok p path bp s pl n b : isabs path = true -> isabs bp = true -> resolve_node (o_fs s) [] path false = Ok (pl, n) -> n_kind n = KFile b ->
  o_faults s = [] -> copy_ok path bp s -> exists s', do_cp p path bp s = (Ok tt, s') /\ o_faults s' = [].
Proof.
  intros Ha Hb Hr Hk Hfl Hok. unfold do_cp. rewrite syscall_calm by exact Hfl. rewrite (isabs_cwd_node _ _ [] _ _ Ha), Hr. cbv zeta.
  rewrite (isabs_cwd_node _ _ [] bp _ Hb). destruct Hok as [[Hno Hcr]|(q & m & b0 & Hq & Km & Hne)].
  - rewrite (resolve_node_noent _ _ _ Hno). destruct (creatable_resolve _ _ Hcr Hno) as (q & Hq & _ & _ & Hres).
    rewrite (isabs_cwd (o_fs s) (p_cwd p) [] bp true Hb), (isabs_cwd (o_fs s) (p_cwd p) [] bp false Hb), !Hres, Hq, bool_decide_true by reflexivity. cbn [negb]. rewrite Hk. cbn [fmap option_fmap option_map].
    rewrite bool_decide_false; [eexists; split; [reflexivity|exact Hfl]|]. intros ->. apply resolve_node_split in Hr as [_ Hr]. congruence.
  - assert (Hq' : resolve_node (o_fs s) [] bp true = Ok (q, m)) by (eapply resolve_node_follow; [exact Hq|congruence]). rewrite Hq', Km.
    apply resolve_node_split in Hq' as [Hq1 Hq2]. rewrite (isabs_cwd (o_fs s) (p_cwd p) [] bp true Hb), Hq1, Hq2, Hk. cbn [fmap option_fmap option_map]. rewrite Km.
    rewrite bool_decide_false; [eexists; split; [reflexivity|exact Hfl]|]. exact (Hne _ _ Hr).
Qed.

Lemma copied_only path bp s s1 : copied path bp s s1 -> only_files s s1.
Proof. intros (from & n & b & bp' & pl & m & _ & _ & _ & _ & _ & H & _). exact H. Qed.

(** the content of the file, if there is one *)
Definition original (s : os) (path : pystr) (orig : option bytes) : Prop :=
  match orig with
  | None => resolve_node (o_fs s) [] path false = Err (oserr ENOENT)
  | Some b => exists pl n, resolve_node (o_fs s) [] path false = Ok (pl, n) /\ n_kind n = KFile b
  end.
Lemma original_spot s path orig : original s path orig -> spot s path.
Proof. destruct orig; [intros (pl & n & H & K); right; eauto|left; assumption]. Qed.
Lemma original_unique s path o o' : original s path o -> original s path o' -> o = o'.
Proof.
  destruct o as [b|], o' as [b'|]; cbn; [|intros (? & ? & H & _) H'; congruence|intros H (? & ? & H' & _); congruence|reflexivity].
  intros (? & ? & H & K) (? & ? & H' & K'). rewrite H in H'. injection H' as <- <-. congruence.
Qed.
Section system.
  Variable rest : proc -> M xres.
  Variable sha512 : bytes -> bytes.
  Notation exec := (coreutils rest).
  Variable search : bool -> pystr -> pystr -> result bool.
  Variable date : pystr.
  Variables (path text : pystr) (present : bool) (regex : option pystr) (ws : bool) (backup : bool + pystr).
  Notation found_in := (found_in search text regex ws).
  Notation edited := (edited search text present regex ws).
  Notation line_copy := (line_copy exec sha512 date path backup).
  Notation line_work := (line_work exec sha512 false search date path text present regex ws backup).
  Notation line_rest := (line_rest exec sha512 false search date path text present regex ws backup).
  Notation line_cont := (line_cont exec sha512 false search date path text present regex ws backup).
  Notation line_body := (line_body exec sha512 false search date path text present regex ws backup).

  Lemma run_cp a b : forall p, p_argv p = [lit "cp"; lit "-a"; lit "--"; a; b] -> exec p = exits (do_cp p a b).
  Proof. intros p Hp; unfold coreutils; rewrite Hp; reflexivity. Qed.
  (** the path of the copy, if one is made *)
  Definition bpath : option pystr := path_join (py_dirname path) <$> backup_name date backup.
  Definition prepared (orig : option bytes) (s s1 : os) : Prop :=
    match orig, bpath with Some _, Some bp => copied path bp s s1 | _, _ => unaffected s s1 end.
  Lemma prepared_only orig s s1 : prepared orig s s1 -> only_files s s1.
  Proof. unfold prepared. destruct orig, bpath; first [apply copied_only|apply unaffected_only]. Qed.
  Lemma prepared_original orig s s1 : prepared orig s s1 -> original s path orig -> original s1 path orig.
  Proof.
    unfold prepared, original. destruct orig as [b|].
    - intros H (pl & n & Hr & Hk). exists pl, n. split; [|exact Hk]. destruct bpath; [eapply copied_source; eassumption|rewrite (unaffected_fs _ _ H); exact Hr].
    - intros H Hr. rewrite (unaffected_fs _ _ H). exact Hr.
  Qed.
  Lemma prepared_file b s s1 pl n : prepared (Some b) s s1 -> resolve_node (o_fs s) [] path false = Ok (pl, n) -> resolve_node (o_fs s1) [] path false = Ok (pl, n).
  Proof. unfold prepared. intros H Hr. destruct bpath; [eapply copied_source; eassumption|rewrite (unaffected_fs _ _ H); exact Hr]. Qed.

  Definition copy_fine (s : os) : Prop := forall bp, bpath = Some bp -> c_string bp /\ copy_ok path bp s.
  Lemma line_copy_any s c r c' b : unaffected s (sysof c) -> isabs path = true -> original s path (Some b) -> line_copy c = (r, c') ->
    ((unaffected s (sysof c') /\ exists e, r = Err e) \/ (prepared (Some b) s (sysof c') /\ (r = Ok tt \/ exists e, r = Err e))) /\
    (fine c -> c_string path -> copy_fine s -> r = Ok tt /\ fine c').
  Proof.
    intros Hu Ha (pl & n & Hr & Hk) E. unfold Line_proofs.line_copy in E. unfold prepared, copy_fine, bpath. destruct (backup_name date backup) as [x|]; cbn [fmap option_fmap option_map].
    - set (bp := path_join (py_dirname path) x) in *. assert (Hb : isabs bp = true) by (apply join_abs, dirname_abs; exact Ha).
      destruct (sh_any exec sha512 _ (fun p => do_cp p path bp) c r c' (run_cp path bp) E) as [Hset Hany]. split.
      + destruct Hany as [[H1 H2]|(p & s1 & y & _ & H1 & H2 & H3)]; [left; split; [eapply unaffected_trans; eassumption|exact H2]|].
        assert (Hu1 : unaffected s s1) by (eapply unaffected_trans; eassumption).
        assert (H4 := do_cp_inv p path bp s s1 y (sysof c') pl n b Ha Hb Hr Hk Hu1 H2). destruct y; [right; auto|left]. split; [exact H4|destruct H3; assumption].
      + intros Hf Hp Hok. destruct (Hok bp eq_refl) as [Hbs Hbo].
        destruct (sh_fine exec sha512 _ (fun p => do_cp p path bp) c r c' (run_cp path bp) E Hf) as (p & y & _ & H2 & H3 & H4); [discriminate|unfold small; vm_compute; reflexivity|words|].
        assert (Hf' := Hf). destruct Hf' as ((_ & Hfl & _) & _).
        destruct (do_cp_ok p path bp (sysof c) pl n b Ha Hb) as (s' & Hs' & Hfl'); auto; [rewrite (unaffected_fs _ _ Hu); exact Hr|rewrite Hu; exact Hbo|].
        rewrite H2 in Hs'. injection Hs' as -> Hs'. split; [exact H4|].
        assert (H5 := do_cp_inv p path bp (sysof c) (sysof c) (Ok tt) (sysof c') pl n b Ha Hb ltac:(rewrite (unaffected_fs _ _ Hu); exact Hr) Hk (unaffected_refl _) H2). cbn in H5.
        apply (fine_next c); [exact Hf|exact Hset|exact H3|rewrite Hs'; exact Hfl'|eapply copied_only; exact H5|eapply copied_grows; exact H5].
    - injection E as <- <-. split; [right; auto|]. auto.
  Qed.

  (** which mode, owner and group the upload sets *)
  Definition only_new (orig : option bytes) (x : option pystr) : option pystr := match orig with Some _ => None | None => x end.
  Definition line_done (attr : settings) (orig : option bytes) (s s' : os) (r : result unit) : Prop :=
    (unaffected s s' /\ exists e, r = Err e) \/
    exists s1 nb, prepared orig s s1 /\ edited orig = Ok nb /\
      ((unaffected s1 s' /\ exists e, r = Err e) \/
       exists pl n, sits path s1 s' pl n /\ fresh s1 n /\ part_of nb (n_kind n) /\ target s1 path pl /\
         (r = Ok tt -> uploaded s1 pl nb (only_new orig (s_file_mode attr)) (only_new orig (s_owner attr)) (only_new orig (s_group attr)) n)).
  Lemma line_work_any attr orig s c r c' a b : unaffected s (sysof c) -> isabs path = true -> c_string path ->
    accounts_ok s -> accounts_of s attr a b -> original s path orig ->
    line_work attr orig c = (r, c') ->
    line_done attr orig s (sysof c') r /\
    (fine c -> octal_below 4096 (s_file_mode attr) -> (orig = None -> creatable s path) -> (orig <> None -> copy_fine s) ->
      (exists nb, edited orig = Ok nb /\ small nb) -> r = Ok tt /\ fine c').
  Proof.
    intros Hu Ha Hp Hac Hof Ho E. unfold Line_proofs.line_work in E. unfold line_done. destruct (edited orig) as [nb|e] eqn:En.
    2:{ injection E as <- <-. split; [left; split; [exact Hu|eauto]|]. intros _ _ _ _ (nb & [=] & _). }
    apply bind_spec in E as [(nb' & c0 & [= <- <-] & E)|(e & [=] & _)].
    assert (Hup : forall s1 c1, prepared orig s s1 -> unaffected s1 (sysof c1) -> upload exec sha512 path nb (only_new orig (s_file_mode attr)) (only_new orig (s_owner attr)) (only_new orig (s_group attr)) c1 = (r, c') ->
      ((unaffected s1 (sysof c') /\ exists e, r = Err e) \/
       exists pl n, sits path s1 (sysof c') pl n /\ fresh s1 n /\ part_of nb (n_kind n) /\ target s1 path pl /\
         (r = Ok tt -> uploaded s1 pl nb (only_new orig (s_file_mode attr)) (only_new orig (s_owner attr)) (only_new orig (s_group attr)) n)) /\
      (fine c1 -> octal_below 4096 (s_file_mode attr) -> (orig = None -> creatable s path) -> small nb -> r = Ok tt /\ fine c')).
    { intros s1 c1 Hpre Hu1 Eu. assert (Ho1 := prepared_original _ _ _ Hpre Ho).
      assert (Hsp1 : spot (sysof c1) path) by (rewrite Hu1; exact (original_spot _ _ _ Ho1)).
      destruct (upload_any exec sha512 path nb _ _ _ c1 r c' Eu Ha Hsp1) as [Hset Hany]. split.
      - destruct Hany as [[U1 U2]|(pl & n & U1 & U2 & U3 & U4 & U5)]; [left; split; [eapply unaffected_trans; eassumption|exact U2]|right].
        exists pl, n. rewrite Hu1 in U2, U4, U5. split; [eapply sits_from; eassumption|]. split; [exact U2|]. split; [exact U3|]. split; [exact U4|exact U5].
      - intros Hf Hoct Hcr Hsm. eapply upload_fine; try eassumption.
        + destruct orig; cbn [only_new]; [split; [exact Hsm|split; [exact I|split; exact I]]|].
          assert (Hs1 := prepared_only _ _ _ Hpre). rewrite Hu1. apply (acceptable_attr sha512 s1 nb attr a b Hsm); [apply (accounts_files _ _ Hs1); exact Hac| |exact Hoct]. rewrite Hs1. exact Hof.
        + intros Hno. rewrite (unaffected_fs _ _ Hu1) in Hno. destruct orig as [b0|]; [destruct Ho1 as (pl & n & Hr & _); congruence|]. cbn in Hpre. rewrite Hu1, Hpre. apply Hcr. reflexivity. }
    unfold line_write in E. destruct orig as [b0|].
    - apply bind_spec in E as [([] & c1 & E1 & E)|(e & E & ->)].
      + destruct (line_copy_any s c _ c1 b0 Hu Ha Ho E1) as [[[_ [e [=]]]|[Hpre _]] Hf1].
        destruct (Hup (sysof c1) c1 Hpre (unaffected_refl _) E) as [H1 H2]. split; [right; exists (sysof c1), nb; split; [exact Hpre|]; split; [reflexivity|exact H1]|].
        intros Hf Hoct Hcr Hcf (nb' & [= <-] & Hsm). destruct (Hf1 Hf Hp (Hcf ltac:(discriminate))) as [_ Hf']. apply H2; auto.
      + destruct (line_copy_any s c _ c' b0 Hu Ha Ho E) as [H1 Hf1].
        split; [destruct H1 as [[H1 H2]|[H1 _]]; [left; auto|right; exists (sysof c'), nb; split; [exact H1|]; split; [reflexivity|left; split; [apply unaffected_refl|eauto]]]|].
        intros Hf Hoct Hcr Hcf _. destruct (Hf1 Hf Hp (Hcf ltac:(discriminate))) as [[=] _].
    - destruct (Hup (sysof c) c Hu (unaffected_refl _) E) as [H1 H2].
      split; [right; exists (sysof c), nb; split; [exact Hu|]; split; [reflexivity|exact H1]|].
      intros Hf Hoct Hcr Hcf (nb' & [= <-] & Hsm). apply H2; auto.
  Qed.

  Definition found_orig (orig : option bytes) : result bool := match orig with Some b => found_in b | None => Ok false end.
  Lemma line_look attr : line_body attr =
    look rest sha512 false (lit "file") (lit "path '" ++ path ++ lit "' exists but is not a file!") (line_state present) path (line_cont attr).
  Proof. reflexivity. Qed.
  Lemma line_body_any attr s c x c' a b :
    unaffected s (sysof c) -> isabs path = true -> c_string path -> os_ok (sysof c) -> honest (sysof c) ->
    accounts_ok s -> accounts_of s attr a b ->
    line_body attr c = (x, c') ->
    (unaffected s (sysof c') \/ exists orig r, original s path orig /\ found_orig orig = Ok (negb present) /\ line_done attr orig s (sysof c') r) /\
    (forall res, x = Ok res -> or_success res = true ->
       exists orig, original s path orig /\
         ((or_changed res = false /\ found_orig orig = Ok present /\ unaffected s (sysof c')) \/
          (or_changed res = true /\ found_orig orig = Ok (negb present) /\ line_done attr orig s (sysof c') (Ok tt)))) /\
    (fine c -> hash_ok sha512 -> octal_below 4096 (s_file_mode attr) ->
       forall orig f, original s path orig -> found_orig orig = Ok f -> (f <> present -> orig = None -> creatable s path) -> (f <> present -> orig <> None -> copy_fine s) ->
       (f <> present -> exists nb, edited orig = Ok nb /\ small nb) ->
       exists res, x = Ok res /\ or_success res = true /\ fine c' /\ (or_changed res = false <-> f = present)).
  Proof.
    intros Hu Ha Hp Hos Hh Hac Hof E. rewrite line_look in E.
    destruct (look_inv rest sha512 _ _ _ _ _ _ is_file s c x c' Hu Ha Hp Hos Hh is_file_type E) as [(L1 & L2 & L3)|(st & c1 & L0 & L1 & L2 & L3 & L4)].
    { split; [left; exact L1|]. split; [intros res Hx Hs; destruct (L2 res Hx); congruence|]. intros Hf Hha _ orig f Ho _ _ _ _. destruct (L3 Hf Hha).
      destruct orig; [right; destruct Ho as (pl & n & H & K); exists pl, n; split; [exact H|eexists; exact K]|left; exact Ho]. }
    clear E. assert (Hos1 := spends_os_ok _ _ L0 Hos).
    assert (Hrest : forall orig f c2, original s path orig -> found_orig orig = Ok f -> unaffected s (sysof c2) -> line_rest attr orig f c2 = (x, c') ->
      (unaffected s (sysof c') \/ exists orig r, original s path orig /\ found_orig orig = Ok (negb present) /\ line_done attr orig s (sysof c') r) /\
      (forall res, x = Ok res -> or_success res = true ->
         exists orig, original s path orig /\
           ((or_changed res = false /\ found_orig orig = Ok present /\ unaffected s (sysof c')) \/
            (or_changed res = true /\ found_orig orig = Ok (negb present) /\ line_done attr orig s (sysof c') (Ok tt)))) /\
      (fine c2 -> octal_below 4096 (s_file_mode attr) ->
       (f <> present -> orig = None -> creatable s path) -> (f <> present -> orig <> None -> copy_fine s) ->
       (f <> present -> exists nb, edited orig = Ok nb /\ small nb) ->
       exists res, x = Ok res /\ or_success res = true /\ fine c' /\ (or_changed res = false <-> f = present))).
    { intros orig f c2 Ho Hfo Hu2 El. unfold Line_proofs.line_rest, conclude in El. rewrite line_state_eq in El. destruct (Bool.eqb f present) eqn:Ef.
      - apply eqb_prop in Ef as ->. injection El as <- <-. split; [left; exact Hu2|]. split.
        + intros res [= <-] _. exists orig. split; [exact Ho|]. left. auto.
        + intros Hf _ _ _ _. eexists. split; [reflexivity|]. split; [reflexivity|]. split; [exact Hf|]. split; reflexivity.
      - assert (Hne : f <> present) by (intros ->; rewrite eqb_reflx in Ef; discriminate).
        assert (Hfn : found_orig orig = Ok (negb present)) by (rewrite Hfo; destruct f, present; first [reflexivity|contradiction]).
        apply bind_spec in El as [([] & c3 & Ew & Ec)|(e & Ew & ->)].
        + injection Ec as <- <-. destruct (line_work_any attr orig s c2 _ c3 a b Hu2 Ha Hp Hac Hof Ho Ew) as [W1 W2].
          split; [right; exists orig, (Ok tt); auto|]. split.
          * intros res [= <-] _. exists orig. split; [exact Ho|]. right. auto.
          * intros Hf Hoct Hcr Hcf Hnb. destruct (W2 Hf Hoct (Hcr Hne) (Hcf Hne) (Hnb Hne)) as [_ Hf']. eexists. split; [reflexivity|]. split; [reflexivity|]. split; [exact Hf'|]. split; [discriminate|contradiction].
        + destruct (line_work_any attr orig s c2 _ c' a b Hu2 Ha Hp Hac Hof Ho Ew) as [W1 W2].
          split; [right; exists orig, (Err e); auto|]. split; [discriminate|].
          intros Hf Hoct Hcr Hcf Hnb. destruct (W2 Hf Hoct (Hcr Hne) (Hcf Hne) (Hnb Hne)) as [[=] _]. }
    destruct L2 as [[-> Hno]|(pl & n & Hr & [d Hk] & ->)].
    - destruct (Hrest None false c1 Hno eq_refl L1 L3) as (R1 & R2 & R3). split; [exact R1|]. split; [exact R2|].
      intros Hf Hha Hoct orig f Ho Hfo Hcr Hcf Hnb. assert (orig = None) as -> by exact (original_unique _ _ _ _ Ho (Hno : original s path None)).
      injection Hfo as <-. apply R3; auto. rewrite (L4 Hf Hha). exact Hf.
    - assert (Ho : original s path (Some d)) by (exists pl, n; auto).
      assert (Hr1 : resolve_node (o_fs (sysof c1)) [] path false = Ok (pl, n)) by (rewrite (unaffected_fs _ _ L1); exact Hr).
      cbn [Line_proofs.line_cont] in L3. apply bind_spec in L3 as [(d' & c2 & Ed & L3)|(e & Ed & ->)].
      + destruct (download_any exec sha512 path c1 _ c2 pl n d Ed Ha Hr1 Hk) as (D1 & D2 & D3). rewrite (D3 d' eq_refl) in *. clear d' D3.
        assert (Hu2 : unaffected s (sysof c2)) by (eapply unaffected_trans; eassumption).
        assert (Hc2 : fine c -> hash_ok sha512 -> c2 = c).
        { intros Hf Hha. rewrite (L4 Hf Hha) in *. assert (Hd := download_fine exec sha512 path c pl n d (proj1 Hf) Ha Hp Hr1 Hk). rewrite Hd in Ed; [injection Ed as <-; reflexivity|].
          apply resolve_node_split in Hr1 as [_ Hr2]. destruct Hos as (_ & _ & _ & _ & _ & O6 & _). destruct (O6 _ _ Hr2) as [O _]. rewrite Hk in O. exact O. }
        apply bind_spec in L3 as [(f & c3 & Ef & L3)|(e & Ef & ->)].
        * injection Ef as Ef <-. destruct (Hrest (Some d) f c2 Ho Ef Hu2 L3) as (R1 & R2 & R3). split; [exact R1|]. split; [exact R2|].
          intros Hf Hha Hoct orig f' Ho' Hfo Hcr Hcf Hnb. rewrite (original_unique _ _ _ _ Ho' Ho) in *. cbn [found_orig] in Hfo. rewrite Ef in Hfo. injection Hfo as <-. apply R3; auto. rewrite (Hc2 Hf Hha). exact Hf.
        * injection Ef as Ef <-. split; [left; exact Hu2|]. split; [discriminate|].
          intros Hf Hha Hoct orig f' Ho' Hfo _ _ _. rewrite (original_unique _ _ _ _ Ho' Ho) in *. cbn [found_orig] in Hfo. congruence.
      + destruct (download_any exec sha512 path c1 _ c' pl n d Ed Ha Hr1 Hk) as (D1 & D2 & _).
        split; [left; eapply unaffected_trans; eassumption|]. split; [discriminate|]. intros Hf Hha _ orig f' Ho' Hfo _ _ _. rewrite (L4 Hf Hha) in *.
        assert (Hd := download_fine exec sha512 path c pl n d (proj1 Hf) Ha Hp Hr1 Hk). rewrite Hd in Ed; [discriminate|].
        apply resolve_node_split in Hr1 as [_ Hr2]. destruct Hos as (_ & _ & _ & _ & _ & O6 & _). destruct (O6 _ _ Hr2) as [O _]. rewrite Hk in O. exact O.
  Qed.
End system.

(** ** The text of the file *)
Lemma enc_cp_esc_length c b : enc_cp_esc c = Some b -> length b <= 4.
Proof.
  unfold enc_cp_esc, enc_cp. destruct ((56448 <=? c)%N && (c <=? 56575)%N); [intros [= <-]; cbn; lia|].
  destruct (c <? 128)%N; [intros [= <-]; cbn; lia|]. destruct (c <? 2048)%N; [intros [= <-]; cbn; lia|]. destruct (c <? 65536)%N.
  - destruct ((55296 <=? c)%N && (c <=? 57343)%N); [discriminate|]. intros [= <-]; cbn; lia.
  - destruct (c <? 1114112)%N; [intros [= <-]; cbn; lia|discriminate].
Qed.
Lemma encode_esc_length s b : utf8_encode_esc s = Some b -> length b <= 4 * length s.
Proof.
  unfold utf8_encode_esc. revert b. induction s as [|c s IH]; intros b; cbn [enc_with]; [intros [= <-]; cbn; lia|].
  destruct (enc_cp_esc c) as [bc|] eqn:E; [|discriminate]. cbn. destruct (enc_with enc_cp_esc s) as [bs|]; [|discriminate]. cbn. intros [= <-].
  apply enc_cp_esc_length in E. specialize (IH bs eq_refl). rewrite app_length. lia.
Qed.
Lemma decode_esc_length b : length (utf8_decode_esc b) <= length b.
Proof.
  assert (H := decode_esc_spec b). revert H. apply (dec_ind (fun b => Some [56320 + b2n b]%N) (fun l s => length s <= length l)).
  - cbn. lia.
  - intros c bc l s Hc _ IH. rewrite app_length. cbn. assert (bc <> []) by (apply enc_cp_head in Hc as (b0 & r & -> & _); discriminate). destruct bc; [contradiction|]. cbn. lia.
  - intros b0 t l s _ [= <-] _ IH. cbn. lia.
Qed.
Lemma ended_length s : length (ended (splitlines s)) <= length s + 1.
Proof.
  induction (splitlines_lines_of s) as [|l H Hne|l r ls H Hr IH|l c r ls H Hc Hn Hr IH]; rewrite ?ended_cons, ?app_length; cbn [length ended flat_map]; rewrite ?app_length; cbn [length] in *; lia.
Qed.
Lemma ended_filter (f : pystr -> bool) ls : length (ended (List.filter f ls)) <= length (ended ls).
Proof. induction ls as [|l ls IH]; cbn [List.filter]; [lia|]. destruct (f l); rewrite ?ended_cons, ?app_length; cbn [length]; lia. Qed.

Definition text_of (orig : option bytes) : pystr := match orig with Some b => utf8_decode_esc b | None => [] end.
(** the lines of the file, or none *)
Definition lines_before (orig : option bytes) (ls : list pystr) : Prop := match orig with Some b => file_lines b ls | None => ls = [] end.
Lemma lines_before_eq orig ls : lines_before orig ls <-> splitlines (text_of orig) = ls.
Proof. destruct orig; cbn; [apply lines_of_iff|split; congruence]. Qed.
Lemma lines_before_stable orig ls : lines_before orig ls -> Forall stable ls /\ Forall breakless ls.
Proof. destruct orig; cbn; [apply file_lines_stable|intros ->; split; constructor]. Qed.
(** the wanted line is in the file *)
Definition has_line (ws : bool) (text : pystr) (orig : option bytes) : Prop := exists ls l, lines_before orig ls /\ l ∈ ls /\ counts ws text l.

Section text.
  Variable search : bool -> pystr -> pystr -> result bool.
  Variables (text : pystr) (ws : bool).
  Lemma find_counts ls : (if ws then str_in (strip text) (List.map strip ls) else str_in text ls) = true <-> exists l, l ∈ ls /\ counts ws text l.
  Proof.
    unfold str_in, counts. destruct ws; rewrite existsb_exists.
    - split.
      + intros (x & Hx & E). apply in_map_iff in Hx as (l & <- & Hl). destruct (str_eqb_spec (strip text) (strip l)); [|discriminate]. exists l. split; [apply elem_of_list_In; exact Hl|assumption].
      + intros (l & Hl & E). exists (strip l). split; [apply in_map, elem_of_list_In; exact Hl|]. destruct (str_eqb_spec (strip text) (strip l)); congruence.
    - split.
      + intros (l & Hl & E). destruct (str_eqb_spec text l); [|discriminate]. exists l. split; [apply elem_of_list_In; exact Hl|assumption].
      + intros (l & Hl & E). exists l. split; [apply elem_of_list_In; exact Hl|]. destruct (str_eqb_spec text l); congruence.
  Qed.
  Lemma found_has orig f : found_orig search text None ws orig = Ok f -> (f = true <-> has_line ws text orig).
  Proof.
    unfold has_line. destruct orig as [b|]; cbn [found_orig].
    - unfold found_in, find_line. intros [= <-]. rewrite find_counts. split.
      + intros (l & H). exists (splitlines (utf8_decode_esc b)), l. split; [apply lines_of_iff; reflexivity|exact H].
      + intros (ls & l & H & Hl). apply lines_of_iff in H as <-. exists l. exact Hl.
    - intros [= <-]. split; [discriminate|]. intros (ls & l & -> & Hl & _). inversion Hl.
  Qed.
  Lemma found_total orig : exists f, found_orig search text None ws orig = Ok f.
  Proof. destruct orig; eexists; reflexivity. Qed.

  Lemma edited_adds orig : edited search text true None ws orig = new_bytes (splitlines (text_of orig) ++ [text]).
  Proof. destruct orig; reflexivity. Qed.
  Definition stays (l : pystr) : bool := negb (str_eqb text (if ws then strip l else l)).
  Lemma edited_removes orig : edited search text false None ws orig = new_bytes (List.filter stays (splitlines (text_of orig))).
  Proof. destruct orig; reflexivity. Qed.
  Lemma new_bytes_ended ls : ls <> [] -> new_bytes ls = match utf8_encode_esc (ended ls) with Some b => Ok b | None => Err UnicodeEncodeError end.
  Proof. intros H. unfold new_bytes. rewrite <- (join_ended [10%N] ls eq_refl H). reflexivity. Qed.
  Lemma new_bytes_nil : new_bytes [] = Ok [lf]. Proof. reflexivity. Qed.

  Lemma added orig ls : breakless text -> is_Some (utf8_encode text) -> lines_before orig ls ->
    exists nb, edited search text true None ws orig = Ok nb /\ file_lines nb (ls ++ [text]).
  Proof.
    intros Hb He Hl. destruct (lines_before_stable _ _ Hl) as [H1 H2]. apply lines_before_eq in Hl as <-. rewrite edited_adds, new_bytes_ended by (destruct (splitlines _); discriminate).
    destruct (ended_bytes (splitlines (text_of orig) ++ [text])) as (nb & E1 & _ & E2); [apply Forall_app; split; [exact H1|repeat constructor; apply stable_valid; exact He]|apply Forall_app; split; [exact H2|repeat constructor; exact Hb]|].
    exists nb. rewrite E1. auto.
  Qed.
  Lemma stays_counts l : (ws = true -> strip text = text) -> stays l = false <-> counts ws text l.
  Proof.
    intros H. unfold stays, counts. destruct ws; [rewrite (H eq_refl)|]; rewrite negb_false_iff; [destruct (str_eqb_spec text (strip l))|destruct (str_eqb_spec text l)]; split; congruence.
  Qed.
  Lemma removed orig ls ks : (ws = true -> strip text = text) -> lines_before orig ls -> without (counts ws text) ls ks ->
    exists nb, edited search text false None ws orig = Ok nb /\ (ks <> [] -> file_lines nb ks) /\ (ks = [] -> nb = [lf]).
  Proof.
    intros Hs Hl Hk. destruct (lines_before_stable _ _ Hl) as [H1 H2]. apply lines_before_eq in Hl as <-. rewrite edited_removes.
    assert (E := without_filter (counts ws text) stays (splitlines (text_of orig)) (fun l => stays_counts l Hs)). rewrite (without_unique _ _ _ _ E Hk). clear E.
    destruct (decide (ks = [])) as [-> |Hne]; [exists [lf]; split; [reflexivity|split; [contradiction|reflexivity]]|].
    rewrite new_bytes_ended by exact Hne. destruct (ended_bytes ks) as (nb & E1 & _ & E2); [eapply without_forall; eassumption|eapply without_forall; eassumption|].
    exists nb. rewrite E1. split; [reflexivity|]. split; [auto|contradiction].
  Qed.
  (** byte for byte *)
  Lemma added_rows b rows tb nb : lf_only b -> rows_of b rows -> utf8_encode text = Some tb -> edited search text true None ws (Some b) = Ok nb -> nb = lf_ended (rows ++ [tb]).
  Proof.
    intros Hb Hr He E. assert (Hl := rows_lines _ _ Hb Hr). apply lines_of_iff in Hl. rewrite edited_adds, new_bytes_ended in E by (destruct (splitlines _); discriminate). cbn [text_of] in E. rewrite Hl in E.
    rewrite (encode_ended _ (rows ++ [tb])) in E; [congruence|]. apply Forall2_app; [apply encode_rows|repeat constructor; apply encode_valid; exact He].
  Qed.
  Lemma removed_rows b rows kept nb : (ws = true -> strip text = text) -> lf_only b -> rows_of b rows -> without (fun r => counts ws text (utf8_decode_esc r)) rows kept ->
    edited search text false None ws (Some b) = Ok nb -> nb = match kept with [] => [lf] | _ => lf_ended kept end.
  Proof.
    intros Hs Hb Hr Hk E. assert (Hl := rows_lines _ _ Hb Hr). apply lines_of_iff in Hl. rewrite edited_removes in E. cbn [text_of] in E. rewrite Hl in E.
    assert (F := without_filter (counts ws text) stays (List.map utf8_decode_esc rows) (fun l => stays_counts l Hs)). apply without_map in Hk. rewrite (without_unique _ _ _ _ F Hk) in E.
    destruct kept as [|k kept]; cbn [List.map] in E; [rewrite new_bytes_nil in E; congruence|]. change (utf8_decode_esc k :: List.map utf8_decode_esc kept) with (List.map utf8_decode_esc (k :: kept)) in E. rewrite new_bytes_ended in E by (cbn; discriminate). rewrite (encode_ended _ _ (encode_rows _)) in E. congruence.
  Qed.
  Definition roomy (orig : option bytes) : Prop := (16 * (N.of_nat (match orig with Some b => length b | None => 0 end) + N.of_nat (length text) + 2) < 2 ^ 63)%N.
  Lemma edited_small present orig nb : roomy orig -> edited search text present None ws orig = Ok nb -> small nb.
  Proof.
    intros Hr E. assert (Ht : length (text_of orig) <= match orig with Some b => length b | None => 0 end) by (destruct orig; [apply decode_esc_length|cbn; lia]).
    assert (Hs := ended_length (text_of orig)). set (ls := splitlines (text_of orig)) in *.
    assert (Hx : exists ls', new_bytes ls' = Ok nb /\ length (ended ls') <= length (ended ls) + length text + 1).
    { destruct present; [rewrite edited_adds in E; exists (ls ++ [text])|rewrite edited_removes in E; exists (List.filter stays ls)]; (split; [exact E|]).
      - rewrite ended_app, app_length. cbn [ended flat_map]. rewrite !app_length. cbn. lia.
      - assert (H := ended_filter stays ls). lia. }
    destruct Hx as (ls' & E' & Hlen). unfold roomy in Hr. unfold small. destruct ls' as [|l ls'].
    - rewrite new_bytes_nil in E'. injection E' as <-. vm_compute. reflexivity.
    - rewrite new_bytes_ended in E' by discriminate. destruct (utf8_encode_esc (ended (l :: ls'))) as [b'|] eqn:Ee; [|discriminate]. injection E' as <-. apply encode_esc_length in Ee. lia.
  Qed.
  Lemma has_line_iff orig ls : lines_before orig ls -> has_line ws text orig <-> exists l, l ∈ ls /\ counts ws text l.
  Proof.
    intros H. split.
    - intros (ls' & l & H' & Hl). apply lines_before_eq in H. apply lines_before_eq in H'. exists l. rewrite <- H, H'. exact Hl.
    - intros (l & Hl). exists ls, l. auto.
  Qed.
End text.
