(** C49-C52: files.line. *)
From Coq Require Import Lia ZifyBool ZifyN ZifyNat.
From stdpp Require Import gmap.
From Verif Require Import Base Utf8 Codec Spec_Codec Codec_proofs Paths Sys Spec_Sys Sys_proofs Dispatcher Client Spec_Remote Remote_safe Remote_upload Remote_run Direct Control Spec_Control Control_settle Prop_Control Op Spec_Op Op_proofs Coreutils Files Walk_proofs Files_plain Spec_Files Shell_proofs Thrift Steps Dir_proofs Transfer Converge Content_proofs Remote_examples Files_examples Dry_files Prop_Files Prop_Content Spec_Line Line_text Line_proofs.
Local Open Scope nat_scope.

(** ** Specification *)
(** The content of the regular file at the path; [None]: nothing is there. *)
Definition content_at (s : os) (path : pystr) (orig : option bytes) : Prop :=
  match orig with
  | None => sees_none s path
  | Some b => exists pl n, sees s path pl n /\ n_kind n = KFile b
  end.
(** The lines of it; there are none if there is no file. *)
Definition lines_at (orig : option bytes) (ls : list pystr) : Prop := match orig with Some b => file_lines b ls | None => ls = [] end.
Definition present_in (ws : bool) (text : pystr) (ls : list pystr) : Prop := exists l, l ∈ ls /\ counts ws text l.
(** The name of the copy that is asked for, relative to the directory of the file. *)
Inductive copy_named (date : pystr) : bool + pystr -> pystr -> Prop :=
| copy_dated : copy_named date (inl true) (lit "." ++ date ++ lit ".bak")
| copy_given x : x <> [] -> copy_named date (inr x) x.
(** Where cp puts it: it follows links, and goes into directories. *)
Definition copies_to (s : os) (path x : pystr) (q : place) : Prop :=
  let bp := path_join (py_dirname path) x in
  resolve (o_fs s) [] bp true = Ok q \/
  ((exists p d, resolve_node (o_fs s) [] bp true = Ok (p, d) /\ n_kind d = KDir) /\ resolve (o_fs s) [] (path_join bp (basename path)) true = Ok q).
(** The file has been written anew with the content [nb].  An existing file stays who owns it and keeps its mode, except for
    set-id bits; a new file gets the mode, owner and group in effect.  Nothing else has changed, apart from the copy. *)
Definition rewritten (date : pystr) (c c' : ctl) (reqs : list settings) (path : pystr) (backup : bool + pystr) (orig : option bytes) (nb : bytes) : Prop :=
  exists pl n, at_path (sysof c') path pl n /\ n_kind n = KFile nb /\ n_mtime n = o_now (sysof c) /\
    match orig with
    | Some _ => exists n0, sees (sysof c) path pl n0 /\ n_uid n = n_uid n0 /\ n_gid n = n_gid n0 /\ (n_mode n = n_mode n0 \/ n_mode n = drop_suid (n_mode n0))
    | None => o_fs (sysof c) !! pl = None /\ exists attr z, settles (sysof c) (c_base c) (reqs ++ [no_settings]) attr /\
        owned (sysof c') (s_owner attr) (s_group attr) n /\ taken (s_file_mode attr) z /\ (n_mode n = z \/ n_mode n = drop_suid z)
    end /\
    only_files (sysof c) (sysof c') /\
    forall q, q <> pl -> o_fs (sysof c') !! q = o_fs (sysof c) !! q \/ (orig <> None /\ exists x, copy_named date backup x /\ copies_to (sysof c) path x q).
(** The copy can be made: there is a place for it, or a regular file other than the one that is edited. *)
Definition copy_possible (date : pystr) (s : os) (path : pystr) (backup : bool + pystr) : Prop :=
  forall x, copy_named date backup x -> let bp := path_join (py_dirname path) x in
    c_string bp /\ ((sees_none s bp /\ creatable s bp) \/ exists q m b0, sees s bp q m /\ n_kind m = KFile b0 /\ forall pl n, sees s path pl n -> q <> pl).
(** Neither the file nor the line is so large that the result could not be sent. *)
Definition sendable (orig : option bytes) (text : pystr) : Prop :=
  (16 * (N.of_nat (match orig with Some b => length b | None => 0 end) + N.of_nat (length text) + 2) < 2 ^ 63)%N.

Lemma copy_named_iff date backup x : copy_named date backup x <-> backup_name date backup = Some x.
Proof.
  split; [intros [|y Hy]; [reflexivity|destruct y; [contradiction|reflexivity]]|]. destruct backup as [[|]|[|y t]]; cbn [backup_name]; intros [= <-]; constructor. discriminate.
Qed.
Lemma edited_total search text present ws orig : (present = true -> is_Some (utf8_encode text)) -> exists nb, edited search text present None ws orig = Ok nb.
Proof.
  intros He. assert (Hst : forall ls, Forall stable ls -> exists nb, new_bytes ls = Ok nb).
  { intros ls Hls. destruct (decide (ls = [])) as [-> |Hne]; [exists [lf]; reflexivity|]. rewrite new_bytes_ended by exact Hne. destruct (stable_ended ls Hls) as (b & -> & _). eauto. }
  destruct (lines_before_stable orig (splitlines (text_of orig))) as [H1 _]; [apply lines_before_eq; reflexivity|]. destruct present.
  - rewrite edited_adds. apply Hst. apply Forall_app. split; [exact H1|]. repeat constructor. apply stable_valid. auto.
  - rewrite edited_removes. apply Hst. apply Forall_forall. intros l Hl. rewrite Forall_forall in H1. apply H1. apply elem_of_list_In in Hl. apply filter_In in Hl as [Hl _]. apply elem_of_list_In. exact Hl.
Qed.
Lemma has_present ws text orig ls : lines_at orig ls -> has_line ws text orig <-> present_in ws text ls.
Proof. apply has_line_iff. Qed.
Lemma copied_ok path bp s s1 : os_ok s -> copied path bp s s1 -> o_faults s1 = [] -> os_ok s1.
Proof.
  intros (O1 & O2 & O3 & O4 & O5 & O6 & O7 & O8 & O9 & O10) (from & n & b & bp' & pl & m & Hr & Hk & _ & _ & _ & H & Hf & _ & Hm) Hfl. rewrite H. split_and!; auto; cbn [o_fs o_faults set_fs set_faults]; [|rewrite Hfl; constructor].
  assert (Hn : node_ok n) by (apply resolve_node_split in Hr as [_ Hr]; apply (O6 _ _ Hr)). destruct Hn as (N1 & N2 & N3 & N4 & N5 & N6).
  intros q k. rewrite Hf. destruct (decide (q = pl)) as [-> |Hq]; [rewrite lookup_insert; intros [= <-]|rewrite lookup_insert_ne by congruence; apply O6].
  destruct (o_fs s !! pl) as [n0|] eqn:E0; [destruct Hm as [(t & K & ->)|[_ ->]]|subst m]; [|split_and!; auto..].
  split_and!; auto. destruct (O6 _ _ E0) as [O _]. rewrite K in O. exact O.
Qed.

Section theorems.
  Variable rest : proc -> M xres.
  Variable sha512 : bytes -> bytes.
  Variable want_diff : bool.
  Variable search : bool -> pystr -> pystr -> result bool.
  Variable date : pystr.
  Notation exec := (coreutils rest).
  Notation line := (line exec sha512 false want_diff search date).
  Notation edited := (edited search).

  Lemma done_rewritten c c' reqs path text present regex ws backup attr a b orig :
    accounts_ok (sysof c) -> settles (sysof c) (c_base c) (reqs ++ [no_settings]) attr -> accounts_of (sysof c) attr a b -> s_file_mode attr <> None ->
    original (sysof c) path orig -> line_done search date path text present regex ws backup attr orig (sysof c) (sysof c') (Ok tt) ->
    exists nb, edited text present regex ws orig = Ok nb /\ rewritten date c c' reqs path backup orig nb /\ content_at (sysof c') path (Some nb) /\
      grows (o_fs (sysof c)) (o_fs (sysof c')) /\ (os_ok (sysof c) -> small nb -> o_faults (sysof c') = [] -> os_ok (sysof c')).
  Proof.
    intros Hac Hse Hof Hm Ho [[_ [e [=]]]|(s1 & nb & Hpre & He & [[_ [e [=]]]|(pl & n & Hsit & Hfr & _ & Htg & Hup)])]. specialize (Hup eq_refl). destruct Hup as (U1 & U2 & z & U3 & U4).
    exists nb. split; [exact He|]. assert (Hs1 := prepared_only date path backup _ _ _ Hpre). assert (Hs' := sits_only _ _ _ _ _ Hsit).
    assert (Hall : only_files (sysof c) (sysof c')) by (eapply only_files_trans; eassumption).
    assert (Hsh : forall n0, o_fs s1 !! pl = Some n0 -> shape n = shape n0).
    { intros n0 H0. unfold target in Htg. rewrite H0 in Htg. destruct Htg as [_ [b0 K0]]. unfold shape. rewrite U1, K0. reflexivity. }
    assert (Hnow : o_now s1 = o_now (sysof c)) by (rewrite Hs1; reflexivity).
    assert (Hg1 : grows (o_fs (sysof c)) (o_fs s1)).
    { unfold prepared in Hpre. destruct orig, (bpath date path backup); first [eapply copied_grows; exact Hpre|rewrite (unaffected_fs _ _ Hpre); apply grows_refl]. }
    assert (Hold : match orig with
      | Some _ => exists n0, resolve_node (o_fs (sysof c)) [] path false = Ok (pl, n0) /\ n_uid n = n_uid n0 /\ n_gid n = n_gid n0 /\ z = n_mode n0
      | None => o_fs (sysof c) !! pl = None /\ good_owner attr a b n /\ asked (s_file_mode attr) z
      end).
    { destruct orig as [b0|].
      - destruct Ho as (pl0 & n0 & Hr & Hk). assert (Hr1 := prepared_file date path backup _ _ _ _ _ Hpre Hr). unfold target in Htg.
        destruct (o_fs s1 !! pl) as [n1|] eqn:E1; [|congruence]. destruct Htg as [Htg _]. rewrite Hr1 in Htg. injection Htg as -> ->. exists n1. split; [exact Hr|].
        cbn [only_new] in U2, U3. unfold upload_owner in U2. unfold base_mode in U3. rewrite E1 in U3. destruct U2. auto.
      - cbn in Hpre. assert (Hfs := unaffected_fs _ _ Hpre). unfold target in Htg. rewrite Hfs in Htg. cbn in Ho. destruct (o_fs (sysof c) !! pl) as [n1|] eqn:E1; [destruct Htg; congruence|]. split; [reflexivity|].
        cbn [only_new] in U2, U3. assert (Hgood : content_good sha512 nb s1 attr a b pl n).
        { apply uploaded_good; auto; [apply (accounts_files _ _ Hs1); exact Hac|rewrite Hs1; exact Hof|rewrite Hfs, E1; discriminate|split; [exact U1|split; [exact U2|exists z; auto]]]. }
        split; [apply Hgood|]. unfold base_mode in U3. destruct (s_file_mode attr) as [t|] eqn:Et; [|contradiction]. destruct U3 as (i & I1 & I2). exists t, i. auto. }
    split; [exists pl, n; split; [eapply sits_at; exact Hsit|]; split; [exact U1|]; split; [rewrite <- Hnow; apply Hfr|]; split; [|split; [exact Hall|]]|].
    - destruct orig; [destruct Hold as (n0 & H1 & H2 & H3 & ->); exists n0; auto|]. destruct Hold as (H1 & H2 & H3). split; [exact H1|]. exists attr, z. split; [exact Hse|]. split; [eapply owned_of; eassumption|]. split; [exact H3|exact U4].
    - intros q Hq. destruct Hsit as (_ & Hfs & _). rewrite Hfs, lookup_insert_ne by congruence. unfold prepared in Hpre. destruct orig as [b0|]; [|left; rewrite (unaffected_fs _ _ Hpre); reflexivity].
      unfold bpath in Hpre. destruct (backup_name date backup) as [x|] eqn:Ex; cbn [fmap option_fmap option_map] in Hpre; [|left; rewrite (unaffected_fs _ _ Hpre); reflexivity].
      destruct Hpre as (from & n1 & b1 & bp' & q' & m & _ & _ & Hbp & Hq' & _ & _ & Hf & _ & _). rewrite Hf. destruct (decide (q = q')) as [-> |Hne]; [right|left; apply lookup_insert_ne; congruence].
      split; [discriminate|]. exists x. split; [apply copy_named_iff; exact Ex|]. unfold copies_to. destruct Hbp as [-> |[Hd ->]]; [left; exact Hq'|right; split; [exact Hd|exact Hq']].
    - split; [exists pl, n; split; [apply Hsit|exact U1]|]. split; [eapply grows_trans; [exact Hg1|eapply sits_grows; eassumption]|].
      intros Hos Hsm Hfl.
      assert (Hos1 : os_ok (set_faults [] s1)).
      { unfold prepared in Hpre. destruct orig as [b0|]; [destruct (bpath date path backup) as [bp|]|].
        - eapply (copied_ok path bp (sysof c)); [exact Hos| |reflexivity]. destruct Hpre as (from & n1 & b1 & bp' & q' & m & P1 & P2 & P3 & P4 & P5 & P6 & P7 & P8 & P9). exists from, n1, b1, bp', q', m. split_and!; auto.
          eapply only_files_trans; [exact P6|apply unaffected_only]. reflexivity.
        - rewrite Hpre. destruct Hos as (O1 & O2 & O3 & O4 & O5 & O6 & O7 & O8 & O9 & O10). split_and!; auto. constructor.
        - rewrite Hpre. destruct Hos as (O1 & O2 & O3 & O4 & O5 & O6 & O7 & O8 & O9 & O10). split_and!; auto. constructor. }
      apply (sits_os_ok path (set_faults [] s1) (sysof c') pl n); [exact Hos1| | |exact Hfl].
      + destruct Hsit as (S1 & S2 & S3). split; [|split; [exact S2|exact S3]]. rewrite S1. destruct s1. reflexivity.
      + destruct Hos as (O1 & O2 & _ & _ & _ & O6 & _ & _ & O9 & _). split_and!.
        * rewrite U1. exact Hsm.
        * assert (Hz : (z < 4096)%N).
          { destruct orig; [destruct Hold as (n0 & H1 & _ & _ & ->); apply resolve_node_split in H1 as [_ H1]; apply (O6 _ _ H1)|]. destruct Hold as (_ & _ & t & i & _ & _ & ->). assert (H := Z.mod_pos_bound i 4096). lia. }
          destruct U4 as [-> | ->]; [exact Hz|apply drop_suid_lt; exact Hz].
        * destruct orig; [destruct Hold as (n0 & H1 & -> & _); apply resolve_node_split in H1 as [_ H1]; apply (O6 _ _ H1)|]. destruct Hold as (_ & [-> _] & _). rewrite Forall_forall in O1. apply O1. apply Hof.
        * destruct orig; [destruct Hold as (n0 & H1 & _ & -> & _); apply resolve_node_split in H1 as [_ H1]; apply (O6 _ _ H1)|]. destruct Hold as (_ & [_ ->] & _). rewrite Forall_forall in O2. apply O2. apply Hof.
        * destruct Hfr as [-> _]. rewrite Hnow. exact O9.
        * destruct Hfr as [_ ->]. rewrite Hnow. exact O9.
  Qed.

  Lemma line_ran a c r c' reqs path text present regex ws backup : ready c reqs -> honest (sysof c) -> c_string path ->
    operation a (line path text present regex ws backup) c = (r, c') ->
    (unaffected (sysof c) (sysof c') \/ exists attr orig x, original (sysof c) path orig /\ found_orig search text regex ws orig = Ok (negb present) /\
       line_done search date path text present regex ws backup attr orig (sysof c) (sysof c') x) /\
    (forall res, r = Ok res -> or_success res = true -> isabs path = true /\ exists orig, original (sysof c) path orig /\
       ((or_changed res = false /\ found_orig search text regex ws orig = Ok present /\ unaffected (sysof c) (sysof c')) \/
        (or_changed res = true /\ found_orig search text regex ws orig = Ok (negb present) /\ exists nb, edited text present regex ws orig = Ok nb /\
           rewritten date c c' reqs path backup orig nb /\ content_at (sysof c') path (Some nb) /\ grows (o_fs (sysof c)) (o_fs (sysof c')) /\
           (os_ok (sysof c) -> small nb -> o_faults (sysof c') = [] -> os_ok (sysof c')) /\
           exists attr, line_done search date path text present regex ws backup attr orig (sysof c) (sysof c') (Ok tt)))).
  Proof.
    intros ((d0 & Ha & He) & Hkb & Hac & Hos) Hh Hp E.
    destruct (op_any exec sha512 a path no_settings _ _ c r c' reqs d0 (line_plain exec sha512 false want_diff search date path text present regex ws backup) (remotely_line exec sha512 false search date path text present regex ws backup) E Ha He)
      as [_ [[Hu [e ->]]|(Hp' & c1 & attr & x & c2 & F1 & F2 & F3 & F4 & F5 & F6)]].
    - split; [left; exact Hu|discriminate].
    - destruct (settles_accounts _ _ _ _ F2 Hkb) as (u & g & Hof).
      assert (Hs : sysof c' = sysof c2) by (unfold sysof; rewrite F5; reflexivity).
      destruct (line_body_any rest sha512 search date path text present regex ws backup attr (sysof c) c1 x c2 u g (proj1 F1) Hp' Hp (spends_os_ok _ _ F1 Hos) (spends_honest _ _ F1 Hh) Hac Hof F4) as (B1 & B2 & _). rewrite <- Hs in B1, B2.
      split; [destruct B1 as [B1|(orig & y & B1)]; [left; exact B1|right; exists attr, orig, y; exact B1]|].
      intros res -> Hsu. split; [exact Hp'|]. destruct x as [res'|e]; cbn in F6; [|discriminate].
      destruct F6 as [[[= <-] _]|(_ & _ & [=])]. destruct (B2 res eq_refl Hsu) as (orig & B3 & B4). exists orig. split; [exact B3|].
      destruct B4 as [B4|(B4 & B5 & B6)]; [left; exact B4|right]. split; [exact B4|]. split; [exact B5|].
      destruct (done_rewritten c c' reqs path text present regex ws backup attr u g orig Hac F2 Hof) as (nb & R1 & R2 & R3 & R4 & R5); auto; [apply (mode_settles_value (s_file_mode (c_base c)) _ _ (file_msel _ _ _ _ F2))|].
      exists nb. split; [exact R1|]. split; [exact R2|]. split; [exact R3|]. split; [exact R4|]. split; [exact R5|]. exists attr. exact B6.
  Qed.
  Lemma line_runs a c r c' reqs path text present regex ws backup orig f : ready c reqs -> c_string path -> isabs path = true -> healthy c -> hash_ok sha512 ->
    feasible (sysof c) (c_base c) (reqs ++ [no_settings]) -> original (sysof c) path orig -> found_orig search text regex ws orig = Ok f ->
    (f <> present -> orig = None -> creatable (sysof c) path) -> (f <> present -> orig <> None -> copy_possible date (sysof c) path backup) ->
    (f <> present -> exists nb, edited text present regex ws orig = Ok nb /\ small nb) ->
    operation a (line path text present regex ws backup) c = (r, c') ->
    c' = set_remote (c_remote c') c /\ exists res, r = Ok res /\ or_success res = true /\ healthy c' /\ (or_changed res = false <-> f = present).
  Proof.
    intros ((d0 & Ha & He) & Hkb & Hac & Hos) Hp Hp' Hhl Hha Hfe Ho Hf Hcr Hcp Hed E.
    destruct (op_any exec sha512 a path no_settings _ _ c r c' reqs d0 (line_plain exec sha512 false want_diff search date path text present regex ws backup) (remotely_line exec sha512 false search date path text present regex ws backup) E Ha He) as [Hset _]. split; [exact Hset|].
    destruct (op_fine exec sha512 a path no_settings _ _ c r c' reqs d0 (line_plain exec sha512 false want_diff search date path text present regex ws backup) Hp' E Ha He Hhl Hos Hha Hac Hfe) as (c1 & attr & x & c2 & F1 & F2 & F3 & F4 & F5 & F6 & F7 & F8 & F9).
    destruct (settles_accounts _ _ _ _ F3 Hkb) as (u & g & Hof).
    assert (Hs1 : sysof c1 = sysof c) by (unfold sysof; rewrite F1; reflexivity). assert (Hs : sysof c' = sysof c2) by (unfold sysof; rewrite F6; reflexivity).
    assert (Hh : honest (sysof c)) by (intros k Hk; destruct Hhl as (_ & Hf0 & _); rewrite Hf0 in Hk; inversion Hk).
    destruct (line_body_any rest sha512 search date path text present regex ws backup attr (sysof c) c1 x c2 u g) as (_ & _ & B3); auto; try (rewrite Hs1; auto); [apply unaffected_refl|].
    assert (Hcf : f <> present -> orig <> None -> copy_fine date path backup (sysof c)).
    { intros H1 H2 bp Hbp. unfold bpath in Hbp. destruct (backup_name date backup) as [y|] eqn:Ey; [|discriminate]. injection Hbp as <-. apply copy_named_iff in Ey. apply (Hcp H1 H2 y Ey). }
    destruct (B3 F2 Hha F7 orig f Ho Hf Hcr Hcf Hed) as (res & -> & Hsu & (Hh2 & _) & Hch). cbn in F9. destruct F9 as [[-> _]|(Hsu' & _)]; [|congruence].
    exists res. split; [reflexivity|]. split; [exact Hsu|]. split; [|exact Hch]. unfold healthy in *. rewrite Hs, F6. exact Hh2.
  Qed.
  Lemma line_idle a c r c' reqs path text present regex ws backup orig : ready c reqs -> c_string path -> isabs path = true -> healthy c -> hash_ok sha512 ->
    feasible (sysof c) (c_base c) (reqs ++ [no_settings]) -> original (sysof c) path orig -> found_orig search text regex ws orig = Ok present ->
    operation a (line path text present regex ws backup) c = (r, c') ->
    exists res, r = Ok res /\ or_success res = true /\ or_changed res = false /\ c' = c.
  Proof.
    intros Hrd Hp Hp' Hhl Hha Hfe Ho Hf E.
    destruct (line_runs a c r c' reqs path text present regex ws backup orig present) as (Hset & res & -> & Hsu & Hhl' & Hch); auto; try contradiction.
    assert (Hc : or_changed res = false) by (apply Hch; reflexivity). exists res. split; [reflexivity|]. split; [exact Hsu|]. split; [exact Hc|].
    assert (Hh : honest (sysof c)) by (intros k Hk; destruct Hhl as (_ & Hf0 & _); rewrite Hf0 in Hk; inversion Hk).
    destruct (line_ran a c _ c' reqs path text present regex ws backup Hrd Hh Hp E) as [_ H]. destruct (H res eq_refl Hsu) as (_ & o' & _ & [(_ & _ & Hun)|(Hc' & _)]); [|congruence].
    rewrite Hset. destruct Hhl as (L2 & Fl2 & _), Hhl' as (L1 & Fl1 & _).
    assert (Hrem2 : c_remote c' = c_remote c).
    { unfold sysof in *. destruct (c_remote c) as [s2 l2], (c_remote c') as [s1 l1]. cbn in *. subst. f_equal. rewrite Hun, Fl1, <- Fl2. unfold set_faults. destruct s2; reflexivity. }
    rewrite Hrem2. apply set_remote_self.
  Qed.
  Lemma next_ready c c' reqs : ready c reqs -> c' = set_remote (c_remote c') c -> only_files (sysof c) (sysof c') -> grows (o_fs (sysof c)) (o_fs (sysof c')) -> os_ok (sysof c') ->
    ready c' reqs /\ (forall q, feasible (sysof c) (c_base c) (reqs ++ [q]) -> feasible (sysof c') (c_base c') (reqs ++ [q])).
  Proof.
    intros ((d0 & Ha & He) & Hkb & Hac & Hos) Hset Hof Hg Hos'. assert (Hb : c_base c' = c_base c) by (rewrite Hset; reflexivity).
    split; [split; [exists d0; split; [rewrite Hset; exact Ha|rewrite Hb; apply (enclosing_files _ _ _ _ _ Hof); exact He]|]; rewrite Hb; split; [exact Hkb|]; split; [apply (accounts_files _ _ Hof); exact Hac|exact Hos']|].
    intros q Hfe. rewrite Hb. eapply feasible_grows; eassumption.
  Qed.
  (** a second run with nothing left to do *)
  Lemma line_again a a2 c r c' r2 c2 reqs path text present regex ws backup orig f : ready c reqs -> c_string path -> isabs path = true -> healthy c -> hash_ok sha512 ->
    feasible (sysof c) (c_base c) (reqs ++ [no_settings]) -> original (sysof c) path orig -> found_orig search text regex ws orig = Ok f ->
    (f <> present -> orig = None -> creatable (sysof c) path) -> (f <> present -> orig <> None -> copy_possible date (sysof c) path backup) ->
    (f <> present -> exists nb, edited text present regex ws orig = Ok nb /\ small nb /\ found_orig search text regex ws (Some nb) = Ok present) ->
    operation a (line path text present regex ws backup) c = (r, c') -> operation a2 (line path text present regex ws backup) c' = (r2, c2) ->
    exists res2, r2 = Ok res2 /\ or_success res2 = true /\ or_changed res2 = false /\ c2 = c'.
  Proof.
    intros Hrd Hp Hp' Hhl Hha Hfe Ho Hf Hcr Hcp Hed E E2.
    destruct (line_runs a c r c' reqs path text present regex ws backup orig f) as (Hset & res & -> & Hsu & Hhl' & Hch); auto; [intros H; destruct (Hed H) as (nb & ? & ? & _); eauto|].
    assert (Hh : honest (sysof c)) by (intros k Hk; destruct Hhl as (_ & Hf0 & _); rewrite Hf0 in Hk; inversion Hk).
    destruct (line_ran a c _ c' reqs path text present regex ws backup Hrd Hh Hp E) as [_ H]. destruct (H res eq_refl Hsu) as (_ & o' & Ho' & [(Hc & Hf' & Hun)|(Hc & Hf' & nb & He & Hrw & Hca & Hg & Hok & _)]).
    - rewrite (original_unique _ _ _ _ Ho' Ho) in *.
      assert (Hcc : c' = c).
      { rewrite Hset. destruct Hhl as (L2 & Fl2 & _), Hhl' as (L1 & Fl1 & _). assert (Hrem2 : c_remote c' = c_remote c); [|rewrite Hrem2; apply set_remote_self].
        unfold sysof in *. destruct (c_remote c) as [s2 l2], (c_remote c') as [s1 l1]. cbn in *. subst. f_equal. rewrite Hun, Fl1, <- Fl2. unfold set_faults. destruct s2; reflexivity. }
      rewrite Hcc in E2 |- *. apply (line_idle a2 c r2 c2 reqs path text present regex ws backup orig); auto.
    - rewrite (original_unique _ _ _ _ Ho' Ho) in *. assert (Hne : f <> present) by (intros ->; rewrite Hf in Hf'; destruct present; discriminate).
      destruct (Hed Hne) as (nb' & He' & Hsm & Hfn). rewrite He in He'. injection He' as <-. destruct Hrw as (pl & n & _ & _ & _ & _ & Hof & _).
      destruct (next_ready c c' reqs Hrd Hset Hof Hg) as [Hrd' Hfe']; [apply Hok; [apply Hrd|exact Hsm|apply Hhl']|].
      eapply (line_idle a2 c' r2 c2 reqs path text present regex ws backup (Some nb)); auto.
  Qed.

  (** ** C49 *)
  (** Full statement: after success the line is in the file; if it was not, the lines are the former ones and then this one.
      Missing: lines that contain a line break, or characters that cannot be written ([C49_refuted]), and regular expressions. *)
  Theorem C49_added_partial a c r c' reqs path text ws backup :
    breakless text -> is_Some (utf8_encode text) -> ready c reqs -> honest (sysof c) -> c_string path ->
    operation a (line path text true None ws backup) c = (Ok r, c') -> or_success r = true ->
    absolute path /\ exists orig ls, content_at (sysof c) path orig /\ lines_at orig ls /\
      ((or_changed r = false /\ present_in ws text ls /\ unaffected (sysof c) (sysof c')) \/
       (or_changed r = true /\ ~ present_in ws text ls /\ exists nb, file_lines nb (ls ++ [text]) /\ rewritten date c c' reqs path backup orig nb)).
  Proof.
    intros Hb He Hrd Hh Hp E Hs. destruct (line_ran a c _ c' reqs path text true None ws backup Hrd Hh Hp E) as [_ H]. destruct (H r eq_refl Hs) as (Ha & orig & Ho & Hcase).
    split; [apply absolute_isabs; exact Ha|]. assert (Hl : lines_at orig (splitlines (text_of orig))) by (apply (lines_before_eq orig); reflexivity).
    exists orig, (splitlines (text_of orig)). split; [exact Ho|]. split; [exact Hl|]. destruct Hcase as [(Hc & Hf & Hu)|(Hc & Hf & nb & Hed & Hrw & _)]; [left|right]; (split; [exact Hc|]);
      apply found_has in Hf; rewrite (has_present _ _ _ _ Hl) in Hf.
    - split; [apply Hf; reflexivity|exact Hu].
    - split; [intros Hx; apply Hf in Hx; discriminate|]. exists nb. split; [|exact Hrw]. destruct (added search text ws orig _ Hb He Hl) as (nb' & E' & Hn). rewrite Hed in E'. injection E' as <-. exact Hn.
  Qed.
  (** It succeeds whenever nothing fails: the line is added if and only if it is not there. *)
  Theorem C49_works a c r c' reqs path text ws backup orig ls :
    is_Some (utf8_encode text) -> ready c reqs -> c_string path -> absolute path -> healthy c -> hash_ok sha512 ->
    feasible (sysof c) (c_base c) (reqs ++ [no_settings]) -> content_at (sysof c) path orig -> lines_at orig ls -> sendable orig text ->
    (orig = None -> creatable (sysof c) path) -> (orig <> None -> copy_possible date (sysof c) path backup) ->
    operation a (line path text true None ws backup) c = (r, c') ->
    exists res, r = Ok res /\ or_success res = true /\ healthy c' /\ c' = set_remote (c_remote c') c /\ (or_changed res = false <-> present_in ws text ls).
  Proof.
    intros He Hrd Hp Ha Hhl Hha Hfe Ho Hl Hsz Hcr Hcp E. apply absolute_isabs in Ha. destruct (found_total search text ws orig) as [f Hf].
    destruct (line_runs a c r c' reqs path text true None ws backup orig f) as (Hset & res & -> & Hsu & Hhl' & Hch); auto.
    { intros _. destruct (edited_total search text true ws orig (fun _ => He)) as [nb Hed]. exists nb. split; [exact Hed|]. eapply edited_small; eassumption. }
    exists res. split; [reflexivity|]. split; [exact Hsu|]. split; [exact Hhl'|]. split; [exact Hset|]. rewrite Hch. rewrite <- (has_present _ _ _ _ Hl). apply (found_has search); assumption.
  Qed.
  (** Adding it again changes nothing. *)
  Theorem C49_again_partial a a2 c r c' r2 c2 reqs path text ws backup orig :
    breakless text -> is_Some (utf8_encode text) -> ready c reqs -> c_string path -> absolute path -> healthy c -> hash_ok sha512 ->
    feasible (sysof c) (c_base c) (reqs ++ [no_settings]) -> content_at (sysof c) path orig -> sendable orig text ->
    (orig = None -> creatable (sysof c) path) -> (orig <> None -> copy_possible date (sysof c) path backup) ->
    operation a (line path text true None ws backup) c = (r, c') -> operation a2 (line path text true None ws backup) c' = (r2, c2) ->
    exists res2, r2 = Ok res2 /\ or_success res2 = true /\ or_changed res2 = false /\ c2 = c'.
  Proof.
    intros Hb He Hrd Hp Ha Hhl Hha Hfe Ho Hsz Hcr Hcp E E2. apply absolute_isabs in Ha. destruct (found_total search text ws orig) as [f Hf].
    eapply (line_again a a2 c r c' r2 c2 reqs path text true None ws backup orig f); eauto.
    intros _. assert (Hl : lines_at orig (splitlines (text_of orig))) by (apply (lines_before_eq orig); reflexivity). destruct (added search text ws orig _ Hb He Hl) as (nb & Hed & Hn). exists nb. split; [exact Hed|]. split; [eapply edited_small; eassumption|].
    destruct (found_total search text ws (Some nb)) as [f' Hf']. rewrite Hf'. f_equal. apply (found_has search) in Hf'. apply Hf'. exists (splitlines (text_of orig) ++ [text]), text. split; [exact Hn|]. split; [apply elem_of_app; right; left|]. unfold counts. destruct ws; reflexivity.
  Qed.

  (** ** C50 *)
  (** Full statement: after success no line counts as the given one, and the other lines are there as before, in the same order.
      Missing: a line with white space around it while white space is ignored, a file of which no line is left (it gets an empty
      line), and regular expressions ([C50_refuted] and following). *)
  Theorem C50_removed_partial a c r c' reqs path text ws backup :
    (ws = true -> strip text = text) -> ready c reqs -> honest (sysof c) -> c_string path ->
    operation a (line path text false None ws backup) c = (Ok r, c') -> or_success r = true ->
    absolute path /\ exists orig ls, content_at (sysof c) path orig /\ lines_at orig ls /\
      ((or_changed r = false /\ ~ present_in ws text ls /\ unaffected (sysof c) (sysof c')) \/
       (or_changed r = true /\ present_in ws text ls /\ exists ks nb, without (counts ws text) ls ks /\ ~ present_in ws text ks /\
          (ks <> [] -> file_lines nb ks) /\ (ks = [] -> nb = [lf]) /\ rewritten date c c' reqs path backup orig nb)).
  Proof.
    intros Hb Hrd Hh Hp E Hs. destruct (line_ran a c _ c' reqs path text false None ws backup Hrd Hh Hp E) as [_ H]. destruct (H r eq_refl Hs) as (Ha & orig & Ho & Hcase).
    split; [apply absolute_isabs; exact Ha|]. assert (Hl : lines_at orig (splitlines (text_of orig))) by (apply (lines_before_eq orig); reflexivity).
    exists orig, (splitlines (text_of orig)). split; [exact Ho|]. split; [exact Hl|]. destruct Hcase as [(Hc & Hf & Hu)|(Hc & Hf & nb & Hed & Hrw & _)]; [left|right]; (split; [exact Hc|]);
      apply found_has in Hf; rewrite (has_present _ _ _ _ Hl) in Hf.
    - split; [intros Hx; apply Hf in Hx; discriminate|exact Hu].
    - split; [apply Hf; reflexivity|]. assert (Hk := without_filter (counts ws text) (stays text ws) (splitlines (text_of orig)) (fun l => stays_counts text ws l Hb)).
      set (ks := List.filter _ _) in *. exists ks, nb. split; [exact Hk|]. split; [intros (l & H1 & H2); destruct (without_not _ _ _ _ Hk H1); contradiction|].
      destruct (removed search text ws orig _ ks Hb Hl Hk) as (nb' & E' & H1 & H2). rewrite Hed in E'. injection E' as <-. auto.
  Qed.
  Theorem C50_works a c r c' reqs path text ws backup orig ls :
    ready c reqs -> c_string path -> absolute path -> healthy c -> hash_ok sha512 ->
    feasible (sysof c) (c_base c) (reqs ++ [no_settings]) -> content_at (sysof c) path orig -> lines_at orig ls -> sendable orig text ->
    (orig <> None -> copy_possible date (sysof c) path backup) ->
    operation a (line path text false None ws backup) c = (r, c') ->
    exists res, r = Ok res /\ or_success res = true /\ healthy c' /\ c' = set_remote (c_remote c') c /\ (or_changed res = false <-> ~ present_in ws text ls).
  Proof.
    intros Hrd Hp Ha Hhl Hha Hfe Ho Hl Hsz Hcp E. apply absolute_isabs in Ha. destruct (found_total search text ws orig) as [f Hf].
    destruct (line_runs a c r c' reqs path text false None ws backup orig f) as (Hset & res & -> & Hsu & Hhl' & Hch); auto.
    { intros Hne ->. injection Hf as <-. contradiction. }
    { intros _. destruct (edited_total search text false ws orig) as [nb Hed]; [discriminate|]. exists nb. split; [exact Hed|]. eapply edited_small; eassumption. }
    exists res. split; [reflexivity|]. split; [exact Hsu|]. split; [exact Hhl'|]. split; [exact Hset|]. rewrite Hch. rewrite <- (has_present _ _ _ _ Hl), <- (found_has search _ _ _ _ Hf). destruct f; split; congruence.
  Qed.
  (** Removing it again changes nothing, unless it is the empty line that is to be removed. *)
  Theorem C50_again_partial a a2 c r c' r2 c2 reqs path text ws backup orig :
    (ws = true -> strip text = text) -> text <> [] -> ready c reqs -> c_string path -> absolute path -> healthy c -> hash_ok sha512 ->
    feasible (sysof c) (c_base c) (reqs ++ [no_settings]) -> content_at (sysof c) path orig -> sendable orig text ->
    (orig <> None -> copy_possible date (sysof c) path backup) ->
    operation a (line path text false None ws backup) c = (r, c') -> operation a2 (line path text false None ws backup) c' = (r2, c2) ->
    exists res2, r2 = Ok res2 /\ or_success res2 = true /\ or_changed res2 = false /\ c2 = c'.
  Proof.
    intros Hb Hne Hrd Hp Ha Hhl Hha Hfe Ho Hsz Hcp E E2. apply absolute_isabs in Ha. destruct (found_total search text ws orig) as [f Hf].
    eapply (line_again a a2 c r c' r2 c2 reqs path text false None ws backup orig f); eauto.
    { intros Hx ->. injection Hf as <-. contradiction. }
    intros _. assert (Hl : lines_at orig (splitlines (text_of orig))) by (apply (lines_before_eq orig); reflexivity).
    assert (Hk := without_filter (counts ws text) (stays text ws) (splitlines (text_of orig)) (fun l => stays_counts text ws l Hb)).
    set (ks := List.filter _ _) in *. destruct (removed search text ws orig _ ks Hb Hl Hk) as (nb & Hed & H1 & H2). exists nb. split; [exact Hed|]. split; [eapply edited_small; eassumption|].
    destruct (found_total search text ws (Some nb)) as [f' Hf']. rewrite Hf'. f_equal. apply (found_has search) in Hf'. destruct f'; [|reflexivity]. exfalso. destruct Hf' as [(ls & l & G1 & G2 & G3) _]; [reflexivity|].
    cbn in G1. destruct (decide (ks = [])) as [Hz|Hnz].
    - rewrite (H2 Hz) in G1. apply lines_of_iff in G1. vm_compute in G1. subst ls. apply elem_of_list_singleton in G2 as ->. unfold counts in G3. destruct ws; [rewrite (Hb eq_refl) in G3|]; apply Hne; rewrite G3; reflexivity.
    - specialize (H1 Hnz). rewrite (lines_of_unique _ _ _ G1 H1) in G2. destruct (without_not _ _ _ _ Hk G2); contradiction.
  Qed.

  (** ** C51 *)
  (** Full statement: the bytes of all other lines stay as they are.  Missing: files with other line breaks than the line feed,
      all of which become line feeds ([C51_refuted]); regular expressions. *)
  Theorem C51_bytes_partial a c r c' reqs path text present ws backup b rows tb :
    breakless text -> utf8_encode text = Some tb -> (present = false -> ws = true -> strip text = text) -> ready c reqs -> honest (sysof c) -> c_string path ->
    content_at (sysof c) path (Some b) -> lf_only b -> rows_of b rows ->
    operation a (line path text present None ws backup) c = (Ok r, c') -> or_success r = true -> or_changed r = true ->
    exists nb, rewritten date c c' reqs path backup (Some b) nb /\
      if present then nb = lf_ended (rows ++ [tb])
      else exists kept, without (fun row => counts ws text (utf8_decode_esc row)) rows kept /\ nb = match kept with [] => [lf] | _ => lf_ended kept end.
  Proof.
    intros Hb He Hst Hrd Hh Hp Hca Hlf Hrows E Hs Hch. destruct (line_ran a c _ c' reqs path text present None ws backup Hrd Hh Hp E) as [_ H]. destruct (H r eq_refl Hs) as (Ha & orig & Ho & [(Hc & _)|(_ & Hf & nb & Hed & Hrw & _)]); [congruence|].
    rewrite (original_unique (sysof c) path orig (Some b) Ho Hca) in *. exists nb. split; [exact Hrw|]. destruct present.
    - eapply added_rows; eassumption.
    - assert (Hk := without_filter (fun row => counts ws text (utf8_decode_esc row)) (fun row => stays text ws (utf8_decode_esc row)) rows (fun l => stays_counts text ws (utf8_decode_esc l) (Hst eq_refl))).
      eexists. split; [exact Hk|]. eapply removed_rows; eauto.
  Qed.
  (** However it ends, also if it fails: at most the file and the place of the copy are changed.  The file was a regular file or
      did not exist; it has its old content, or the first part of the edited one. *)
  Theorem C51_confined a c r c' reqs path text present ws backup :
    ready c reqs -> honest (sysof c) -> c_string path ->
    operation a (line path text present None ws backup) c = (r, c') ->
    unaffected (sysof c) (sysof c') \/
    exists orig ls, content_at (sysof c) path orig /\ lines_at orig ls /\ (present = true <-> ~ present_in ws text ls) /\ only_files (sysof c) (sysof c') /\
      forall q, o_fs (sysof c') !! q = o_fs (sysof c) !! q \/ (orig <> None /\ exists x, copy_named date backup x /\ copies_to (sysof c) path x q) \/
        exists n nb i, at_path (sysof c') path q n /\ n_kind n = KFile (take i nb) /\
          match orig with Some _ => exists n0, sees (sysof c) path q n0 | None => o_fs (sysof c) !! q = None end /\
          (present = true -> breakless text -> is_Some (utf8_encode text) -> file_lines nb (ls ++ [text])) /\
          (present = false -> (ws = true -> strip text = text) -> exists ks, without (counts ws text) ls ks /\ (ks <> [] -> file_lines nb ks) /\ (ks = [] -> nb = [lf])).
  Proof.
    intros Hrd Hh Hp E. destruct (line_ran a c _ c' reqs path text present None ws backup Hrd Hh Hp E) as [[Hu|(attr & orig & x & Ho & Hf & Hd)] _]; [left; exact Hu|].
    destruct Hd as [[Hu _]|(s1 & nb & Hpre & Hed & Hd)]; [left; exact Hu|right].
    assert (Hl : lines_at orig (splitlines (text_of orig))) by (apply (lines_before_eq orig); reflexivity).
    exists orig, (splitlines (text_of orig)). split; [exact Ho|]. split; [exact Hl|]. split.
    { apply (found_has search) in Hf. rewrite (has_present _ _ _ _ Hl) in Hf. destruct present; cbn in Hf; [|split; [discriminate|intros Hx; exfalso; apply Hx, Hf; reflexivity]]. split; [intros _ Hx; apply Hf in Hx; discriminate|reflexivity]. }
    assert (Hs1 := prepared_only date path backup _ _ _ Hpre).
    assert (Hcopy : forall q, o_fs s1 !! q = o_fs (sysof c) !! q \/ (orig <> None /\ exists x, copy_named date backup x /\ copies_to (sysof c) path x q)).
    { intros q. unfold prepared in Hpre. destruct orig as [b0|]; [|left; rewrite (unaffected_fs _ _ Hpre); reflexivity].
      unfold bpath in Hpre. destruct (backup_name date backup) as [y|] eqn:Ex; cbn [fmap option_fmap option_map] in Hpre; [|left; rewrite (unaffected_fs _ _ Hpre); reflexivity].
      destruct Hpre as (from & n1 & b1 & bp' & q' & m & _ & _ & Hbp & Hq' & _ & _ & Hfs & _ & _). rewrite Hfs. destruct (decide (q = q')) as [-> |Hne]; [right|left; apply lookup_insert_ne; congruence].
      split; [discriminate|]. exists y. split; [apply copy_named_iff; exact Ex|]. unfold copies_to. destruct Hbp as [-> |[Hd' ->]]; [left; exact Hq'|right; split; [exact Hd'|exact Hq']]. }
    destruct Hd as [[Hu _]|(pl & n & Hsit & _ & [i Hpt] & Htg & _)].
    - split; [eapply only_files_trans; [exact Hs1|apply unaffected_only; exact Hu]|]. intros q. rewrite (unaffected_fs _ _ Hu). destruct (Hcopy q); auto.
    - split; [eapply only_files_trans; [exact Hs1|eapply sits_only; exact Hsit]|]. intros q. destruct (decide (q = pl)) as [-> |Hq].
      2:{ destruct Hsit as (_ & Hfs & _). rewrite Hfs, lookup_insert_ne by congruence. destruct (Hcopy q); auto. }
      right. right. exists n, nb, i. split; [eapply sits_at; exact Hsit|]. split; [exact Hpt|]. split; [|split].
      + destruct orig as [b0|].
        * destruct Ho as (pl0 & n0 & Hr & Hk). assert (Hr1 := prepared_file date path backup _ _ _ _ _ Hpre Hr). unfold target in Htg.
          destruct (o_fs s1 !! pl) as [n1|] eqn:E1; [|congruence]. destruct Htg as [Htg _]. rewrite Hr1 in Htg. injection Htg as -> ->. exists n1. exact Hr.
        * cbn in Hpre. unfold target in Htg. rewrite (unaffected_fs _ _ Hpre) in Htg. cbn in Ho. destruct (o_fs (sysof c) !! pl) as [n1|]; [destruct Htg; congruence|reflexivity].
      + intros -> Hb He. destruct (added search text ws orig _ Hb He Hl) as (nb' & E' & Hn). rewrite Hed in E'. injection E' as <-. exact Hn.
      + intros -> Hb. assert (Hk := without_filter (counts ws text) (stays text ws) (splitlines (text_of orig)) (fun l => stays_counts text ws l Hb)).
        eexists. split; [exact Hk|]. destruct (removed search text ws orig _ _ Hb Hl Hk) as (nb' & E' & H1 & H2). rewrite Hed in E'. injection E' as <-. auto.
  Qed.

  (** ** C52 *)
  Lemma endswith_last d : last d <> Some slash -> endswith d (lit "/") = false.
  Proof.
    intros H. unfold endswith. change (rev (lit "/")) with [slash]. destruct (rev d) as [|x r] eqn:Er; [reflexivity|]. cbn [startswith].
    assert (Hd : d = rev r ++ [x]) by (rewrite <- (rev_involutive d), Er; reflexivity). rewrite Hd, last_snoc in H. destruct (N.eqb_spec slash x); [congruence|reflexivity].
  Qed.
  Lemma from_slash_app a r : (slash ∉ a) -> from_slash (a ++ slash :: r) = slash :: r.
  Proof.
    induction a as [|x a IH]; intros H; cbn [app from_slash]; [reflexivity|]. apply not_elem_of_cons in H as [H1 H2]. destruct (N.eqb_spec x slash); [congruence|]. apply IH. exact H2.
  Qed.
  Lemma beside d name x : (slash ∉ name) -> last d <> Some slash -> ~ absolute x -> path_join (py_dirname (d ++ slash :: name)) x = d ++ slash :: x.
  Proof.
    intros Hn Hd Hx. assert (Hxa : isabs x = false) by (destruct (isabs x) eqn:Ex; [apply absolute_isabs in Ex; contradiction|reflexivity]).
    assert (Hdir : py_dirname (d ++ slash :: name) = match d with [] => [slash] | _ => d end).
    { unfold py_dirname. rewrite rev_app_distr. cbn [rev]. rewrite <- app_assoc. cbn [app].
      rewrite from_slash_app by (intros H; apply Hn; apply elem_of_list_In; apply in_rev; apply elem_of_list_In; exact H). cbn [no_slashes]. rewrite N.eqb_refl.
      destruct d as [|y d'] eqn:Ed; [reflexivity|]. rewrite <- Ed in *. assert (Hne : d <> []) by (rewrite Ed; discriminate).
      assert (Hr : exists z q, rev d = z :: q /\ z <> slash).
      { destruct (rev d) as [|z q] eqn:Er; [exfalso; apply Hne; rewrite <- (rev_involutive d), Er; reflexivity|]. exists z, q. split; [reflexivity|]. intros ->. apply Hd. rewrite <- (rev_involutive d), Er. cbn [rev]. apply last_snoc. }
      destruct Hr as (z & q & Hr & Hz). rewrite Hr. cbn [no_slashes]. destruct (N.eqb_spec z slash); [contradiction|]. rewrite <- Hr, rev_involutive. reflexivity. }
    rewrite Hdir. unfold path_join. rewrite Hxa. destruct d as [|y d'] eqn:Ed; [reflexivity|]. rewrite <- Ed in *. rewrite (endswith_last _ Hd). rewrite Ed. reflexivity.
  Qed.
  Lemma copy_made path text present regex ws backup attr orig s s' r x pl n0 b : isabs path = true -> copy_named date backup x -> let bp := path_join (py_dirname path) x in
    (sees_none s bp \/ exists q m b0, sees s bp q m /\ n_kind m = KFile b0) -> sees s path pl n0 -> n_kind n0 = KFile b -> original s path orig ->
    line_done search date path text present regex ws backup attr orig s s' r -> (r = Ok tt \/ o_fs s' !! pl <> o_fs s !! pl) ->
    exists q m, at_path s' bp q m /\ q <> pl /\ n_kind m = KFile b /\ n_mode m = n_mode n0 /\ n_uid m = n_uid n0 /\ n_gid m = n_gid n0 /\ n_mtime m = n_mtime n0.
  Proof.
    intros Ha Hx bp Hbp Hsee Hk Ho Hd Hor.
    assert (orig = Some b) as -> by (eapply original_unique; [exact Ho|exists pl, n0; auto]).
    destruct Hd as [[Hu [e ->]]|(s1 & nb & Hpre & _ & Hd)]; [destruct Hor as [[=]|Hor]; destruct Hor; rewrite (unaffected_fs _ _ Hu); reflexivity|].
    unfold prepared, bpath in Hpre. apply copy_named_iff in Hx. rewrite Hx in Hpre. cbn [fmap option_fmap option_map] in Hpre. fold bp in Hpre. clearbody bp.
    assert (Hsrc := copied_source _ _ _ _ _ _ Hpre Hsee).
    destruct Hpre as (from & n & b1 & bp' & q & m & P1 & P2 & P3 & P4 & P5 & P6 & P7 & P8 & P9). unfold sees in Hsee. rewrite Hsee in P1. injection P1 as <- <-.
    assert (bp' = bp) as ->.
    { destruct P3 as [P3|[(p & d & D1 & D2) _]]; [exact P3|]. exfalso. destruct Hbp as [Hbp|(q0 & m0 & b0 & Hbp & K0)]; [apply resolve_node_noent in Hbp; congruence|].
      apply (resolve_node_follow _ _ _ _ _ _) in Hbp; [|congruence]. rewrite D1 in Hbp. injection Hbp as -> ->. congruence. }
    assert (Hm : m = copy_of s n0 /\ resolve_node (o_fs s1) [] bp false = Ok (q, m)).
    { destruct Hbp as [Hbp|(q0 & m0 & b0 & Hbp & K0)].
      - destruct (resolve_absent _ _ _ _ Hbp P4) as [A1 A2]. rewrite A2 in P9. subst m. split; [reflexivity|]. rewrite P7. apply resolve_create; auto. cbn. congruence.
      - assert (Hf := Hbp). apply (resolve_node_follow _ _ _ _ _ _) in Hf; [|congruence]. apply resolve_node_split in Hf as [F1 F2]. rewrite P4 in F1. injection F1 as <-. rewrite F2 in P9.
        destruct P9 as [(t & K & _)|[_ ->]]; [congruence|]. split; [reflexivity|]. rewrite P7. eapply resolve_node_set; [exact Hbp|]. unfold shape. cbn [copy_of n_kind]. rewrite Hk, K0. reflexivity. }
    destruct Hm as [-> Hres]. exists q, (copy_of s n0). split; [|split; [exact P5|cbn; auto]]. apply resolve_node_names.
    destruct Hd as [[Hu _]|(pl' & n' & Hsit & _ & [i Hpt] & Htg & _)]; [rewrite (unaffected_fs _ _ Hu); exact Hres|].
    assert (pl' = pl) as -> by (unfold target in Htg; destruct (o_fs s1 !! pl'); [destruct Htg as [Htg _]|]; congruence).
    eapply resolve_node_grows; [eapply sits_grows; [exact Hsit|]|exact Hres|].
    - intros n1 E1. apply resolve_node_split in Hsrc as [_ Hsrc]. rewrite Hsrc in E1. injection E1 as <-. unfold shape. rewrite Hk, Hpt. reflexivity.
    - destruct Hsit as (_ & Hfs & _). rewrite Hfs, lookup_insert_ne by congruence. apply resolve_node_split in Hres. apply Hres.
  Qed.
  (** Full statement: with backup=True the previous file is kept under `<path>.<date>.bak`.  What is true: under `.<date>.bak` in
      the same directory, or under the name given.  The file is not touched before the copy is complete, even if the operation
      fails.  Missing: the name, and copies of different files that get the same name ([C52_refuted], [C52_overwritten_refuted]);
      a directory or link by that name. *)
  Theorem C52_copy_partial a c r c' reqs d name x text present regex ws backup pl n0 b :
    let path := d ++ slash :: name in let copy := d ++ slash :: x in
    (slash ∉ name) -> last d <> Some slash -> copy_named date backup x -> ~ absolute x ->
    ready c reqs -> honest (sysof c) -> c_string path ->
    sees (sysof c) path pl n0 -> n_kind n0 = KFile b ->
    (sees_none (sysof c) copy \/ exists q m b0, sees (sysof c) copy q m /\ n_kind m = KFile b0) ->
    operation a (line path text present regex ws backup) c = (r, c') ->
    (exists res, r = Ok res /\ or_success res = true /\ or_changed res = true) \/ o_fs (sysof c') !! pl <> o_fs (sysof c) !! pl ->
    exists q m, at_path (sysof c') copy q m /\ q <> pl /\ n_kind m = KFile b /\ n_mode m = n_mode n0 /\ n_uid m = n_uid n0 /\ n_gid m = n_gid n0 /\ n_mtime m = n_mtime n0.
  Proof.
    intros path copy Hn Hd Hx Hxa Hrd Hh Hp Hsee Hk Hcopy E Hor.
    assert (Hb := beside d name x Hn Hd Hxa). fold path in Hb.
    destruct (line_ran a c _ c' reqs path text present regex ws backup Hrd Hh Hp E) as [H1 H2].
    assert (Habs : isabs path = true).
    { destruct (check_path path c) as [[H _]|[_ [m Hc]]]; [exact H|]. exfalso.
      assert (Hm : operation a (line path text present regex ws backup) c = (Err (ValueError m), c)).
      { rewrite (operation_plain a _ _ c (line_plain exec sha512 false want_diff search date path text present regex ws backup)). unfold mbind, W_bind. rewrite Hc. reflexivity. }
      rewrite E in Hm. injection Hm as -> ->. destruct Hor as [(res & [=] & _)|Hor]. contradiction. }
    unfold copy in *. rewrite <- Hb in Hcopy |- *. destruct Hor as [(res & -> & Hs & Hc)|Hor].
    - destruct (H2 res eq_refl Hs) as (_ & orig & Ho & [(Hc' & _)|(_ & _ & nb & _ & _ & _ & _ & _ & attr & Hdone)]); [congruence|].
      eapply copy_made; try eassumption. left. reflexivity.
    - destruct H1 as [H1|(attr & orig & y & Ho & _ & Hdone)]; [rewrite (unaffected_fs _ _ H1) in Hor; contradiction|]. eapply copy_made; try eassumption. right. exact Hor.
  Qed.
End theorems.
Print Assumptions C49_added_partial.
Print Assumptions C49_works.
Print Assumptions C49_again_partial.
Print Assumptions C50_removed_partial.
Print Assumptions C50_works.
Print Assumptions C50_again_partial.
Print Assumptions C51_bytes_partial.
Print Assumptions C51_confined.
Print Assumptions C52_copy_partial.

(** ** Refutations *)
(** the system of the examples with another content of /srv/run *)
Definition note (b : bytes) : os := set_fs (<[[lit "run"; lit "srv"] := Node (KFile b) 493 0 0 100 100]> site_fs) site.
Definition on_note (b : bytes) : ctl := set_remote (Remote (note b) Up) on_site.
Lemma note_ready b : small b -> ready (on_note b) [] /\ feasible (sysof (on_note b)) (c_base (on_note b)) ([] ++ [no_settings]).
Proof.
  intros Hs. destruct (next_ready on_site (on_note b) [] site_ready) as [H1 H2].
  - reflexivity.
  - reflexivity.
  - apply grows_insert. intros n0 H0. vm_compute in H0. injection H0 as <-. reflexivity.
  - destruct site_ok as (O1 & O2 & O3 & O4 & O5 & O6 & O7 & O8 & O9 & O10). split_and!; auto. intros pl n. change (o_fs (sysof (on_note b))) with (<[[lit "run"; lit "srv"] := Node (KFile b) 493 0 0 100 100]> (o_fs site)).
    destruct (decide ([lit "run"; lit "srv"] = pl)) as [<- |Hq]; [rewrite lookup_insert; intros [= <-]|rewrite lookup_insert_ne by exact Hq; apply O6].
    destruct (O6 [lit "run"; lit "srv"] (Node (KFile (blit "#!")) 493 0 0 100 100)) as (N1 & N2 & N3 & N4 & N5 & N6); [vm_compute; reflexivity|]. split_and!; auto.
  - split; [exact H1|]. apply H2. apply site_feasible; [left; reflexivity|exact I|exact I].
Qed.
Lemma note_healthy b : healthy (on_note b). Proof. split_and!; reflexivity. Qed.
Lemma note_sees b : sees (sysof (on_note b)) p_run [lit "run"; lit "srv"] (Node (KFile b) 493 0 0 100 100). Proof. vm_compute. reflexivity. Qed.
(** searching for a literal text *)
Fixpoint part_in (p s : pystr) : bool := startswith s p || match s with [] => false | _ :: s' => part_in p s' end.
Definition literally (multiline : bool) (p s : pystr) : result bool := Ok (part_in p s).
Definition today := lit "2022-01-01T00:00:00Z".
Definition run_line path text present regex ws backup := operation NotGiven (line (coreutils echo) fake_hash false true literally today path text present regex ws backup).
Definition run_place : place := [lit "run"; lit "srv"].
Ltac note_start b := split; [apply note_ready; unfold small; vm_compute; reflexivity|]; split; [apply note_healthy|]; split; [eexists; reflexivity|].

(** Full statement (false): once a line has been added, adding it again changes nothing.  A line with a line break in it is never
    found, and added again by every run. *)
Theorem C49_refuted : exists c text r c' r2 c2, ready c [] /\ healthy c /\ absolute p_run /\
  run_line p_run text true None false (inl false) c = (Ok r, c') /\ or_success r = true /\ or_changed r = true /\
  run_line p_run text true None false (inl false) c' = (Ok r2, c2) /\ or_success r2 = true /\ or_changed r2 = true /\
  exists n, at_path (sysof c2) p_run run_place n /\ n_kind n = KFile (blit "#!" ++ [lf] ++ blit "a" ++ [lf] ++ blit "b" ++ [lf] ++ blit "a" ++ [lf] ++ blit "b" ++ [lf]).
Proof.
  exists (on_note (blit "#!")), (lit "a" ++ [10%N] ++ lit "b"). set (f := run_line p_run (lit "a" ++ [10%N] ++ lit "b") true None false (inl false)). set (c0 := on_note (blit "#!")). set (c1 := snd (f c0)). set (c2 := snd (f c1)).
  exists (result_of (f c0)), c1, (result_of (f c1)), c2. note_start tt. split; [ran|]. split; [vm_compute; reflexivity|]. split; [vm_compute; reflexivity|].
  split; [ran|]. split; [vm_compute; reflexivity|]. split; [vm_compute; reflexivity|].
  exists (Node (KFile (blit "#!" ++ [lf] ++ blit "a" ++ [lf] ++ blit "b" ++ [lf] ++ blit "a" ++ [lf] ++ blit "b" ++ [lf])) 493 0 0 200 200). split; [apply resolve_node_names; vm_compute; reflexivity|reflexivity].
Qed.
Print Assumptions C49_refuted.
(** Full statement (false): after success no line counts as the given one.  With ignore_whitespace=True, which is the default, a
    line given with white space around it is found but not removed; every run reports a change. *)
Theorem C50_refuted : exists c text r c' r2 c2 n ls, ready c [] /\ healthy c /\ absolute p_run /\
  run_line p_run text false None true (inl false) c = (Ok r, c') /\ or_success r = true /\
  at_path (sysof c') p_run run_place n /\ (forall nb, n_kind n = KFile nb -> file_lines nb ls) /\ present_in true text ls /\
  run_line p_run text false None true (inl false) c' = (Ok r2, c2) /\ or_success r2 = true /\ or_changed r2 = true.
Proof.
  exists (on_note (blit "#!")), (lit " #!"). set (f := run_line p_run (lit " #!") false None true (inl false)). set (c0 := on_note (blit "#!")). set (c1 := snd (f c0)). set (c2 := snd (f c1)).
  exists (result_of (f c0)), c1, (result_of (f c1)), c2, (Node (KFile (blit "#!" ++ [lf])) 493 0 0 200 200), [lit "#!"]. note_start tt. split; [ran|]. split; [vm_compute; reflexivity|].
  split; [apply resolve_node_names; vm_compute; reflexivity|]. split; [intros nb [= <-]; apply lines_of_iff; vm_compute; reflexivity|]. split; [exists (lit "#!"); split; [left|vm_compute; reflexivity]|].
  split; [ran|]. split; vm_compute; reflexivity.
Qed.
Print Assumptions C50_refuted.
(** Full statement (false): the lines that are left are the other ones.  If there is no other line, an empty line is left. *)
Theorem C50_last_refuted : exists c text r c' n ls ks, ready c [] /\ healthy c /\ absolute p_run /\
  content_at (sysof c) p_run (Some (blit "#!")) /\ file_lines (blit "#!") ls /\ without (counts true text) ls ks /\
  run_line p_run text false None true (inl false) c = (Ok r, c') /\ or_success r = true /\
  at_path (sysof c') p_run run_place n /\ (forall nb, n_kind n = KFile nb -> ~ file_lines nb ks).
Proof.
  exists (on_note (blit "#!")), (lit "#!"). set (f := run_line p_run (lit "#!") false None true (inl false)). set (c0 := on_note (blit "#!")). set (c1 := snd (f c0)).
  exists (result_of (f c0)), c1, (Node (KFile [lf]) 493 0 0 200 200), [lit "#!"], []. note_start tt. split; [eexists _, _; split; [apply note_sees|reflexivity]|].
  split; [apply lines_of_iff; vm_compute; reflexivity|]. split; [constructor; [vm_compute; reflexivity|constructor]|]. split; [ran|]. split; [vm_compute; reflexivity|].
  split; [apply resolve_node_names; vm_compute; reflexivity|]. intros nb [= <-] H. apply lines_of_iff in H. vm_compute in H. discriminate H.
Qed.
Print Assumptions C50_last_refuted.
(** Full statement (false): removing again changes nothing.  Removing the empty lines of a file without other lines leaves an empty
    line, each time. *)
Theorem C50_again_refuted : exists c r c' r2 c2, ready c [] /\ healthy c /\ absolute p_run /\
  run_line p_run [] false None true (inl false) c = (Ok r, c') /\ or_success r = true /\ or_changed r = true /\
  run_line p_run [] false None true (inl false) c' = (Ok r2, c2) /\ or_success r2 = true /\ or_changed r2 = true.
Proof.
  exists (on_note [lf]). set (f := run_line p_run [] false None true (inl false)). set (c0 := on_note [lf]). set (c1 := snd (f c0)). set (c2 := snd (f c1)).
  exists (result_of (f c0)), c1, (result_of (f c1)), c2. note_start tt. split; [ran|]. split; [vm_compute; reflexivity|]. split; [vm_compute; reflexivity|]. split; [ran|]. split; vm_compute; reflexivity.
Qed.
Print Assumptions C50_again_refuted.
(** Full statement (false): after success the expression is not found any more.  It is searched for in the whole text, but removed
    line by line. *)
Theorem C50_regex_refuted : exists c regex r c' n, ready c [] /\ healthy c /\ absolute p_run /\
  run_line p_run [] false (Some regex) true (inl false) c = (Ok r, c') /\ or_success r = true /\
  at_path (sysof c') p_run run_place n /\ forall nb, n_kind n = KFile nb -> literally true regex (utf8_decode_esc nb) = Ok true.
Proof.
  exists (on_note (blit "a" ++ [lf] ++ blit "b")), (lit "a" ++ [10%N] ++ lit "b"). set (f := run_line p_run [] false (Some (lit "a" ++ [10%N] ++ lit "b")) true (inl false)). set (c0 := on_note (blit "a" ++ [lf] ++ blit "b")).
  exists (result_of (f c0)), (snd (f c0)), (Node (KFile (blit "a" ++ [lf] ++ blit "b" ++ [lf])) 493 0 0 200 200). note_start tt. split; [ran|]. split; [vm_compute; reflexivity|].
  split; [apply resolve_node_names; vm_compute; reflexivity|]. intros nb [= <-]. vm_compute. reflexivity.
Qed.
Print Assumptions C50_regex_refuted.
(** Full statement (false): adding a line to a file that ends with a line break keeps all bytes of the file.  A carriage return at the
    end of a line is lost. *)
Theorem C51_refuted : exists c b text r c' n, ready c [] /\ healthy c /\ absolute p_run /\ content_at (sysof c) p_run (Some b) /\ last b = Some lf /\
  run_line p_run text true None true (inl false) c = (Ok r, c') /\ or_success r = true /\ at_path (sysof c') p_run run_place n /\
  forall t, n_kind n <> KFile (b ++ t).
Proof.
  exists (on_note (blit "a" ++ [n2b 13; lf])), (blit "a" ++ [n2b 13; lf]), (lit "b"). set (f := run_line p_run (lit "b") true None true (inl false)). set (c0 := on_note (blit "a" ++ [n2b 13; lf])).
  exists (result_of (f c0)), (snd (f c0)), (Node (KFile (blit "a" ++ [lf] ++ blit "b" ++ [lf])) 493 0 0 200 200). note_start tt. split; [eexists _, _; split; [apply note_sees|reflexivity]|]. split; [vm_compute; reflexivity|].
  split; [ran|]. split; [vm_compute; reflexivity|]. split; [apply resolve_node_names; vm_compute; reflexivity|]. intros t H. discriminate H.
Qed.
Print Assumptions C51_refuted.
(** Full statement (false): with backup=True the previous file is kept as `<path>.<date>.bak`.  There is no such file, the copy is
    `.<date>.bak`. *)
Theorem C52_refuted : exists c r c' n, ready c [] /\ healthy c /\ absolute p_run /\ content_at (sysof c) p_run (Some (blit "#!")) /\
  run_line p_run (lit "b") true None true (inl true) c = (Ok r, c') /\ or_success r = true /\ or_changed r = true /\
  missing (sysof c') (p_run ++ lit "." ++ today ++ lit ".bak") /\ at_path (sysof c') (lit "/srv/." ++ today ++ lit ".bak") [lit "." ++ today ++ lit ".bak"; lit "srv"] n /\ n_kind n = KFile (blit "#!").
Proof.
  exists (on_note (blit "#!")). set (f := run_line p_run (lit "b") true None true (inl true)). set (c0 := on_note (blit "#!")).
  exists (result_of (f c0)), (snd (f c0)), (Node (KFile (blit "#!")) 493 0 0 100 200). note_start tt. split; [eexists _, _; split; [apply note_sees|reflexivity]|].
  split; [ran|]. split; [vm_compute; reflexivity|]. split; [vm_compute; reflexivity|]. split; [apply none_missing; vm_compute; reflexivity|].
  split; [apply resolve_node_names; vm_compute; reflexivity|reflexivity].
Qed.
Print Assumptions C52_refuted.
(** Full statement (false): after two edits with backup=True the previous contents of both files are kept.  The second copy replaces
    the first if both files are in the same directory and the edits happen within one second. *)
Definition p_two := lit "/srv/two".
Definition two_place : place := [lit "two"; lit "srv"].
Theorem C52_overwritten_refuted : exists c r0 c0 r c1 r2 c2, ready c [] /\ healthy c /\
  run_line p_two (lit "x") true None true (inl false) c = (Ok r0, c0) /\ or_success r0 = true /\ healthy c0 /\
  content_at (sysof c0) p_run (Some (blit "#!")) /\
  run_line p_run (lit "b") true None true (inl true) c0 = (Ok r, c1) /\ or_success r = true /\
  run_line p_two (lit "y") true None true (inl true) c1 = (Ok r2, c2) /\ or_success r2 = true /\
  forall pl, (fun n => n_kind n) <$> (o_fs (sysof c2) !! pl) <> Some (KFile (blit "#!")).
Proof.
  exists (on_note (blit "#!")). set (f0 := run_line p_two (lit "x") true None true (inl false)). set (f := run_line p_run (lit "b") true None true (inl true)). set (g := run_line p_two (lit "y") true None true (inl true)).
  set (c := on_note (blit "#!")). set (c0 := snd (f0 c)). set (c1 := snd (f c0)). set (c2 := snd (g c1)).
  exists (result_of (f0 c)), c0, (result_of (f c0)), c1, (result_of (g c1)), c2. split; [apply note_ready; unfold small; vm_compute; reflexivity|]. split; [apply note_healthy|].
  split; [ran|]. split; [vm_compute; reflexivity|]. split; [split_and!; vm_compute; reflexivity|]. split; [exists run_place, (Node (KFile (blit "#!")) 493 0 0 100 100); split; vm_compute; reflexivity|].
  split; [ran|]. split; [vm_compute; reflexivity|]. split; [ran|]. split; [vm_compute; reflexivity|].
  intros pl H. apply fmap_Some in H as (n & H & Hk).
  assert (Hall : forallb (fun x => match n_kind (snd x) with KFile b => negb (bool_decide (b = blit "#!")) | _ => true end) (map_to_list (o_fs (sysof c2))) = true) by (vm_compute; reflexivity).
  clearbody c2. rewrite forallb_forall in Hall. assert (Hin : In (pl, n) (map_to_list (o_fs (sysof c2)))) by (apply elem_of_list_In, elem_of_map_to_list; exact H).
  apply Hall in Hin. cbn [snd] in Hin. rewrite <- Hk in Hin. rewrite bool_decide_true in Hin by reflexivity. discriminate Hin.
Qed.
Print Assumptions C52_overwritten_refuted.

(** ** Cases that meet the hypotheses *)
Lemma note_copy : copy_possible today (sysof (on_note (blit "#!"))) p_run (inl true).
Proof.
  intros x Hx. inversion Hx; subst. cbv zeta. assert (E : path_join (py_dirname p_run) (lit "." ++ today ++ lit ".bak") = lit "/srv/.2022-01-01T00:00:00Z.bak") by (vm_compute; reflexivity). rewrite E.
  split; [split; [text|dec]|]. left. split; [vm_compute; reflexivity|]. exists (lit "/srv"), (lit ".2022-01-01T00:00:00Z.bak"), [lit "srv"], (Node KDir 1517 0 0 100 100).
  split; [reflexivity|]. split; [split_and!; dec|]. split; [reflexivity|]. right. split; [eexists; reflexivity|]. split; vm_compute; reflexivity.
Qed.
Example C49_case : let c := on_note (blit "#!") in let text := lit "b" in
  breakless text /\ is_Some (utf8_encode text) /\ ready c [] /\ honest (sysof c) /\ c_string p_run /\ absolute p_run /\ healthy c /\ hash_ok fake_hash /\ feasible (sysof c) (c_base c) ([] ++ [no_settings]) /\
  content_at (sysof c) p_run (Some (blit "#!")) /\ sendable (Some (blit "#!")) text /\ copy_possible today (sysof c) p_run (inl true) /\
  let x := run_line p_run text true None true (inl true) c in let y := run_line p_run text true None true (inl true) (snd x) in
  or_success (result_of x) = true /\ or_changed (result_of x) = true /\
  file_at (snd x) run_place = Some (Node (KFile (blit "#!" ++ [lf] ++ blit "b" ++ [lf])) 493 0 0 200 200) /\
  file_at (snd x) [lit ".2022-01-01T00:00:00Z.bak"; lit "srv"] = Some (Node (KFile (blit "#!")) 493 0 0 100 200) /\
  or_success (result_of y) = true /\ or_changed (result_of y) = false.
Proof.
  cbv zeta. split; [repeat constructor|]. split; [eexists; vm_compute; reflexivity|]. split; [apply note_ready; unfold small; vm_compute; reflexivity|]. split; [intros k H; inversion H|].
  split; [split; [text|dec]|]. split; [eexists; reflexivity|]. split; [apply note_healthy|]. split; [exact ex_hash|]. split; [apply note_ready; unfold small; vm_compute; reflexivity|].
  split; [eexists _, _; split; [apply note_sees|reflexivity]|]. split; [unfold sendable; vm_compute; reflexivity|]. split; [exact note_copy|].
  split; [vm_compute; reflexivity|]. split; [vm_compute; reflexivity|]. split; [vm_compute; reflexivity|]. split; [vm_compute; reflexivity|]. split; vm_compute; reflexivity.
Qed.
(** a file that does not exist yet gets the mode and owner in effect *)
Example C49_new_case : let x := run_line p_two (lit "b") true None true (inl true) (on_note (blit "#!")) in
  content_at (sysof (on_note (blit "#!"))) p_two None /\ or_success (result_of x) = true /\ or_changed (result_of x) = true /\
  file_at (snd x) two_place = Some (Node (KFile (blit "b" ++ [lf])) 384 0 0 200 200).
Proof. cbv zeta. split; [vm_compute; reflexivity|]. split; [vm_compute; reflexivity|]. split; vm_compute; reflexivity. Qed.
Definition three : bytes := blit "a" ++ [lf] ++ blit "  b" ++ [lf] ++ blit "c".
Example C50_case : let c := on_note three in let text := lit "b" in
  strip text = text /\ text <> [] /\ ready c [] /\ healthy c /\ content_at (sysof c) p_run (Some three) /\ sendable (Some three) text /\ (forall x, ~ copy_named today (inl false) x) /\
  file_lines three [lit "a"; lit "  b"; lit "c"] /\ without (counts true text) [lit "a"; lit "  b"; lit "c"] [lit "a"; lit "c"] /\
  let x := run_line p_run text false None true (inl false) c in let y := run_line p_run text false None true (inl false) (snd x) in
  or_success (result_of x) = true /\ or_changed (result_of x) = true /\
  file_at (snd x) run_place = Some (Node (KFile (blit "a" ++ [lf] ++ blit "c" ++ [lf])) 493 0 0 200 200) /\
  or_success (result_of y) = true /\ or_changed (result_of y) = false.
Proof.
  cbv zeta. split; [vm_compute; reflexivity|]. split; [discriminate|]. split; [apply note_ready; unfold small; vm_compute; reflexivity|]. split; [apply note_healthy|].
  split; [eexists _, _; split; [apply note_sees|reflexivity]|]. split; [unfold sendable; vm_compute; reflexivity|]. split; [intros x H; inversion H|]. split; [apply lines_of_iff; vm_compute; reflexivity|].
  split; [apply without_keep; [intros H; vm_compute in H; discriminate H|]; apply without_it; [vm_compute; reflexivity|]; apply without_keep; [intros H; vm_compute in H; discriminate H|]; constructor|].
  split; [vm_compute; reflexivity|]. split; [vm_compute; reflexivity|]. split; [vm_compute; reflexivity|]. split; vm_compute; reflexivity.
Qed.
(** bytes that are no characters stay *)
Definition odd : bytes := [n2b 255; lf] ++ blit "b" ++ [lf] ++ [n2b 200].
Example C51_case : rows_of odd [[n2b 255]; blit "b"; [n2b 200]] /\ lf_only odd /\ ready (on_note odd) [] /\
  let x := run_line p_run (lit "b") false None true (inl false) (on_note odd) in
  or_success (result_of x) = true /\ file_at (snd x) run_place = Some (Node (KFile ([n2b 255; lf; n2b 200; lf])) 493 0 0 200 200).
Proof.
  split; [split|].
  - repeat constructor; intros H; repeat (apply elem_of_cons in H as [H|H]; [discriminate H|]); inversion H.
  - right. split; [discriminate|]. split; [discriminate|]. reflexivity.
  - split; [|split; [apply note_ready; unfold small; vm_compute; reflexivity|cbv zeta; split; vm_compute; reflexivity]].
    intros c Hc. change (utf8_decode_esc odd) with [56575; 10; 98; 10; 56520]%N in Hc. repeat (apply elem_of_cons in Hc as [-> |Hc]; [first [reflexivity|intros H; vm_compute in H; discriminate H]|]). inversion Hc.
Qed.
(** the connection breaks, or a write fails, while the file is written: the copy is there *)
Example C52_case : let c := set_remote (Remote (set_faults (repeat FOk 10 ++ [FErr 28 1]) (note (blit "#!"))) Up) on_site in
  let x := run_line p_run (lit "b") true None true (inl true) c in
  p_run = lit "/srv" ++ slash :: lit "run" /\ last (lit "/srv") <> Some slash /\ copy_named today (inl true) (lit ".2022-01-01T00:00:00Z.bak") /\ ~ absolute (lit ".2022-01-01T00:00:00Z.bak") /\
  honest (sysof c) /\ sees_none (sysof c) (lit "/srv" ++ slash :: lit ".2022-01-01T00:00:00Z.bak") /\ (exists e, fst x = Err e) /\
  file_at (snd x) run_place <> file_at c run_place /\
  file_at (snd x) [lit ".2022-01-01T00:00:00Z.bak"; lit "srv"] = Some (Node (KFile (blit "#!")) 493 0 0 100 200).
Proof.
  cbv zeta. split; [reflexivity|]. split; [discriminate|]. split; [exact (copy_dated today)|]. split; [intros [r Hr]; discriminate Hr|].
  split; [intros k H; repeat (apply elem_of_cons in H as [H|H]; [discriminate H|]); inversion H|]. split; [vm_compute; reflexivity|]. split; [vm_compute; eexists; reflexivity|].
  split; [vm_compute; intros H; discriminate H|]. vm_compute. reflexivity.
Qed.
