(** files.line as a step of a deploy script. *)
From Coq Require Import Lia ZifyBool ZifyN ZifyNat.
From stdpp Require Import gmap.
From Verif Require Import Base Utf8 Codec Spec_Codec Codec_proofs Paths Sys Spec_Sys Sys_proofs Dispatcher Client Spec_Remote Remote_run Direct Control Spec_Control Control_proofs Control_settle Prop_Control Op Spec_Op Op_proofs Coreutils Files Walk_proofs Files_plain Spec_Files Shell_proofs Thrift Steps Dir_proofs Transfer Converge Content_proofs Spec_Line Line_text Line_proofs Rerun_proofs Sound Frugal Spec_Tree Tree_proofs Prop_Files Prop_Content Tree_run Prop_Line Spec_Script Script_proofs.
Local Open Scope nat_scope.

(** What makes a second call find the line as wanted: without line breaks and writable, or without white space around it and not empty. *)
Definition good_text (present ws : bool) (text : pystr) : Prop :=
  if present then breakless text /\ is_Some (utf8_encode text) else (ws = true -> strip text = text) /\ text <> [].
(** The file can be edited: the result is not too large to be sent; a line is only removed from a file that exists. *)
Definition editable (s : os) (path text : pystr) (present : bool) : Prop :=
  exists orig, content_at s path orig /\ sendable orig text /\ (present = false -> orig <> None).

Section fine.
  Variable rest : proc -> M xres.
  Variable sha512 : bytes -> bytes.
  Variable want_diff : bool.
  Variable search : bool -> pystr -> pystr -> result bool.
  Variable date : pystr.
  Notation exec := (coreutils rest).
  Notation line := (line exec sha512 false want_diff search date).

  Lemma frugal_line path text present regex ws attr : frugal (line_body exec sha512 false search date path text present regex ws (inl false) attr).
  Proof.
    unfold line_body. apply frugal_bind; [apply frugal_stat|]. intros st.
    assert (Hw : forall orig f, frugal (line_rest exec sha512 false search date path text present regex ws (inl false) attr orig f)).
    { intros orig f. unfold line_rest. apply frugal_conclude. unfold line_work. apply frugal_bind; [apply frugal_lift|]. intros b. unfold line_write. destruct orig; [|apply frugal_upload].
      apply frugal_bind; [apply frugal_ret|]. intros _. apply frugal_upload. }
    assert (Hc : frugal (line_cont exec sha512 false search date path text present regex ws (inl false) attr st)).
    { unfold line_cont. destruct st; [|apply Hw]. apply frugal_bind; [apply frugal_thrifty, thrifty_download|]. intros b. apply frugal_bind; [apply frugal_lift|]. intros f. apply Hw. }
    destruct st as [x|]; [|exact Hc]. destruct (negb _); [apply frugal_ret|exact Hc].
  Qed.

  (** what is found in the edited file *)
  Lemma edited_found present ws text orig nb : good_text present ws text -> edited search text present None ws orig = Ok nb -> found_orig search text None ws (Some nb) = Ok present.
  Proof.
    intros Hg He. assert (Hl : lines_at orig (splitlines (text_of orig))) by (apply (lines_before_eq orig); reflexivity).
    destruct (found_total search text ws (Some nb)) as [f' Hf']. rewrite Hf'. f_equal. apply (found_has search) in Hf'. destruct present; cbn [good_text] in Hg; destruct Hg as [Hb Hn].
    - destruct (added search text ws orig _ Hb Hn Hl) as (nb' & Hed & Hnl). rewrite He in Hed. injection Hed as <-.
      apply Hf'. exists (splitlines (text_of orig) ++ [text]), text. split; [exact Hnl|]. split; [apply elem_of_app; right; left|]. unfold counts. destruct ws; reflexivity.
    - assert (Hk := without_filter (counts ws text) (stays text ws) (splitlines (text_of orig)) (fun l => stays_counts text ws l Hb)).
      set (ks := List.filter _ _) in *. destruct (removed search text ws orig _ ks Hb Hl Hk) as (nb' & Hed & H1 & H2). rewrite He in Hed. injection Hed as <-.
      destruct f'; [|reflexivity]. exfalso. destruct Hf' as [(ls & l & G1 & G2 & G3) _]; [reflexivity|].
      cbn in G1. destruct (decide (ks = [])) as [Hz|Hnz].
      + rewrite (H2 Hz) in G1. apply lines_of_iff in G1. vm_compute in G1. subst ls. apply elem_of_list_singleton in G2 as ->. unfold counts in G3. destruct ws; [rewrite (Hb eq_refl) in G3|]; apply Hn; rewrite G3; reflexivity.
      + specialize (H1 Hnz). rewrite (lines_of_unique _ _ _ G1 H1) in G2. destruct (without_not _ _ _ _ Hk G2); contradiction.
  Qed.

  Lemma line_step s0 base reqs c res c1 path text present ws :
    going s0 base reqs c -> editable (sysof c) path text present -> c_string path ->
    operation NotGiven (line path text present None ws (inl false)) c = (Ok res, c1) ->
    c1 = set_remote (c_remote c1) c /\ going s0 base reqs c1 /\ grows (o_fs (sysof c)) (o_fs (sysof c1)) /\
    exists pl n b, sees (sysof c1) path pl n /\ n_kind n = KFile b /\ (good_text present ws text -> found_orig search text None ws (Some b) = Ok present) /\
      forall p, p <> pl -> o_fs (sysof c1) !! p = o_fs (sysof c) !! p.
  Proof.
    intros (Hrd & Hfl & Hb & Hof & Hgr) (orig & Hca & Hsz & Hpre) Hp E.
    assert (Hpl := line_plain exec sha512 false want_diff search date path text present None ws (inl false)).
    assert (Hset : c1 = set_remote (c_remote c1) c).
    { destruct Hrd as ((d0 & Ha' & He) & _). eapply (op_any exec sha512 NotGiven path no_settings _ _ c _ c1 reqs d0 Hpl); [apply remotely_line|exact E|exact Ha'|exact He]. }
    assert (Hfl1 : o_faults (sysof c1) = []).
    { assert (H : frugal (operation NotGiven (line path text present None ws (inl false)))).
      { eapply frugal_operation; [exact Hpl|]. apply frugal_bind; [apply frugal_check|]. intros _. apply frugal_defaults. intros d. apply frugal_line. }
      specialize (H c). rewrite E in H. cbn [snd] in H. unfold less in H. rewrite Hfl in H. apply suffix_nil_inv in H. exact H. }
    assert (Hsu : or_success res = true).
    { assert (E' := E). rewrite (operation_plain NotGiven _ _ c Hpl) in E'. apply verdict_outcome in E' as (x & _ & Hx). destruct x as [x|]; cbn in Hx; [|discriminate].
      destruct Hx as [[[= <-] Hx]|(_ & _ & [=])]. auto. }
    destruct (line_ran rest sha512 want_diff search date NotGiven c _ c1 reqs path text present None ws (inl false) Hrd (tame_honest _ Hfl) Hp E) as [_ H].
    destruct (H res eq_refl Hsu) as (_ & o' & Ho' & Hcase). clear H. assert (o' = orig) as -> by (eapply original_unique; [exact Ho'|exact Hca]).
    assert (Hmain : only_files (sysof c) (sysof c1) /\ grows (o_fs (sysof c)) (o_fs (sysof c1)) /\ os_ok (sysof c1) /\
      exists pl n b, sees (sysof c1) path pl n /\ n_kind n = KFile b /\ (good_text present ws text -> found_orig search text None ws (Some b) = Ok present) /\ forall p, p <> pl -> o_fs (sysof c1) !! p = o_fs (sysof c) !! p).
    { destruct Hcase as [(_ & Hf & Hun)|(_ & _ & nb & Hed & Hrw & Hca1 & Hg & Hok & _)].
      - assert (Hfs := unaffected_fs _ _ Hun). split; [apply unaffected_only; exact Hun|]. split; [rewrite Hfs; apply grows_refl|]. split.
        { destruct Hrd as (_ & _ & _ & (O1 & O2 & O3 & O4 & O5 & O6 & O7 & O8 & O9 & O10)). rewrite Hun. split_and!; auto. cbn [o_faults set_faults]. rewrite Hfl1. constructor. }
        destruct orig as [b|]; [|exfalso; destruct present; [discriminate Hf|apply Hpre; reflexivity]].
        destruct Hca as (pl & n & Hs & Hk). exists pl, n, b. split; [unfold sees; rewrite Hfs; exact Hs|]. split; [exact Hk|]. split; [intros _; exact Hf|]. intros p _. rewrite Hfs. reflexivity.
      - destruct Hrw as (pl & n & Hat & Hk & _ & _ & Hof1 & Hothers). split; [exact Hof1|]. split; [exact Hg|]. split; [apply Hok; [apply Hrd|eapply edited_small; eassumption|exact Hfl1]|].
        destruct Hca1 as (pl' & n' & Hs' & Hk'). apply resolve_node_names in Hs' as Hat'. destruct (names_det _ _ _ _ _ _ _ _ Hat Hat') as [-> ->]. exists pl', n', nb.
        split; [exact Hs'|]. split; [exact Hk'|]. split; [intros Hgt; eapply edited_found; eassumption|]. intros p Hp'. destruct (Hothers p Hp') as [H|(_ & x & Hx & _)]; [exact H|inversion Hx]. }
    destruct Hmain as (Hof1 & Hg1 & Hos1 & Hmain). split; [exact Hset|]. split; [|split; [exact Hg1|exact Hmain]].
    split; [eapply ready_step; eassumption|]. split; [exact Hfl1|]. split; [rewrite Hset; exact Hb|]. split; [eapply only_files_trans; eassumption|eapply grows_trans; eassumption].
  Qed.

  Lemma line_fine (step : Type) (st : step) (does : step -> W opres) (about : step -> pystr -> Prop) (now : step -> os -> Prop) s0 base reqs path text present ws :
    does st = operation NotGiven (line path text present None ws (inl false)) -> (forall p, about st p <-> p = path) ->
    (forall s, now st s -> editable s path text present) -> hash_ok sha512 ->
    c_string path -> absolute path -> good_text present ws text -> feasible s0 base (reqs ++ [no_settings]) ->
    step_fine step does about now s0 base reqs st.
  Proof.
    intros Hdo Hab Hnow Hha Hp Ha Hgt Hfe c res c1 Hgo Hn E. apply absolute_isabs in Ha. rewrite Hdo in E.
    destruct (line_step s0 base reqs c res c1 path text present ws Hgo (Hnow _ Hn) Hp E) as (Hset & Hgo1 & Hg1 & pl & n & b & Hsee1 & Hk1 & Hf1 & Hothers). specialize (Hf1 Hgt).
    split; [exact Hset|]. split; [exact Hgo1|]. split; [exact Hg1|].
    exists (fun p => p = pl). split; [intros p Hp'; apply Hothers; exact Hp'|]. split; [intros p ->; exists path, n; split; [apply Hab; reflexivity|exact Hsee1]|].
    intros c2 (Hrd2 & Hfl2 & Hb2 & Hof2 & Hgr2) Hhl2 Hg2 Hsame _ r c3 E2. rewrite Hdo in E2.
    assert (Hsee : sees (sysof c2) path pl n).
    { eapply resolve_node_grows; [exact Hg2|exact Hsee1|]. rewrite Hsame; [|reflexivity]. apply resolve_node_split in Hsee1 as [_ H]. exact H. }
    assert (Hfe2 : feasible (sysof c2) (c_base c2) (reqs ++ [no_settings])) by (rewrite Hb2; eapply feasible_grows; eassumption).
    destruct (line_idle rest sha512 want_diff search date NotGiven c2 r c3 reqs path text present None ws (inl false) (Some b)) as (res2 & -> & _ & Hc & ->); auto; [exists pl, n; auto|].
    exists res2. auto.
  Qed.
End fine.
