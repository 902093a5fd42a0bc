(** What a deploy script that calls several operations on files leaves behind, and what calling them all again does. *)
From Coq Require Import Lia ZifyBool ZifyN ZifyNat.
From stdpp Require Import gmap.
From Verif Require Import Base Utf8 Codec Spec_Codec Codec_proofs Paths Sys Spec_Sys Sys_proofs Dispatcher Client Spec_Remote Remote_run Direct Control Spec_Control Control_proofs Control_settle Prop_Control Op Spec_Op Op_proofs Coreutils Files Walk_proofs Files_plain Spec_Files Shell_proofs Thrift Steps Dir_proofs Transfer Converge Content_proofs Spec_Link Link_walk Link_proofs Rerun_proofs Sound Frugal Spec_Tree Tree_proofs Prop_Files Prop_Content Prop_Link Tree_run Prop_Tree Tree_dry Prop_Tree_again Spec_Script.
Local Open Scope nat_scope.

Lemma tame_honest s : o_faults s = [] -> honest s.
Proof. intros H k Hk. rewrite H in Hk. inversion Hk. Qed.

Section frugal.
  Variable rest : proc -> M xres.
  Variable sha512 : bytes -> bytes.
  Variable dry : bool.
  Notation exec := (coreutils rest).
  Hint Resolve frugal_mkdir frugal_touch frugal_rm frugal_readlink frugal_chmod frugal_chown frugal_rm_rf frugal_ltouch frugal_lchown frugal_ln : core.
  Ltac steps := repeat first [apply frugal_sh; solve [auto]|apply frugal_crun; solve [auto]|apply frugal_chmod_to; solve [auto]|apply frugal_wif|apply frugal_ret|apply frugal_raise|apply frugal_bind; [|intros ?]].
  Lemma frugal_file path present touch attr : frugal (file_body exec sha512 dry path present touch attr).
  Proof.
    unfold file_body. apply frugal_bind; [apply frugal_stat|]. intros st.
    assert (Hw : frugal (file_work exec sha512 dry path present touch attr st)).
    { unfold file_work, chown_to. destruct dry; [apply frugal_ret|]. destruct present; steps. }
    destruct st as [x|]; [destruct (negb (str_eqb (st_type x) (lit "file"))); [apply frugal_ret|]|]; apply frugal_conclude; exact Hw.
  Qed.
  Lemma frugal_decoded b : frugal (decoded b).
  Proof. unfold decoded. repeat case_match; first [apply frugal_ret|apply frugal_raise|apply frugal_lift]. Qed.
  Lemma frugal_link path target present touch attr : frugal (link_body exec sha512 dry path target present touch attr).
  Proof.
    unfold link_body. apply frugal_bind; [apply frugal_stat|]. intros st.
    assert (Hw : forall x, frugal (link_work exec sha512 dry path target present touch attr x)).
    { intros x. unfold link_work. destruct dry; [apply frugal_ret|]. destruct present; steps. }
    destruct st as [x|]; cbv zeta; [|apply frugal_conclude; apply Hw]. destruct (negb (str_eqb (st_type x) (lit "link"))); [apply frugal_ret|].
    apply frugal_bind; [apply frugal_crun; auto|]. intros r. apply frugal_bind; [apply frugal_decoded|]. intros t. apply frugal_conclude. apply Hw.
  Qed.
End frugal.

(** ** Sequences of steps *)
Section sequence.
  Variable step : Type.
  Variable does : step -> W opres.
  (** the paths a step is about *)
  Variable about : step -> pystr -> Prop.
  (** what has to hold when its turn comes *)
  Variable now : step -> os -> Prop.
  Variables (s0 : os) (base : settings) (reqs : list settings).

  Definition going (c : ctl) : Prop :=
    ready c reqs /\ o_faults (sysof c) = [] /\ c_base c = base /\ only_files s0 (sysof c) /\ grows (o_fs s0) (o_fs (sysof c)).
  Definition plain_bits_at (st : step) (c : ctl) : Prop := forall p pl n, about st p -> sees (sysof c) p pl n -> N.land (n_mode n) 3072 = 0%N.
  Definition idle (st : step) (c : ctl) : Prop := forall r c', does st c = (r, c') -> exists res, r = Ok res /\ or_changed res = false /\ c' = c.
  Definition lasting (st : step) (c1 : ctl) (D : place -> Prop) : Prop :=
    forall c2, going c2 -> healthy c2 -> grows (o_fs (sysof c1)) (o_fs (sysof c2)) ->
      (forall pl, D pl -> o_fs (sysof c2) !! pl = o_fs (sysof c1) !! pl) -> plain_bits_at st c2 -> idle st c2.
  Definition step_fine (st : step) : Prop :=
    forall c res c1, going c -> now st (sysof c) -> does st c = (Ok res, c1) ->
      c1 = set_remote (c_remote c1) c /\ going c1 /\ grows (o_fs (sysof c)) (o_fs (sysof c1)) /\
      exists D : place -> Prop, (forall pl, ~ D pl -> o_fs (sysof c1) !! pl = o_fs (sysof c) !! pl) /\
        (forall pl, D pl -> exists p n, about st p /\ sees (sysof c1) p pl n) /\ lasting st c1 D.

  Notation play := (play step does).
  Notation in_turn := (in_turn step does now).
  Notation apart := (apart step about).
  Lemma play_cons st l c : play (st :: l) c = (r ← does st; rs ← play l; mret (r :: rs)) c. Proof. reflexivity. Qed.
  Lemma going_steps l : Forall step_fine l -> forall c rs c', going c -> in_turn l c -> play l c = (Ok rs, c') ->
    c' = set_remote (c_remote c') c /\ going c' /\ grows (o_fs (sysof c)) (o_fs (sysof c')) /\
    (forall pl, (forall st p n, st ∈ l -> about st p -> ~ sees (sysof c') p pl n) -> forall k, o_fs (sysof c) !! pl = k -> o_fs (sysof c') !! pl = k) /\
    (healthy c' -> apart (sysof c') l -> (forall st, st ∈ l -> plain_bits_at st c') -> forall st, st ∈ l -> idle st c').
  Proof.
    induction 1 as [|st l Hst _ IH]; intros c rs c' Hg Hin E.
    - injection E as <- <-. split; [symmetry; apply set_remote_self|]. split; [exact Hg|]. split; [intros p n Hn; exists n; auto|]. split; [auto|]. intros _ _ _ st H. inversion H.
    - rewrite play_cons in E. apply bind_spec in E as [(res & c1 & E1 & E)|(e & _ & [=])]. apply bind_spec in E as [(rs' & c2 & E2 & E)|(e & _ & [=])]. injection E as <- <-.
      destruct Hin as [Hn Hin]. destruct (Hst c res c1 Hg Hn E1) as (Hset & Hg1 & Hgr & D & D1 & D2 & D3).
      destruct (IH c1 rs' c2 Hg1 (Hin res c1 E1) E2) as (Hset2 & Hg2 & Hgr2 & Hfr & Hid). clear IH.
      assert (Hcov : forall pl, D pl -> exists p n, about st p /\ sees (sysof c2) p pl n).
      { intros pl Hd. destruct (D2 pl Hd) as (p & n & H1 & H2). destruct (sees_grows _ _ _ _ _ Hgr2 H2) as (n2 & H3). eauto. }
      split; [rewrite Hset2 at 1; rewrite Hset; reflexivity|]. split; [exact Hg2|].
      split; [eapply grows_trans; eassumption|]. split.
      + intros pl Hpl k Hk. apply Hfr; [intros st' p n Hi; apply Hpl; right; exact Hi|]. rewrite D1; [exact Hk|]. intros Hd. destruct (Hcov pl Hd) as (p & n & H1 & H2). eapply Hpl; [left|exact H1|exact H2].
      + intros Hhl [Ha1 Ha2] Hpb st' Hi. apply elem_of_cons in Hi as [-> |Hi].
        * apply D3; [exact Hg2|exact Hhl|exact Hgr2| |apply Hpb; left].
          intros pl Hd. apply Hfr; [|reflexivity]. intros st' p n Hi Hab Hs. destruct (Hcov pl Hd) as (p0 & n0 & H1 & H2). eapply Ha1; eassumption.
        * apply Hid; auto. intros st'' Hi''. apply Hpb. right. exact Hi''.
  Qed.
  Lemma idle_play l c : (forall st, st ∈ l -> idle st c) -> exists rs, play l c = (Ok rs, c) /\ length rs = length l /\ Forall (fun r => or_changed r = false) rs.
  Proof.
    clear about now s0 base reqs. induction l as [|st l IH]; intros H; [exists []; auto|]. destruct IH as (rs & E & Hl & Hf); [intros st' Hi; apply H; right; exact Hi|].
    destruct (does st c) as [r c'] eqn:E1. destruct (H st (elem_of_list_here _ _) _ _ E1) as (res & -> & Hc & ->). exists (res :: rs).
    split; [|split; [cbn; lia|constructor; assumption]]. rewrite play_cons. unfold mbind, W_bind. rewrite E1, E. reflexivity.
  Qed.
End sequence.

(** ** The steps *)
Section single.
  Variable rest : proc -> M xres.
  Variable sha512 : bytes -> bytes.
  Notation exec := (coreutils rest).
  Variables (path : pystr) (isk : kind -> Prop) (msel : settings -> option pystr).
  Variable Conf : os -> place -> node -> Prop.
  Variable Good : os -> settings -> account -> grent -> place -> node -> Prop.
  Variable Match : os -> settings -> node -> Prop.
  Variable Cap : Prop.
  Variable body : settings -> W opres.
  Variable q : settings.
  Variable op : O opres.
  Hypothesis Hop : yields op new_op (_ ← check_absolute_path path; script_defaults exec sha512 q body).
  Hypothesis Hrem : forall d, remotely (body d).
  Hypothesis Hmsel2 : forall s base reqs attr, settles s base reqs attr -> mode_settles (msel base) (innermost (List.map msel reqs)) (msel attr).
  Hypothesis Hbody : forall attr s c x c' a b,
    unaffected s (sysof c) -> isabs path = true -> c_string path -> os_ok (sysof c) -> honest (sysof c) ->
    accounts_ok s -> accounts_of s attr a b -> msel attr <> None -> body attr c = (x, c') ->
    (unaffected s (sysof c') \/ exists pl n, sits path s (sysof c') pl n /\ Conf s pl n) /\
    (forall res, x = Ok res -> or_success res = true ->
       exists pl n, sits path s (sysof c') pl n /\ Conf s pl n /\ Good s attr a b pl n /\ (or_changed res = false -> unaffected s (sysof c') /\ false = false)) /\
    (fine c -> hash_ok sha512 -> Cap -> octal_below 4096 (msel attr) ->
       (resolve_node (o_fs s) [] path false = Err (oserr ENOENT) /\ creatable s path) \/ (exists pl n, resolve_node (o_fs s) [] path false = Ok (pl, n) /\ isk (n_kind n)) ->
       exists res, x = Ok res /\ or_success res = true /\ fine c' /\
         (or_changed res = false <-> exists pl n, resolve_node (o_fs s) [] path false = Ok (pl, n) /\ Match s attr n /\ false = false)).
  Hypothesis Hfields : forall s attr a b pl n, Good s attr a b pl n -> good_owner attr a b n /\ recent s pl n.
  Hypothesis Hfinal : forall s s' attr a b pl n attr2, Good s attr a b pl n -> matching s' (msel attr2) attr2 n -> Match s' attr2 n.
  Hypothesis Hconf : forall s pl n, Conf s pl n -> isk (n_kind n) /\ (forall n0, o_fs s !! pl = Some n0 -> shape n = shape n0) /\ (os_ok s -> kind_ok (n_kind n)).
  Hypothesis Hsound : forall d, sound (body d).
  Hypothesis Hfrugal : forall d, frugal (body d).
  Hypothesis Hmode : forall s attr a b pl n, Good s attr a b pl n -> exists z, (means (msel attr) z \/ taken (msel attr) z) /\ N.ldiff (n_mode n) 3072 = N.ldiff z 3072.
  Hypothesis Hoct : forall attr, octal_below 4096 (s_file_mode attr) -> octal_below 4096 (s_dir_mode attr) -> octal_below 4096 (msel attr).
  Hypothesis Hpath : c_string path.
  Hypothesis Habs : isabs path = true.
  Hypothesis Hcap : Cap.
  Hypothesis Hha : hash_ok sha512.

  Lemma op_states c r c1 reqs : ready c reqs -> o_faults (sysof c) = [] -> operation NotGiven op c = (r, c1) ->
    c1 = set_remote (c_remote c1) c /\ os_ok (sysof c1) /\ o_faults (sysof c1) = [] /\ forall res, r = Ok res -> or_success res = true.
  Proof.
    intros Hrd Hfl E. split_and!.
    - destruct Hrd as ((d0 & Ha & He) & _). eapply (op_any exec sha512 NotGiven path q body _ c r c1 reqs d0 Hop); eassumption.
    - assert (H := sound_operation NotGiven op _ Hop (sound_bind _ _ (sound_check _) (fun _ => sound_defaults exec sha512 q body Hsound)) c (proj2 (proj2 (proj2 Hrd)))). rewrite E in H. exact H.
    - assert (H : frugal (operation NotGiven op)).
      { eapply frugal_operation; [exact Hop|]. apply frugal_bind; [apply frugal_check|]. intros _. apply frugal_defaults. exact Hfrugal. }
      specialize (H c). rewrite E in H. cbn [snd] in H. unfold less in H. rewrite Hfl in H. apply suffix_nil_inv in H. exact H.
    - intros res ->. rewrite (operation_plain NotGiven _ _ c Hop) in E. apply verdict_outcome in E as (x & _ & Hx). destruct x as [x|]; cbn in Hx; [|discriminate].
      destruct Hx as [[[= <-] Hx]|(_ & _ & [=])]. auto.
  Qed.

  Lemma single_fine (step : Type) (st : step) does about now s0 base reqs :
    does st = operation NotGiven op -> (forall p, about st p <-> p = path) -> o_uid s0 = 0%N ->
    accounts_ok s0 -> unaliased s0 -> feasible s0 base (reqs ++ [q]) -> canonical (msel base) -> octal_below 1024 (wanted msel base (reqs ++ [q])) ->
    step_fine step does about now s0 base reqs st.
  Proof.
    intros Hdo Hab Hu0 Hac0 Hun Hfe Hcan Hlow c res c1 (Hrd & Hfl & Hb & Hof & Hgr) _ E. rewrite Hdo in E.
    destruct (op_states c _ c1 reqs Hrd Hfl E) as (Hset & Hos1 & Hfl1 & Hsu).
    destruct (present_any rest sha512 path false isk msel Conf Good Match Cap body q op Hop Hrem Hmsel2 Hbody NotGiven c _ c1 reqs Hrd (tame_honest _ Hfl) Hpath E) as [_ H].
    destruct (H res eq_refl (Hsu res eq_refl)) as (_ & attr & x & y & pl & n & Hse & Hacc & Hsit & Hc & Hg & _). clear H.
    destruct (Hconf _ _ _ Hc) as (Hk & Hsh & _). assert (Hof1 := sits_only _ _ _ _ _ Hsit). assert (Hg1 := sits_grows _ _ _ _ _ Hsit Hsh).
    split; [exact Hset|]. split.
    { split; [eapply ready_step; eassumption|]. split; [exact Hfl1|]. split; [rewrite Hset; exact Hb|]. split; [eapply only_files_trans; eassumption|eapply grows_trans; eassumption]. }
    split; [exact Hg1|]. exists (fun p => p = pl). split.
    { intros p Hp. destruct Hsit as (_ & -> & _). apply lookup_insert_ne. congruence. }
    split.
    { intros p ->. exists path, n. split; [apply Hab; reflexivity|]. apply Hsit. }
    intros c2 (Hrd2 & Hfl2 & Hb2 & Hof2 & Hgr2) Hhl2 Hg2 Hsame Hbits r c3 E2. rewrite Hdo in E2.
    assert (Hsee : sees (sysof c2) path pl n).
    { destruct Hsit as (_ & Hins & Hs). eapply resolve_node_grows; [exact Hg2|exact Hs|]. rewrite Hsame; [|reflexivity]. rewrite Hins. apply lookup_insert. }
    assert (Hcl : N.land (n_mode n) 3072 = 0%N) by (eapply Hbits; [apply Hab; reflexivity|exact Hsee]).
    assert (Hfe2 : feasible (sysof c2) (c_base c2) (reqs ++ [q])) by (rewrite Hb2; eapply feasible_grows; eassumption).
    destruct (present_works rest sha512 path false isk msel Conf Good Match Cap body q op Hop Hrem Hmsel2 Hbody NotGiven c2 r c3 reqs Hrd2 Hpath Habs E2 Hhl2 Hha Hcap Hfe2 Hoct)
      as (Hset2 & res2 & attr2 & -> & _ & Hhl3 & Hse2 & _ & Hch2 & x2 & y2 & pl2 & n2 & _ & _ & _ & _ & Hun2); [right; exists pl, n; auto|].
    exists res2. split; [reflexivity|].
    assert (Hse0 : settles s0 base (reqs ++ [q]) attr) by (rewrite <- Hb; apply (settles_files _ _ _ _ _ Hof); exact Hse).
    assert (Hse20 : settles s0 base (reqs ++ [q]) attr2) by (rewrite <- Hb2; apply (settles_files _ _ _ _ _ Hof2); exact Hse2).
    assert (attr2 = attr) as -> by (eapply settles_unique; [exact Hac0|exact Hun|exact Hse20|exact Hse0]).
    destruct (mode_settles_canonical _ _ _ Hcan (Hmsel2 _ _ _ _ Hse0)) as (k & K1 & K2).
    assert (Hlt := wanted_below base reqs q msel attr k (Hmsel2 _ _ _ _ Hse0) Hlow K2).
    destruct (Hmode _ _ _ _ _ _ Hg) as (z & Z1 & Z2).
    assert (z = k) as -> by (destruct Z1 as [Z1|Z1]; [eapply means_unique; eassumption|eapply taken_means; [exact K2|lia|exact Z1]]).
    assert (Hm : n_mode n = k) by (apply bits_asked; assumption).
    assert (Hacc0 : accounts_of s0 attr x y).
    { unfold accounts_of in *. rewrite (only_files_passwd _ _ Hof), (only_files_group _ _ Hof) in Hacc. exact Hacc. }
    assert (Hch : or_changed res2 = false).
    { apply Hch2. exists pl, n. split; [exact Hsee|]. split; [|reflexivity]. eapply Hfinal; [exact Hg|].
      eapply (matching_final msel s0 (sysof c2) attr x y n k); auto. apply (Hfields _ _ _ _ _ _ Hg). }
    split; [exact Hch|]. apply same_again; auto.
  Qed.
End single.

Lemma dir_bits s attr touch a b pl n : dir_good s attr touch a b pl n -> exists z, (means (s_dir_mode attr) z \/ taken (s_dir_mode attr) z) /\ N.ldiff (n_mode n) 3072 = N.ldiff z 3072.
Proof.
  intros (_ & (z & Z1 & Z2) & _). exists z. split; [left; exact Z1|]. destruct Z2 as [-> | ->]; [reflexivity|apply kept_setid].
Qed.
Lemma file_bits s attr touch a b pl n : file_good s attr touch a b pl n -> exists z, (means (s_file_mode attr) z \/ taken (s_file_mode attr) z) /\ N.ldiff (n_mode n) 3072 = N.ldiff z 3072.
Proof.
  intros (_ & (z & Z1 & Z2) & _). exists z. split; [left; exact Z1|]. destruct Z2 as [-> | ->]; [reflexivity|apply drop_setid].
Qed.
Lemma content_bits sha512 content s attr a b pl n : content_good sha512 content s attr a b pl n -> exists z, (means (s_file_mode attr) z \/ taken (s_file_mode attr) z) /\ N.ldiff (n_mode n) 3072 = N.ldiff z 3072.
Proof.
  intros (_ & (z & Z1 & Z2) & _). exists z. split; [right; exact Z1|]. destruct Z2 as [-> | ->]; [reflexivity|apply drop_setid].
Qed.

Section steps.
  Variable rest : proc -> M xres.
  Variable sha512 : bytes -> bytes.
  Variable want_diff : bool.
  Notation exec := (coreutils rest).
  Variables (step : Type) (st : step) (does : step -> W opres) (about : step -> pystr -> Prop) (now : step -> os -> Prop).
  Variables (s0 : os) (base : settings) (reqs : list settings).
  Hypothesis Hha : hash_ok sha512.
  Hypothesis Huid : o_uid s0 = 0%N.
  Hypothesis Hac : accounts_ok s0.
  Hypothesis Hun : unaliased s0.
  Notation step_fine := (step_fine step does about now s0 base reqs st).

  Lemma directory_fine path mode owner group : does st = operation NotGiven (directory exec sha512 false path true false mode owner group) -> (forall p, about st p <-> p = path) ->
    c_string path -> absolute path -> feasible s0 base (reqs ++ [asking owner group None mode]) -> canonical (s_dir_mode base) ->
    octal_below 1024 (wanted s_dir_mode base (reqs ++ [asking owner group None mode])) -> step_fine.
  Proof.
    intros Hdo Hab Hp Ha Hfe Hcan Hlow. apply absolute_isabs in Ha.
    apply (single_fine rest sha512 path (fun k => k = KDir) s_dir_mode dir_conf (fun s attr a b pl n => dir_good s attr false a b pl n) (fun s attr n => matching s (s_dir_mode attr) attr n) True (dir_body exec sha512 false path true false) (want owner group None mode) _
      (directory_plain exec sha512 false path true false mode owner group) (fun d => remotely_dir _ _ _ _ _ _ _) dir_msel (fun attr s c x c' a b => dir_body_cap rest sha512 attr s c x c' a b path false)
      (dir_fields false) (fun _ _ _ _ _ _ _ _ _ H => H) dir_conf_facts (fun d => sound_dir _ _ _ _ _ _ _) (fun d => frugal_dir _ _ _ _ _ _ _) (fun s attr a b pl n => dir_bits s attr false a b pl n) (fun _ _ H => H) Hp Ha I Hha); assumption.
  Qed.
  Lemma file_fine path mode owner group : does st = operation NotGiven (file exec sha512 false path true false mode owner group) -> (forall p, about st p <-> p = path) ->
    c_string path -> absolute path -> feasible s0 base (reqs ++ [asking owner group mode None]) -> canonical (s_file_mode base) ->
    octal_below 1024 (wanted s_file_mode base (reqs ++ [asking owner group mode None])) -> step_fine.
  Proof.
    intros Hdo Hab Hp Ha Hfe Hcan Hlow. apply absolute_isabs in Ha.
    apply (single_fine rest sha512 path is_file s_file_mode file_conf (fun s attr a b pl n => file_good s attr false a b pl n) (fun s attr n => matching s (s_file_mode attr) attr n) True (file_body exec sha512 false path true false) (want owner group mode None) _
      (file_plain exec sha512 false path true false mode owner group) (fun d => remotely_file _ _ _ _ _ _ _) file_msel (fun attr s c x c' a b => file_body_cap rest sha512 attr s c x c' a b path false)
      (file_fields false) (fun _ _ _ _ _ _ _ _ _ H => H) file_conf_facts (fun d => sound_file _ _ _ _ _ _ _) (fun d => frugal_file _ _ _ _ _ _ _) (fun s attr a b pl n => file_bits s attr false a b pl n) (fun _ H _ => H) Hp Ha I Hha); assumption.
  Qed.
  Lemma put_fine op path content mode owner group : does st = operation NotGiven op -> (forall p, about st p <-> p = path) -> delivers rest sha512 want_diff op mode owner group path content -> small content ->
    c_string path -> absolute path -> feasible s0 base (reqs ++ [asking owner group mode None]) -> canonical (s_file_mode base) ->
    octal_below 1024 (wanted s_file_mode base (reqs ++ [asking owner group mode None])) -> step_fine.
  Proof.
    intros Hdo Hab Hop Hsm Hp Ha Hfe Hcan Hlow. apply absolute_isabs in Ha. apply delivers_plain in Hop.
    apply (single_fine rest sha512 path is_file s_file_mode (content_conf content) (content_good sha512 content) (fun s attr n => content_match sha512 content s (s_file_mode attr) attr n) (small content) _ _ _
      Hop (fun d => remotely_content rest sha512 want_diff content path d) file_msel (fun attr s c x c' a b => content_body_cap rest sha512 want_diff content attr s c x c' a b path)
      (content_fields sha512 content) (content_final sha512 content) (fun s pl n => content_facts sha512 content s pl n Hsm) (fun d => sound_content _ _ _ _ _ _ _ Hsm) (fun d => frugal_content _ _ _ _ _ _ _) (content_bits sha512 content) (fun _ H _ => H) Hp Ha Hsm Hha); assumption.
  Qed.
  Lemma link_fine path target owner group : does st = operation NotGiven (link exec sha512 false path target true false owner group) -> (forall p, about st p <-> p = path) ->
    (forall s, now st s -> linkable s path target) ->
    c_string path -> absolute path -> c_string target -> target <> [] -> feasible s0 base (reqs ++ [asking owner group None None]) -> step_fine.
  Proof.
    intros Hdo Hab Hnow Hp Ha Hct Htg Hfe c res c1 (Hrd & Hfl & Hb & Hof & Hgr) Hn E. apply absolute_isabs in Ha. rewrite Hdo in E. specialize (Hnow _ Hn).
    assert (Hcl : clear (sysof c) path target).
    { destruct Hnow as [(A1 & A3)|A]; [left|right; exact A]. split; [exact A3|]. apply none_enterable; auto; [apply Hp|]. intros ->. discriminate Ha. }
    destruct (op_states rest sha512 path _ _ _ (link_form rest sha512 path target true false owner group Htg) (fun d => remotely_link rest sha512 _ _ _ _ d) (fun d => sound_link _ _ _ _ _ _ _ _ (proj1 Hct)) (fun d => frugal_link _ _ _ _ _ _ _ _) c _ c1 reqs Hrd Hfl E)
      as (Hset & Hos1 & Hfl1 & Hsu).
    destruct (link_any rest sha512 NotGiven c _ c1 reqs path target false owner group Htg Hcl Hrd (tame_honest _ Hfl) Hp E) as [_ H].
    destruct (H res eq_refl (Hsu res eq_refl)) as (_ & attr & x & y & pl & n & Hse & Hacc & Hsit & Hc & (Hk & Hgo & _) & _). clear H.
    assert (Hg : good_owner attr x y n).
    { destruct Hgo as [Hgo|(n0 & t & G1 & G2 & G3 & _)]; [exact Hgo|exfalso]. destruct Hnow as [(A1 & _)|(pl' & n' & A1 & A2)]; [unfold sees_none in A1; congruence|].
      unfold sees in A1. rewrite A1 in G1. injection G1 as -> ->. congruence. }
    assert (Hof1 := sits_only _ _ _ _ _ Hsit).
    assert (Hg1 : grows (o_fs (sysof c)) (o_fs (sysof c1))).
    { eapply sits_grows; [exact Hsit|]. intros n0 E0. unfold link_conf in Hc. rewrite E0 in Hc. destruct Hc as (C1 & t & C2 & _).
      destruct Hnow as [(A1 & _)|(pl' & n' & A1 & A2)]; [unfold sees_none in A1; congruence|]. unfold sees in A1. rewrite A1 in C1. injection C1 as -> ->. unfold shape. rewrite Hk, A2. reflexivity. }
    split; [exact Hset|]. split.
    { split; [eapply ready_step; eassumption|]. split; [exact Hfl1|]. split; [rewrite Hset; exact Hb|]. split; [eapply only_files_trans; eassumption|eapply grows_trans; eassumption]. }
    split; [exact Hg1|]. exists (fun p => p = pl). split.
    { intros p Hpl. destruct Hsit as (_ & -> & _). apply lookup_insert_ne. congruence. }
    split.
    { intros p ->. exists path, n. split; [apply Hab; reflexivity|]. apply Hsit. }
    intros c2 (Hrd2 & Hfl2 & Hb2 & Hof2 & Hgr2) Hhl2 Hg2 Hsame Hbits r c3 E2. rewrite Hdo in E2.
    assert (Hsee : sees (sysof c2) path pl n).
    { destruct Hsit as (_ & Hins & Hs). eapply resolve_node_grows; [exact Hg2|exact Hs|]. rewrite Hsame; [|reflexivity]. rewrite Hins. apply lookup_insert. }
    assert (Hfe2 : feasible (sysof c2) (c_base c2) (reqs ++ [want owner group None None])) by (rewrite Hb2; eapply feasible_grows; eassumption).
    destruct (link_works rest sha512 NotGiven c2 r c3 reqs path target false owner group) as
      (Hset2 & res2 & attr2 & -> & Hsu2 & Hhl3 & Hse2 & Hch2 & x2 & y2 & pl2 & n2 & _ & _ & _ & _ & Hun2); auto; [right; exists pl, n; auto|right; exists pl, n; split; [exact Hsee|exists target; exact Hk]|].
    exists res2. split; [reflexivity|].
    assert (Hse0 : settles s0 base (reqs ++ [want owner group None None]) attr) by (rewrite <- Hb; apply (settles_files _ _ _ _ _ Hof); exact Hse).
    assert (Hse20 : settles s0 base (reqs ++ [want owner group None None]) attr2) by (rewrite <- Hb2; apply (settles_files _ _ _ _ _ Hof2); exact Hse2).
    assert (attr2 = attr) as -> by (eapply settles_unique; [exact Hac|exact Hun|exact Hse20|exact Hse0]).
    assert (Hch : or_changed res2 = false).
    { apply Hch2. exists pl, n. split; [exact Hsee|]. split; [|reflexivity].
      split; [exact Hk|]. destruct Hg as [G1 G2], Hacc as (A1 & A2 & A3 & A4), Hun as [U1 U2]. rewrite (only_files_passwd _ _ Hof) in A1. rewrite (only_files_group _ _ Hof) in A2. unfold seen_owner, seen_group, statres_of, getpwuid, getgrgid. cbn [fmap option_fmap option_map st_owner st_group].
      rewrite (only_files_passwd _ _ Hof2), (only_files_group _ _ Hof2), G1, G2, (find_id pw_uid _ _ U1 A1), (find_id gr_gid _ _ U2 A2), A3, A4. auto. }
    split; [exact Hch|]. apply same_again; auto.
  Qed.
  Lemma items_less ns dm fm owner group : Forall file_name ns -> ns <> [] -> forall l o x c c', (forall it, it ∈ l -> Forall file_name (rel_of it)) ->
    do_items rest sha512 want_diff ns dm fm owner group l o c = (x, c') -> less (sysof c) (sysof c').
  Proof.
    intros Hns Hne. induction l as [|it l IH]; intros o x c c' Hl E; [injection E as <- <-; apply less_refl|].
    cbn [Tree_run.do_items] in E.
    assert (Hit : forall r c1, operation NotGiven (item_op rest sha512 want_diff ns dm fm owner group it) c = (r, c1) -> less (sysof c) (sysof c1)).
    { intros r c1 E1. assert (H : frugal (operation NotGiven (item_op rest sha512 want_diff ns dm fm owner group it))).
      { eapply frugal_operation; [exact (item_plain rest sha512 want_diff ns dm fm owner group Hns Hne it (Hl it (elem_of_list_here _ _)))|]. apply frugal_bind; [apply frugal_check|]. intros _. apply frugal_defaults. intros d. destruct it; [apply frugal_dir|apply frugal_content]. }
      specialize (H c). rewrite E1 in H. exact H. }
    apply obind_spec in E as [(res & o1 & c1 & E1 & E)|(e & E1 & ->)].
    - apply bind_spec in E1 as [(res' & c2 & E1 & E2)|(e & E1 & [=])]. injection E2 as <- <- <-. eapply less_trans; [eapply Hit; exact E1|].
      apply obind_spec in E as [([] & o2 & c3 & E2 & E)|(e & E2 & ->)].
      + change (add_nested_result (item_path ns it) res') with (call_ (CAdd (item_path ns it) res')) in E2. apply call_spec in E2 as (-> & _). eapply IH; [|exact E]. intros i Hi. apply Hl. right. exact Hi.
      + unfold add_nested_result in E2. rewrite getO_bind in E2. destruct (negb (op_nested _)); [injection E2 as _ <-; apply less_refl|]. cbv zeta in E2. destruct (_ || _); [injection E2 as _ <-; apply less_refl|discriminate E2].
    - apply bind_spec in E1 as [(res' & c2 & E1 & [=])|(e' & E1 & _)]. eapply Hit. exact E1.
  Qed.
  Lemma tree_fine t src dest ns dm fm owner group : does st = operation NotGiven (upload_dir exec sha512 false want_diff (Some t) src dest dm fm owner group) ->
    (forall p, about st p <-> exists rel, sent t rel /\ p = path_of (ns ++ rel)) ->
    transfer t src dest ns -> canonical_base base ->
    feasible s0 base (reqs ++ [asking owner group None dm]) -> feasible s0 base (reqs ++ [asking owner group fm None]) ->
    octal_below 1024 (wanted s_dir_mode base (reqs ++ [asking owner group None dm])) -> octal_below 1024 (wanted s_file_mode base (reqs ++ [asking owner group fm None])) -> step_fine.
  Proof.
    intros Hdo Hab Ht [Hcf Hcd] F1 F2 B1 B2 c res c1 (Hrd & Hfl & Hb & Hof & Hgr) _ E. rewrite Hdo in E.
    assert (Hh := tame_honest _ Hfl).
    destruct (tree_items rest sha512 want_diff t src dest ns dm fm owner group NotGiven c _ c1 Ht E) as (x & Ed & Hres & _). destruct (Hres res eq_refl) as (o' & i & f & -> & Hi & Hf & ->).
    assert (Hok := transfer_items t src dest ns Ht). assert (HT := Ht). destruct Ht as (T1 & T2 & T3 & T4 & T5 & T6 & T7 & T8).
    destruct (plan_any rest sha512 want_diff ns dm fm owner group T4 T5 c reqs _ (Op true None None []) _ c1 (plan_chained t) (plan_nodup t T2) Hok Hrd Hh Ed) as [_ H].
    change (IDir [] :: _) with (plan t) in H. destruct (H o' eq_refl) as ((P & Hinv) & _). clear H.
    assert (Hpl := plan_sees sha512 t src dest ns dm fm owner group c reqs P c1 HT Hinv).
    assert (Hfl1 : o_faults (sysof c1) = []).
    { assert (H := items_less ns dm fm owner group T4 T5 _ _ _ _ _ (fun it Hin => proj1 (Hok it Hin)) Ed). unfold less in H. rewrite Hfl in H. apply suffix_nil_inv in H. exact H. }
    destruct Hinv as (Hset & Hrd1 & Hh1 & ((m & M1 & M2) & Hof1 & Hg1 & Hout) & _).
    assert (Hb1 : c_base c1 = base) by (rewrite Hset; exact Hb).
    split; [exact Hset|]. split.
    { split; [exact Hrd1|]. split; [exact Hfl1|]. split; [exact Hb1|]. split; [eapply only_files_trans; eassumption|eapply grows_trans; eassumption]. }
    split; [exact Hg1|]. exists (fun pl => exists it, it ∈ plan t /\ pl = rev (rel_of it) ++ P). split.
    { intros pl Hpl'. apply Hout. intros it Hit Eq. apply Hpl'. eauto. }
    split.
    { intros pl (it & Hit & ->). destruct (Hpl it Hit) as (n & N1 & _). exists (path_of (ns ++ rel_of it)), n. split; [|exact N1]. apply Hab. exists (rel_of it). split; [apply sent_plan; eauto|reflexivity]. }
    intros c2 (Hrd2 & Hfl2 & Hb2 & Hof2 & Hgr2) Hhl2 Hg2 Hsame Hbits r c3 E2. rewrite Hdo in E2.
    assert (Hun2 : unaliased (sysof c2)) by (unfold unaliased; rewrite (only_files_passwd _ _ Hof2), (only_files_group _ _ Hof2); exact Hun).
    assert (Hfe : forall it, feasible (sysof c2) (c_base c2) (reqs ++ [item_q dm fm owner group it])).
    { intros it. rewrite Hb2. eapply feasible_grows; [exact Hof2|exact Hgr2|]. destruct it; [exact F1|exact F2]. }
    assert (Hpl2 : forall it, it ∈ plan t -> exists n, sees (sysof c2) (path_of (ns ++ rel_of it)) (rev (rel_of it) ++ P) n /\ made sha512 dm fm owner group it s0 base reqs n).
    { intros it Hit. destruct (Hpl it Hit) as (n & N1 & attr & N2 & (u & g & U1 & U2 & U3) & N3). exists n. split.
      - eapply resolve_node_grows; [exact Hg2|exact N1|]. rewrite Hsame; [|eauto]. apply resolve_node_split in N1 as [_ N1]. exact N1.
      - exists attr. split; [rewrite <- Hb; apply (settles_files _ _ _ _ _ Hof); exact N2|]. split; [|exact N3].
        exists u, g. rewrite (only_files_passwd _ _ Hof) in U1. rewrite (only_files_group _ _ Hof) in U2. auto. }
    destruct (sees_grows _ _ _ _ _ Hg2 M1) as (m2 & M3). assert (HP : resolve (o_fs (sysof c2)) [] (path_of ns) false = Ok P) by (apply resolve_node_split in M3 as [M3 _]; exact M3).
    assert (Hgo : exists res2, r = Ok res2).
    { assert (Hat' : attainable (fun k => k = KDir) (sysof c2) (path_of ns)).
      { right. destruct (Hpl2 (IDir [])) as (n & N1 & attr & _ & _ & N2 & _); [left|]. exists P, n. rewrite app_nil_r in N1. split; [exact N1|exact N2]. }
      assert (Hw := C53_works rest sha512 want_diff NotGiven c2 r c3 reqs t src dest ns dm fm owner group HT Hrd2 Hhl2 Hha Hun2 (Hfe (IDir [])) (Hfe (IFile [] [])) Hat').
      destruct Hw as (res2 & -> & _); [|exact E2|exists res2; reflexivity].
      intros Q rel sub n HQ Hs Hn0 Hn. assert (Q = P) as -> by congruence.
      split.
      - intros Hd. destruct (Hpl2 (IDir rel)) as (k & K1 & K2); [apply plan_in; [exact T1|]; exists sub; auto|]. apply resolve_node_split in K1 as [_ K1]. cbn [rel_of] in K1. rewrite Hn in K1. injection K1 as <-. destruct K2 as (_ & _ & _ & K2 & _). exact K2.
      - intros b Hd. destruct (Hpl2 (IFile rel b)) as (k & K1 & K2); [apply plan_in; [exact T1|]; exists sub; auto|]. apply resolve_node_split in K1 as [_ K1]. cbn [rel_of] in K1. rewrite Hn in K1. injection K1 as <-. destruct K2 as (_ & _ & _ & (d & K2 & _) & _). exists d. exact K2. }
    destruct Hgo as (res2 & ->). exists res2. split; [reflexivity|].
    destruct (tree_items rest sha512 want_diff t src dest ns dm fm owner group NotGiven c2 _ c3 HT E2) as (x & Ed2 & Hres2 & _). destruct (Hres2 res2 eq_refl) as (o2 & i2 & f2 & -> & Hi2 & Hf2 & ->).
    destruct (items_again rest sha512 want_diff ns dm fm owner group T4 T5 s0 c2 reqs (plan t) Hrd2 Hhl2 Hha Hof2 Hun) with (o := Op true None None []) (x := Ok (tt, o2)) (c' := c3) as [-> Hrs]; [|exact Ed2|].
    { intros it Hit. split; [auto|]. split; [auto|]. split.
      - split; rewrite Hb2; destruct it; assumption.
      - destruct (Hpl2 it Hit) as (n & N1 & N2). exists (rev (rel_of it) ++ P), n. split; [exact N1|]. split; [rewrite Hb2; exact N2|].
        eapply Hbits; [|exact N1]. apply Hab. exists (rel_of it). split; [apply sent_plan; eauto|reflexivity]. }
    destruct (Hrs o2 eq_refl) as (rs & (L1 & L2 & L3 & L4) & Hall). rewrite Hi2 in L3. rewrite Hf2 in L4. cbn [default from_option id op_initial op_final app] in L3, L4. subst i2 f2.
    split; [|reflexivity]. cbn [or_changed]. apply negb_false_iff. apply entries_equal; auto.
    apply (item_paths_nodup ns T4); [|apply plan_nodup; exact T2]. intros it Hit. apply Hok. exact Hit.
  Qed.
End steps.
