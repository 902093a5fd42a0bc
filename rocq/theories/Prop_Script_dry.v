(** C74: a deploy script that is only tried (--dry) tells what carrying it out tells. *)
From Coq Require Import Lia ZifyBool ZifyN ZifyNat.
From stdpp Require Import gmap.
From Verif Require Import Base Utf8 Codec Spec_Codec Codec_proofs Paths Sys Spec_Sys Sys_proofs Dispatcher Client Spec_Remote Remote_run Direct Control Spec_Control Control_proofs Control_settle Prop_Control Op Spec_Op Op_proofs Coreutils Files Walk_proofs Files_plain Spec_Files Shell_proofs Thrift Steps Dir_proofs Transfer Converge Content_proofs Spec_Link Link_walk Link_proofs Remote_examples Files_examples Sound Frugal Spec_Tree Tree_proofs Prop_Files Prop_Content Prop_Link Tree_run Prop_Tree Tree_dry Prop_Tree_again Spec_Script Script_proofs Script_proofs Spec_Script Prop_Script Tree_dry Dry_proofs Dry_files Upward Rerun_proofs Spec_Line Prop_Line Script_line Script_dry System Shadow Prop_Account.
Local Open Scope nat_scope.

Section script.
  Variable rest : proc -> M xres.
  Variable sha512 : bytes -> bytes.
  Variable want_diff : bool.
  Variable search : bool -> pystr -> pystr -> result bool.
  Variable date : pystr.
  Notation exec := (coreutils rest).
  Notation does := (does rest sha512 want_diff search date).
  (** [dop] is the call [op] (which puts [content] at [path]) with --dry. *)
  Definition twins (op dop : O opres) (path : pystr) (content : bytes) (mode owner group : option pystr) : Prop :=
    (exists arg, op = upload_content exec sha512 false want_diff arg path mode owner group /\ dop = upload_content exec sha512 true want_diff arg path mode owner group /\
       (arg = inl content \/ exists t, arg = inr t /\ utf8_encode t = Some content)) \/
    (exists src dest, op = upload_file exec sha512 false want_diff (Ok content) src dest mode owner group /\ dop = upload_file exec sha512 true want_diff (Ok content) src dest mode owner group /\
       absolute dest /\ lands src dest path) \/
    (exists render t, op = template_content exec sha512 false want_diff render t path mode owner group /\ dop = template_content exec sha512 true want_diff render t path mode owner group /\
       render t = inr (Ok content)) \/
    (exists render t src dest, op = template exec sha512 false want_diff render (Ok t) src dest mode owner group /\ dop = template exec sha512 true want_diff render (Ok t) src dest mode owner group /\
       absolute dest /\ lands src dest path /\ render t = inr (Ok content)).
  (** The call that a step makes with --dry. *)
  Definition dry_call (st : step) (dop : O opres) : Prop :=
    match st with
    | Directory path mode owner group => dop = directory exec sha512 true path true false mode owner group
    | File path mode owner group => dop = file exec sha512 true path true false mode owner group
    | Put op path content mode owner group => twins op dop path content mode owner group
    | Link path target owner group => dop = link exec sha512 true path target true false owner group
    | Tree t src dest _ dm fm owner group => dop = upload_dir exec sha512 true want_diff (Some t) src dest dm fm owner group
    | Line path text present ws => dop = line exec sha512 true want_diff search date path text present None ws (inl false)
    end.
  (** The values that are asked for can be had. *)
  Definition callable (s : os) (base : settings) (reqs : list settings) (st : step) : Prop :=
    match st with
    | Directory path mode owner group => c_string path /\ absolute path /\ feasible s base (reqs ++ [asking owner group None mode])
    | File path mode owner group => c_string path /\ absolute path /\ feasible s base (reqs ++ [asking owner group mode None])
    | Put _ path content mode owner group => small content /\ c_string path /\ absolute path /\ feasible s base (reqs ++ [asking owner group mode None])
    | Link path target owner group => c_string path /\ absolute path /\ c_string target /\ target <> [] /\ feasible s base (reqs ++ [asking owner group None None])
    | Tree t src dest ns dm fm owner group => transfer t src dest ns /\ feasible s base (reqs ++ [asking owner group None dm]) /\ feasible s base (reqs ++ [asking owner group fm None])
    | Line path text present ws => c_string path /\ absolute path /\ feasible s base (reqs ++ [no_settings])
    end.

  Lemma twins_delivers op dop path content mode owner group : twins op dop path content mode owner group -> delivers rest sha512 want_diff op mode owner group path content.
  Proof.
    intros [(arg & H1 & _ & H2)|[(src & dest & H1 & _ & H2 & H3)|[(render & t & H1 & _ & H2)|(render & t & src & dest & H1 & _ & H2 & H3 & H4)]]]; [left; exists arg|right; left; exists src, dest|right; right; left; exists render, t|right; right; right; exists render, t, src, dest]; auto.
  Qed.
  Lemma twins_predict op dop path content mode owner group : twins op dop path content mode owner group -> predicts op dop.
  Proof.
    intros [(arg & -> & -> & _)|[(src & dest & -> & -> & _)|[(render & t & -> & -> & _)|(render & t & src & dest & -> & -> & _)]]];
      [apply predicts_upload_content|apply predicts_upload_file|apply predicts_template_content|apply predicts_template].
  Qed.
  Lemma twins_plain op dop path content mode owner group : twins op dop path content mode owner group ->
    yields dop new_op (_ ← check_absolute_path path; script_defaults exec sha512 (want owner group mode None) (content_body exec sha512 true want_diff content path)).
  Proof.
    assert (Hsave : forall p, isabs p = true -> yields (save_content exec sha512 true want_diff content p mode owner group) new_op
      (_ ← check_absolute_path p; script_defaults exec sha512 (want owner group mode None) (content_body exec sha512 true want_diff content p))).
    { intros p Hp. eapply yields_ext; [apply save_plain|]. intros c. destruct (check_path p c) as [[_ Hc]|[Hf _]]; [|congruence]. rewrite (bind_works _ _ _ _ _ Hc). reflexivity. }
    intros [(arg & _ & -> & Harg)|[(src & dest & _ & -> & Hab & Hl)|[(render & t & _ & -> & Hr)|(render & t & src & dest & _ & -> & Hab & Hl & Hr)]]].
    - unfold upload_content. eapply yields_bind; [apply keeps_lift|]. intros [].
      eapply yields_pure; [|apply save_plain]. destruct Harg as [-> |(t & -> & Ht)]; [intros c; reflexivity|]. intros c. cbn [encoded]. rewrite Ht. reflexivity.
    - unfold upload_file. apply lands_into in Hl. assert (Hp := into_absolute src dest Hab). rewrite Hl in *. apply absolute_isabs in Hab, Hp.
      eapply yields_pure; [|eapply yields_pure; [|apply Hsave; exact Hp]]; [|intros c; reflexivity].
      intros c. unfold olift. destruct (check_path dest c) as [[_ Hc]|[Hf _]]; [|congruence]. unfold mbind, W_bind. rewrite Hc. reflexivity.
    - unfold template_content. eapply yields_bind; [apply keeps_lift|]. intros [].
      eapply yields_pure; [|apply save_plain]. rewrite Hr. intros c. reflexivity.
    - unfold template. apply lands_into in Hl. assert (Hp := into_absolute src dest Hab). rewrite Hl in *. apply absolute_isabs in Hab, Hp.
      eapply yields_pure; [|eapply yields_pure; [|eapply yields_pure; [|apply Hsave; exact Hp]]]; [|intros c; reflexivity|rewrite Hr; intros c; reflexivity].
      intros c. unfold olift. destruct (check_path dest c) as [[_ Hc]|[Hf _]]; [|congruence]. unfold mbind, W_bind. rewrite Hc. reflexivity.
  Qed.

  (** the script as pairs of the call and the call with --dry *)
  Lemma play_pairs (l : list step) (d : list (O opres)) : length l = length d ->
    play (step * O opres) (fun x => does x.1) (zip l d) = play step does l /\ play (step * O opres) (fun x => operation NotGiven x.2) (zip l d) = play (O opres) (operation NotGiven) d.
  Proof.
    revert d. induction l as [|st l IH]; intros [|y d] Hl; try discriminate Hl; [split; reflexivity|]. injection Hl as Hl. destruct (IH d Hl) as [E1 E2].
    cbn [zip zip_with play]. rewrite E1, E2. split; reflexivity.
  Qed.
  Lemma turn_pairs l : forall d c, length l = length d -> in_turn step does now l c -> in_turn (step * O opres) (fun x => does x.1) (fun x => now x.1) (zip l d) c.
  Proof.
    induction l as [|st l IH]; intros [|y d] c Hl H; try discriminate Hl; [exact I|]. injection Hl as Hl. destruct H as [H1 H2]. cbn [zip zip_with in_turn]. split; [exact H1|].
    intros res c1 E. apply IH; [exact Hl|]. eapply H2. exact E.
  Qed.
  Lemma apart_pairs s l : forall d, length l = length d -> apart step about s l -> apart (step * O opres) (fun x => about x.1) s (zip l d).
  Proof.
    induction l as [|st l IH]; intros [|y d] Hl H; try discriminate Hl; [exact I|]. injection Hl as Hl. destruct H as [H1 H2]. cbn [zip zip_with apart]. split; [|apply IH; assumption].
    intros st' p q pl n m Hi. apply (H1 st'.1). destruct st' as [a b]. apply elem_of_zip_l in Hi. exact Hi.
  Qed.

  (** Full statement: with --dry, a script reports for each of its operations what it reports when it is carried out, and changes nothing.
      Missing: scripts in which two steps are about the same file ([C74_dry_refuted]); paths that lead to a file that is already there, but
      only once an earlier step has made a part of the way ([C74_detour_refuted]); steps that need an account or a directory which an
      earlier step creates ([C74_account_refuted], [C74_cwd_refuted]). *)
  Theorem C74_dry_partial l dl c rs c' reqs :
    ready c reqs -> healthy c -> hash_ok sha512 -> unaliased (sysof c) ->
    Forall (callable (sysof c) (c_base c) reqs) l -> Forall2 dry_call l dl -> in_turn step does now l c ->
    play step does l c = (Ok rs, c') -> r_link (c_remote c') = Up ->
    apart step about (sysof c') l ->
    (forall st p pl n, st ∈ l -> about st p -> (forall q m, ~ sees (sysof c) p q m) -> sees (sysof c') p pl n -> o_fs (sysof c) !! pl = None) ->
    play (O opres) (operation NotGiven) dl c = (Ok rs, c).
  Proof.
    intros Hrd Hhl Hha Hun Hcall Hdry Hin E Hup Hap Hnew. assert (Hlen := Forall2_length _ _ _ Hdry). destruct (play_pairs l dl Hlen) as [P1 P2]. rewrite <- P2. rewrite <- P1 in E.
    assert (Hb : Forall (block c reqs (step * O opres) (fun x => does x.1) (fun x => operation NotGiven x.2) (fun x => about x.1) (fun x => now x.1)) (zip l dl)).
    { apply Forall_forall. intros [st dop] Hi. assert (Hst := elem_of_zip_l _ _ _ _ Hi). rewrite Forall_forall in Hcall. specialize (Hcall st Hst).
      assert (Hd : dry_call st dop).
      { apply elem_of_list_lookup in Hi as (i & Hi). apply lookup_zip_with_Some in Hi as (a & b & [= -> ->] & I1 & I2). eapply Forall2_lookup_lr; eassumption. }
      destruct st as [path mode owner group|path mode owner group|op path content mode owner group|path target owner group|t src dest ns dm fm owner group|path text present ws]; cbn [dry_call callable] in Hd, Hcall.
      - destruct Hcall as (W1 & W2 & W3). subst dop. apply (atom_block c reqs _ _ _ _ _ _ path); [reflexivity|]. apply (directory_atom rest sha512 Hha c reqs Hrd Hhl Hun); assumption.
      - destruct Hcall as (W1 & W2 & W3). subst dop. apply (atom_block c reqs _ _ _ _ _ _ path); [reflexivity|]. apply (file_atom rest sha512 Hha c reqs Hrd Hhl Hun); assumption.
      - destruct Hcall as (W0 & W1 & W2 & W3). apply (atom_block c reqs _ _ _ _ _ _ path); [reflexivity|].
        apply (content_atom rest sha512 want_diff Hha c reqs Hrd Hhl Hun op dop path content mode owner group); [assumption..|apply absolute_isabs; exact W2|exact W3| | |].
        + apply delivers_plain. eapply twins_delivers. exact Hd.
        + eapply twins_plain. exact Hd.
        + eapply twins_predict. exact Hd.
      - destruct Hcall as (W1 & W2 & W3 & W4 & W5). subst dop. apply (atom_block c reqs _ _ _ _ _ _ path); [reflexivity|]. apply (link_atom rest sha512 Hha c reqs Hrd Hhl Hun); auto.
      - destruct Hcall as (W1 & W2 & W3). subst dop. eapply (tree_block rest sha512 want_diff Hha c reqs Hrd Hhl Hun) with (ns := ns); [reflexivity|reflexivity|cbn [fst about]; reflexivity|eassumption..].
      - destruct Hcall as (W1 & W2 & W3). subst dop. apply (atom_block c reqs _ _ _ _ _ _ path); [reflexivity|]. apply (line_atom rest sha512 want_diff Hha c reqs Hrd Hhl Hun); auto. }
    eapply (blocks_tell c reqs (step * O opres) _ _ _ _ _ Hb c rs c'); [|apply turn_pairs; assumption|exact E|exact Hup|apply apart_pairs; assumption|].
    - split; [exact Hrd|]. split; [apply Hhl|]. split; [reflexivity|]. split; [apply only_files_refl|]. intros p n Hn. exists n. auto.
    - intros [st dop] p Hi Hp. apply elem_of_zip_l in Hi. intros pl n Hs. split; [reflexivity|]. intros Hno. eapply Hnew; eassumption.
  Qed.
End script.
Print Assumptions C74_dry_partial.

(** ** Where it fails *)
Definition ex_dry_put (b : bytes) (path : pystr) : O opres := upload_content (coreutils echo) fake_hash true true (inl b) path m755 alice None.
Notation ex_play := (play step ex_does).
Notation ex_try := (play (O opres) (operation NotGiven)).
Lemma ex_callable_put b path : small b -> c_string path -> absolute path -> callable (sysof on_site) (c_base on_site) [] (ex_put b path).
Proof. intros Hb Hp Ha. split; [exact Hb|]. split; [exact Hp|]. split; [exact Ha|]. apply ex_file. Qed.
Lemma ex_dry_of b path : dry_call echo fake_hash true literally today (ex_put b path) (ex_dry_put b path).
Proof. left. exists (inl b). auto. Qed.

(** Full statement (false): with --dry, a script reports for each of its operations what it reports when it is carried out.  Two steps
    put the same content at the same path: the second has nothing to do any more, unless the first is only tried. *)
Theorem C74_dry_refuted : exists c l dl rs c' rs2, ready c [] /\ healthy c /\ Forall (callable (sysof c) (c_base c) []) l /\ Forall2 (dry_call echo fake_hash true literally today) l dl /\
  in_turn step ex_does now l c /\ ex_play l c = (Ok rs, c') /\ r_link (c_remote c') = Up /\ ex_try dl c = (Ok rs2, c) /\
  map or_changed rs = [true; false] /\ map or_changed rs2 = [true; true].
Proof.
  set (l := [ex_put (blit "one") p_file; ex_put (blit "one") p_file]). set (dl := [ex_dry_put (blit "one") p_file; ex_dry_put (blit "one") p_file]).
  exists on_site, l, dl, (results_of (ex_play l on_site)), (snd (ex_play l on_site)), (results_of (ex_try dl on_site)).
  split; [exact site_ready|]. split; [exact site_healthy|]. split.
  { each; apply ex_callable_put; [unfold small; vm_compute; reflexivity|split; [text|dec]|eexists; reflexivity..|unfold small; vm_compute; reflexivity|split; [text|dec]|eexists; reflexivity]. }
  split; [constructor; [apply ex_dry_of|constructor; [apply ex_dry_of|constructor]]|]. split; [repeat (split; [exact I|]; intros); exact I|]. split; [ran_all|]. split; [vm_compute; reflexivity|]. split; [|split; vm_compute; reflexivity].
  rewrite (surely_all (ex_try dl on_site)) at 1; [f_equal; vm_compute; reflexivity|vm_compute; discriminate].
Qed.
Print Assumptions C74_dry_refuted.

(** The same for steps about different files: the way to the file leads through a directory that the first step creates. *)
Definition p_detour : pystr := lit "/srv/old/web/../../run".
Theorem C74_detour_refuted : exists c l dl rs c' rs2, ready c [] /\ healthy c /\ Forall (callable (sysof c) (c_base c) []) l /\ Forall2 (dry_call echo fake_hash true literally today) l dl /\
  in_turn step ex_does now l c /\ ex_play l c = (Ok rs, c') /\ r_link (c_remote c') = Up /\ apart step about (sysof c') l /\ ex_try dl c = (Ok rs2, c) /\
  map or_changed rs = [true; true] /\ map or_initial rs <> map or_initial rs2.
Proof.
  set (l := [Directory p_web m755 alice None; File p_detour m755 alice None]).
  set (dl := [directory (coreutils echo) fake_hash true p_web true false m755 alice None; file (coreutils echo) fake_hash true p_detour true false m755 alice None]).
  exists on_site, l, dl, (results_of (ex_play l on_site)), (snd (ex_play l on_site)), (results_of (ex_try dl on_site)).
  split; [exact site_ready|]. split; [exact site_healthy|]. split.
  { each; (split; [split; [text|dec]|]); (split; [eexists; reflexivity|]); [apply ex_dir|apply ex_file]. }
  split; [constructor; [reflexivity|constructor; [reflexivity|constructor]]|]. split; [repeat (split; [exact I|]; intros); exact I|]. split; [ran_all|]. split; [vm_compute; reflexivity|]. split.
  { split; [|split; [|exact I]; intros st' p q pl n m Hi; inversion Hi]. intros st' p q pl n m Hi Hp Hq Hs Hs'. apply elem_of_list_singleton in Hi as ->. cbn [about] in Hp, Hq. subst p q.
    apply spot_seen in Hs, Hs'. assert (X : (fst <$> spot_at (sysof (snd (ex_play l on_site))) p_web) <> (fst <$> spot_at (sysof (snd (ex_play l on_site))) p_detour)) by (vm_compute; discriminate).
    apply X. rewrite Hs, Hs'. reflexivity. }
  split; [|split; [vm_compute; reflexivity|vm_compute; discriminate]].
  rewrite (surely_all (ex_try dl on_site)) at 1; [f_equal; vm_compute; reflexivity|vm_compute; discriminate].
Qed.
Print Assumptions C74_detour_refuted.

(** Full statement (false): a script that runs through also runs through with --dry.  The first step creates an account, the second a
    directory that belongs to it. *)
Definition make_carol (dry : bool) : O opres := user (coreutils shadow) fake_hash dry carol true None None None true false None None None None.
Definition carols (dry : bool) : O opres := directory (coreutils shadow) fake_hash dry p_web true false m755 (Some carol) None.
Theorem C74_account_refuted : exists c rs c' e, fine c /\ ex_try [make_carol false; carols false] c = (Ok rs, c') /\ map or_success rs = [true; true] /\
  ex_try [make_carol true; carols true] c = (Err e, c) /\ is_ValueError e = true.
Proof.
  set (f := ex_try [make_carol false; carols false]).
  exists office, (results_of (f office)), (snd (f office)), (match fst (ex_try [make_carol true; carols true] office) with Err e => e | Ok _ => Blocked end).
  split; [exact office_fine|]. split; [ran_all|]. split; [vm_compute; reflexivity|]. split; vm_compute; reflexivity.
Qed.
Print Assumptions C74_account_refuted.

(** The same with a directory that is to be the working directory of the commands that follow. *)
Definition in_web : settings := Settings None None None None None None None (Some p_web).
Definition enter (dry : bool) : W (opres * unit) := r ← operation NotGiven (directory (coreutils echo) fake_hash dry p_web true false m755 alice None);
  _ ← script_defaults (coreutils echo) fake_hash in_web (fun _ => mret tt); mret (r, tt).
Theorem C74_cwd_refuted : exists c x c' e, ready c [] /\ healthy c /\ enter false c = (Ok x, c') /\ enter true c = (Err e, c) /\ is_ValueError e = true.
Proof.
  exists on_site, (match fst (enter false on_site) with Ok x => x | Err _ => (OpRes false false [] [] None, tt) end), (snd (enter false on_site)), (match fst (enter true on_site) with Err e => e | Ok _ => Blocked end).
  split; [exact site_ready|]. split; [exact site_healthy|]. split; [|split; vm_compute; reflexivity].
  assert (X : forall y : result (opres * unit) * ctl, match fst y with Ok _ => true | Err _ => false end = true -> y = (Ok (match fst y with Ok x => x | Err _ => (OpRes false false [] [] None, tt) end), snd y)).
  { intros [[y|e] c]; cbn; [reflexivity|discriminate]. }
  apply X. vm_compute. reflexivity.
Qed.
Print Assumptions C74_cwd_refuted.

(** ** A case that meets the hypotheses *)
Definition dry_setup : list (O opres) :=
  [ link (coreutils echo) fake_hash true p_lnk p_etc true false alice None; line (coreutils echo) fake_hash true true literally today p_note (lit "x=1") true None true (inl false); directory (coreutils echo) fake_hash true p_web true false m755 alice None; ex_dry_put (blit "hello") p_page;
    file (coreutils echo) fake_hash true p_run true false m755 alice None;
    upload_dir (coreutils echo) fake_hash true true (Some sample) (lit "app") (lit "/srv/old/") m755 m755 alice None ].
Lemma setup_new_ok : forallb (fun x => match spot_at (sysof on_site) (fst x) with Some _ => true | None => bool_decide (o_fs (sysof on_site) !! snd x = None) end) setup_spots = true.
Proof. vm_compute. reflexivity. Qed.
Lemma unseen_spot s p : (forall q m, ~ sees s p q m) -> spot_at s p = None.
Proof. intros H. unfold spot_at. destruct (resolve_node (o_fs s) [] p false) as [[q m]|e] eqn:E; [|reflexivity]. exfalso. exact (H q m E). Qed.
Lemma setup_new p q : (p, q) ∈ setup_spots -> (forall a m, ~ sees (sysof on_site) p a m) -> o_fs (sysof on_site) !! q = None.
Proof.
  intros Hi Hn. assert (Hs := setup_new_ok). rewrite forallb_forall in Hs. apply elem_of_list_In, Hs in Hi. cbn [fst snd] in Hi. rewrite (unseen_spot _ _ Hn) in Hi. apply bool_decide_eq_true in Hi. exact Hi.
Qed.
Lemma ex_well_callable st : well_formed echo fake_hash true (sysof on_site) (c_base on_site) [] st -> callable (sysof on_site) (c_base on_site) [] st.
Proof.
  destruct st; cbn [well_formed callable].
  - intros (H1 & H2 & H3 & _). auto.
  - intros (H1 & H2 & H3 & _). auto.
  - intros (_ & H1 & H2 & H3 & H4 & _). auto.
  - auto.
  - intros (H1 & (H2 & _) & H3 & _). auto.
  - intros (H1 & H2 & _ & H3). auto.
Qed.
Example C74_case : let x := ex_play setup on_site in
  ready on_site [] /\ healthy on_site /\ hash_ok fake_hash /\ unaliased (sysof on_site) /\
  Forall (callable (sysof on_site) (c_base on_site) []) setup /\ Forall2 (dry_call echo fake_hash true literally today) setup dry_setup /\ in_turn step ex_does now setup on_site /\
  x = (Ok (results_of x), snd x) /\ r_link (c_remote (snd x)) = Up /\ apart step about (sysof (snd x)) setup /\
  (forall st p pl n, st ∈ setup -> about st p -> (forall q m, ~ sees (sysof on_site) p q m) -> sees (sysof (snd x)) p pl n -> o_fs (sysof on_site) !! pl = None) /\
  map or_changed (results_of x) = [true; true; true; true; true; true].
Proof.
  destruct C73_case as (H1 & H2 & H3 & H4 & _ & H5 & H6 & H7 & H8 & H9 & _ & H10 & _). intros x.
  split; [exact H1|]. split; [exact H2|]. split; [exact H3|]. split; [exact H4|]. split; [eapply Forall_impl; [exact H5|exact ex_well_callable]|]. split.
  { repeat first [apply List.Forall2_nil|apply List.Forall2_cons]; try reflexivity. apply ex_dry_of. }
  split; [exact H6|]. split; [exact H7|]. split; [exact H8|]. split; [exact H9|]. split; [|exact H10].
  intros st p pl n Hi Hp Hn Hs. destruct (setup_about st p Hi Hp) as (q & Hq). apply mine_spots in Hq. destruct (setup_spot p pl n q Hs Hq) as [-> _]. eapply setup_new; eassumption.
Qed.
