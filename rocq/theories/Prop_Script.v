(** C73: a deploy script that ran through changes nothing when it is run again. *)
From Coq Require Import Lia ZifyBool ZifyN ZifyNat.
From stdpp Require Import gmap.
From Verif Require Import Base Utf8 Codec Spec_Codec Codec_proofs Paths Sys Spec_Sys Sys_proofs Dispatcher Client Spec_Remote Remote_run Direct Control Spec_Control Control_proofs Control_settle Prop_Control Op Spec_Op Op_proofs Coreutils Files Walk_proofs Files_plain Spec_Files Shell_proofs Thrift Steps Dir_proofs Transfer Converge Content_proofs Spec_Link Link_walk Link_proofs Remote_examples Files_examples Sound Frugal Spec_Tree Tree_proofs Prop_Files Prop_Content Prop_Link Tree_run Prop_Tree Tree_dry Prop_Tree_again Spec_Line Prop_Line Spec_Script Script_proofs Script_line.
Local Open Scope nat_scope.

(** ** Scripts *)
(** A step is a call of files.directory, files.file, files.link (present, without touch), of one of the operations that put a content
    at a path ([delivers]: files.upload_content, upload, template_content, template), of files.upload_dir, or of files.line (without
    regular expression and without backup). *)
Inductive step : Type :=
  | Directory (path : pystr) (mode owner group : option pystr)
  | File (path : pystr) (mode owner group : option pystr)
  | Put (op : O opres) (path : pystr) (content : bytes) (mode owner group : option pystr)
  | Link (path target : pystr) (owner group : option pystr)
  | Tree (t : ltree) (src dest : pystr) (ns : list pystr) (dir_mode file_mode owner group : option pystr)
  | Line (path text : pystr) (present ws : bool).

Section script.
  Variable rest : proc -> M xres.
  Variable sha512 : bytes -> bytes.
  Variable want_diff : bool.
  Variable search : bool -> pystr -> pystr -> result bool.
  Variable date : pystr.
  Notation exec := (coreutils rest).
  Definition does (st : step) : W opres :=
    operation NotGiven match st with
    | Directory path mode owner group => directory exec sha512 false path true false mode owner group
    | File path mode owner group => file exec sha512 false path true false mode owner group
    | Put op _ _ _ _ _ => op
    | Link path target owner group => link exec sha512 false path target true false owner group
    | Tree t src dest _ dm fm owner group => upload_dir exec sha512 false want_diff (Some t) src dest dm fm owner group
    | Line path text present ws => line exec sha512 false want_diff search date path text present None ws (inl false)
    end.
  Definition about (st : step) (p : pystr) : Prop :=
    match st with
    | Directory path _ _ _ | File path _ _ _ | Put _ path _ _ _ _ | Link path _ _ _ | Line path _ _ _ => p = path
    | Tree t _ _ ns _ _ _ _ => exists rel, sent t rel /\ p = path_of (ns ++ rel)
    end.
  Definition now (st : step) (s : os) : Prop :=
    match st with Link path target _ _ => linkable s path target | Line path text present _ => editable s path text present | _ => True end.
  (** The values that are asked for can be had, and ask for no set-id bits. *)
  Definition asks_dir (s : os) (base : settings) (reqs : list settings) (mode owner group : option pystr) : Prop :=
    feasible s base (reqs ++ [asking owner group None mode]) /\ octal_below 1024 (wanted s_dir_mode base (reqs ++ [asking owner group None mode])).
  Definition asks_file (s : os) (base : settings) (reqs : list settings) (mode owner group : option pystr) : Prop :=
    feasible s base (reqs ++ [asking owner group mode None]) /\ octal_below 1024 (wanted s_file_mode base (reqs ++ [asking owner group mode None])).
  Definition well_formed (s : os) (base : settings) (reqs : list settings) (st : step) : Prop :=
    match st with
    | Directory path mode owner group => c_string path /\ absolute path /\ asks_dir s base reqs mode owner group
    | File path mode owner group => c_string path /\ absolute path /\ asks_file s base reqs mode owner group
    | Put op path content mode owner group => delivers rest sha512 want_diff op mode owner group path content /\ small content /\ c_string path /\ absolute path /\ asks_file s base reqs mode owner group
    | Link path target owner group => c_string path /\ absolute path /\ c_string target /\ target <> [] /\ feasible s base (reqs ++ [asking owner group None None])
    | Tree t src dest ns dm fm owner group => transfer t src dest ns /\ asks_dir s base reqs dm owner group /\ asks_file s base reqs fm owner group
    | Line path text present ws => c_string path /\ absolute path /\ good_text present ws text /\ feasible s base (reqs ++ [no_settings])
    end.
  Notation play := (play step does).

  (** Full statement: a script that ran through and is run again changes nothing and reports no change.
      Missing: scripts in which two steps are about the same file ([C73_again_refuted]); files with set-id bits, modes of the connection
      that are not written canonically, and accounts that share an id, for which it fails for single steps already (C43, C44, C46); lines with a line break in
      them or with white space around them (C49, C50), and removing a line from a file that is not there. *)
  Theorem C73_again_partial l c rs c' reqs :
    ready c reqs -> healthy c -> hash_ok sha512 -> unaliased (sysof c) -> canonical_base (c_base c) ->
    Forall (well_formed (sysof c) (c_base c) reqs) l -> in_turn step does now l c ->
    play l c = (Ok rs, c') -> r_link (c_remote c') = Up ->
    apart step about (sysof c') l -> (forall st p pl n, st ∈ l -> about st p -> sees (sysof c') p pl n -> N.land (n_mode n) 3072 = 0%N) ->
    exists rs2, play l c' = (Ok rs2, c') /\ length rs2 = length l /\ Forall (fun r => or_changed r = false) rs2.
  Proof.
    intros Hrd Hhl Hha Hun [Hcf Hcd] Hwf Hin E Hup Hap Hbits. destruct Hhl as (_ & Hfl & Hu0).
    assert (Hac : accounts_ok (sysof c)) by apply Hrd.
    assert (Hfine : Forall (step_fine step does about now (sysof c) (c_base c) reqs) l).
    { eapply Forall_impl; [exact Hwf|]. intros st Hw. destruct st as [path mode owner group|path mode owner group|op path content mode owner group|path target owner group|t src dest ns dm fm owner group|path text present ws].
      - destruct Hw as (W1 & W2 & W3 & W4). eapply (directory_fine rest sha512); eauto; reflexivity.
      - destruct Hw as (W1 & W2 & W3 & W4). eapply (file_fine rest sha512); eauto; reflexivity.
      - destruct Hw as (W0 & W0' & W1 & W2 & W3 & W4). eapply (put_fine rest sha512 want_diff); eauto; reflexivity.
      - destruct Hw as (W1 & W2 & W3 & W4 & W5). eapply (link_fine rest sha512); eauto; reflexivity.
      - destruct Hw as (W0 & (W1 & W2) & W3 & W4). eapply (tree_fine rest sha512 want_diff); eauto; [reflexivity..|split; assumption].
      - destruct Hw as (W1 & W2 & W3 & W4). eapply (line_fine rest sha512 want_diff search date); eauto; reflexivity. }
    assert (Hg : going (sysof c) (c_base c) reqs c).
    { split; [exact Hrd|]. split; [exact Hfl|]. split; [reflexivity|]. split; [apply only_files_refl|]. intros p n Hn. exists n. auto. }
    destruct (going_steps step does about now (sysof c) (c_base c) reqs l Hfine c rs c' Hg Hin E) as (Hset & (Hrd' & Hfl' & _ & Hof & _) & _ & _ & Hid).
    apply idle_play. apply Hid; [|exact Hap|].
    - split; [exact Hup|]. split; [exact Hfl'|]. rewrite Hof. exact Hu0.
    - intros st Hi p pl n Ha Hs. eapply Hbits; eassumption.
  Qed.
End script.
Print Assumptions C73_again_partial.

(** ** Where it fails *)
Definition ex_put (b : bytes) (path : pystr) : step := Put (upload_content (coreutils echo) fake_hash false true (inl b) path m755 alice None) path b m755 alice None.
Notation ex_does := (does echo fake_hash true literally today).
Definition results_of (x : result (list opres) * ctl) : list opres := match fst x with Ok r => r | Err _ => [] end.
Lemma surely_all x : results_of x <> [] -> x = (Ok (results_of x), snd x).
Proof. destruct x as [[r|e] c]; cbn; [reflexivity|contradiction]. Qed.
Ltac ran_all := apply surely_all; vm_compute; discriminate.
Lemma ex_canonical : canonical_base ex_base.
Proof. split; [exists 384%N, (lit "600")|exists 448%N, (lit "700")]; (split; [reflexivity|]); apply ex_text; vm_compute; reflexivity. Qed.
Lemma ex_dir : asks_dir (sysof on_site) (c_base on_site) [] m755 alice None.
Proof. split; [apply site_feasible; [right; reflexivity|exact I|exact ex_c755]|apply (octal_below_dec _ _ 493); vm_compute; reflexivity]. Qed.
Lemma ex_file : asks_file (sysof on_site) (c_base on_site) [] m755 alice None.
Proof. split; [apply site_feasible; [right; reflexivity|exact ex_c755|exact I]|apply (octal_below_dec _ _ 493); vm_compute; reflexivity]. Qed.

(** Full statement (false): a script that ran through and is run again changes nothing.  Two steps put different contents at the same
    path: each run writes the file twice. *)
Definition quarrel : list step := [ex_put (blit "one") p_file; ex_put (blit "two") p_file].
Theorem C73_again_refuted : exists c rs c' rs2 c2 l, ready c [] /\ healthy c /\ canonical_base (c_base c) /\ Forall (well_formed echo fake_hash true (sysof c) (c_base c) []) l /\ in_turn step ex_does now l c /\
  play step ex_does l c = (Ok rs, c') /\ play step ex_does l c' = (Ok rs2, c2) /\ map or_changed rs2 = [true; true].
Proof.
  exists on_site. set (f := play step ex_does quarrel). set (c1 := snd (f on_site)). exists (results_of (f on_site)), c1, (results_of (f c1)), (snd (f c1)), quarrel.
  split; [exact site_ready|]. split; [exact site_healthy|]. split; [exact ex_canonical|]. split.
  { assert (H : forall b, small b -> well_formed echo fake_hash true (sysof on_site) (c_base on_site) [] (ex_put b p_file)).
    { intros b Hb. split; [left; eexists; split; [reflexivity|left; reflexivity]|]. split; [exact Hb|]. split; [split; [text|dec]|]. split; [eexists; reflexivity|exact ex_file]. }
    each; apply H; unfold small; vm_compute; reflexivity. }
  split; [split; [exact I|]; intros; split; [exact I|]; intros; exact I|]. split; [ran_all|]. split; [ran_all|]. vm_compute. reflexivity.
Qed.
Print Assumptions C73_again_refuted.

(** ** A case that meets the hypotheses *)
Definition p_note : pystr := lit "/srv/old/note".
Definition p_web : pystr := lit "/srv/old/web". Definition p_page : pystr := lit "/srv/old/web/page".
Definition setup : list step :=
  [ Link p_lnk p_etc alice None; Line p_note (lit "x=1") true true; Directory p_web m755 alice None; ex_put (blit "hello") p_page; File p_run m755 alice None;
    Tree sample (lit "app") (lit "/srv/old/") [lit "srv"; lit "old"; lit "app"] m755 m755 alice None ].
Definition spot_at (s : os) (p : pystr) : option (place * N) :=
  match resolve_node (o_fs s) [] p false with Ok (pl, n) => Some (pl, N.land (n_mode n) 3072) | Err _ => None end.
Lemma spot_seen s p pl n : sees s p pl n -> spot_at s p = Some (pl, N.land (n_mode n) 3072).
Proof. unfold sees, spot_at. intros ->. reflexivity. Qed.
Definition set_up : os := sysof (snd (play step ex_does setup on_site)).
Definition setup_spots : list (pystr * place) :=
  [(p_lnk, [lit "lnk"; lit "old"; lit "srv"]); (p_note, [lit "note"; lit "old"; lit "srv"]); (p_web, [lit "web"; lit "old"; lit "srv"]); (p_page, [lit "page"; lit "web"; lit "old"; lit "srv"]); (p_run, [lit "run"; lit "srv"]);
   (p_app, [lit "app"; lit "old"; lit "srv"]); (p_app ++ lit "/a", [lit "a"; lit "app"; lit "old"; lit "srv"]); (p_app ++ lit "/g", [lit "g"; lit "app"; lit "old"; lit "srv"]);
   (p_app ++ lit "/a/f", [lit "f"; lit "a"; lit "app"; lit "old"; lit "srv"])].
Lemma setup_spots_ok : forallb (fun x => bool_decide (spot_at set_up (fst x) = Some (snd x, 0%N))) setup_spots = true.
Proof. vm_compute. reflexivity. Qed.
Lemma setup_spot p pl n q : sees set_up p pl n -> (p, q) ∈ setup_spots -> pl = q /\ N.land (n_mode n) 3072 = 0%N.
Proof.
  intros H Hi. apply spot_seen in H. assert (Hs := setup_spots_ok). rewrite forallb_forall in Hs. apply elem_of_list_In, Hs in Hi. apply bool_decide_eq_true in Hi. cbn [fst snd] in Hi.
  rewrite H in Hi. revert Hi. clear. intros Hi. injection Hi. auto.
Qed.
Lemma sample_paths p : (exists rel, sent sample rel /\ p = path_of ([lit "srv"; lit "old"; lit "app"] ++ rel)) -> p ∈ [p_app; p_app ++ lit "/a"; p_app ++ lit "/g"; p_app ++ lit "/a/f"].
Proof.
  intros (rel & (sub & H & _) & ->). unfold sample in H. below; vm_compute; repeat first [left; fail|apply elem_of_list_here|apply elem_of_list_further].
Qed.
Definition mine (st : step) : list (pystr * place) :=
  match st with
  | Link _ _ _ _ => take 1 setup_spots | Line _ _ _ _ => take 1 (drop 1 setup_spots) | Directory _ _ _ _ => take 1 (drop 2 setup_spots) | Put _ _ _ _ _ _ => take 1 (drop 3 setup_spots)
  | File _ _ _ _ => take 1 (drop 4 setup_spots) | Tree _ _ _ _ _ _ _ _ => drop 5 setup_spots
  end.
Lemma mine_spots st x : x ∈ mine st -> x ∈ setup_spots.
Proof.
  destruct st; cbn [mine]; intros H; apply elem_of_list_lookup in H as (i & H); apply elem_of_list_lookup; rewrite ?lookup_take_Some, ?lookup_drop in H; eauto; destruct H as [H ?]; rewrite ?lookup_drop in H; eauto.
Qed.
Lemma setup_about st p : st ∈ setup -> about st p -> exists q, (p, q) ∈ mine st.
Proof.
  intros Hi Hp. repeat (apply elem_of_cons in Hi as [-> |Hi]); try (inversion Hi; fail).
  1-5: unfold about, ex_put in Hp; subst p; eexists; left.
  apply sample_paths in Hp. repeat (apply elem_of_cons in Hp as [-> |Hp]); try (inversion Hp; fail); eexists; cbn [drop setup_spots mine]; repeat first [apply elem_of_list_here|apply elem_of_list_further].
Qed.
Lemma setup_apart st st' p q pl n m : st ∈ setup -> st' ∈ setup -> forallb (fun x => forallb (fun y => negb (bool_decide (snd x = snd y))) (mine st')) (mine st) = true ->
  about st p -> about st' q -> sees set_up p pl n -> ~ sees set_up q pl m.
Proof.
  intros H1 H2 Hd Hp Hq Hs Hs'. destruct (setup_about st p H1 Hp) as (a & Ha), (setup_about st' q H2 Hq) as (b & Hb).
  rewrite forallb_forall in Hd. assert (Hd1 := Hd (p, a) (proj1 (elem_of_list_In _ _) Ha)). cbv beta in Hd1. rewrite forallb_forall in Hd1. assert (Hd2 := Hd1 (q, b) (proj1 (elem_of_list_In _ _) Hb)).
  cbv beta in Hd2. apply negb_true_iff, bool_decide_eq_false in Hd2. apply Hd2. cbn [snd].
  destruct (setup_spot p pl n a Hs (mine_spots _ _ Ha)) as [<- _]. destruct (setup_spot q pl m b Hs' (mine_spots _ _ Hb)) as [<- _]. reflexivity.
Qed.
Example C73_case : let x := play step ex_does setup on_site in let y := play step ex_does setup (snd x) in
  ready on_site [] /\ healthy on_site /\ hash_ok fake_hash /\ unaliased (sysof on_site) /\ canonical_base (c_base on_site) /\
  Forall (well_formed echo fake_hash true (sysof on_site) (c_base on_site) []) setup /\ in_turn step ex_does now setup on_site /\
  x = (Ok (results_of x), snd x) /\ r_link (c_remote (snd x)) = Up /\ apart step about (sysof (snd x)) setup /\
  (forall st p pl n, st ∈ setup -> about st p -> sees (sysof (snd x)) p pl n -> N.land (n_mode n) 3072 = 0%N) /\
  map or_changed (results_of x) = [true; true; true; true; true; true] /\ map or_changed (results_of y) = [false; false; false; false; false; false].
Proof.
  cbn zeta. split; [exact site_ready|]. split; [exact site_healthy|]. split; [exact ex_hash|]. split; [apply site_accounts|]. split; [exact ex_canonical|]. split.
  { each.
    - split; [split; [text|dec]|]. split; [eexists; reflexivity|]. split; [split; [text|dec]|]. split; [discriminate|]. apply site_feasible; [right; reflexivity|exact I|exact I].
    - split; [split; [text|dec]|]. split; [eexists; reflexivity|]. split; [split; [apply (bool_decide_unpack _); vm_compute; exact I|eexists; vm_compute; reflexivity]|]. apply site_feasible; [left; reflexivity|exact I|exact I].
    - split; [split; [text|dec]|]. split; [eexists; reflexivity|exact ex_dir].
    - split; [left; eexists; split; [reflexivity|left; reflexivity]|]. split; [unfold small; vm_compute; reflexivity|]. split; [split; [text|dec]|]. split; [eexists; reflexivity|exact ex_file].
    - split; [split; [text|dec]|]. split; [eexists; reflexivity|exact ex_file].
    - split; [exact sample_transfer|]. split; [exact ex_dir|exact ex_file]. }
  split; [split; [left; split; [vm_compute; reflexivity|exact site_tree]|]|].
  { intros res c1 E1. split; [|intros; repeat (split; [exact I|]; intros); exact I].
    assert (c1 = snd (ex_does (Link p_lnk p_etc alice None) on_site)) as -> by (rewrite E1; reflexivity). clear E1.
    exists None. split; [vm_compute; reflexivity|]. split; [vm_compute; reflexivity|discriminate]. }
  split; [ran_all|]. split; [vm_compute; reflexivity|].
  change (sysof (snd (play step ex_does setup on_site))) with set_up. split; [|split; [|split; vm_compute; reflexivity]].
  - repeat (split; [intros st' p q pl n m Hi; apply setup_apart; [repeat first [apply elem_of_list_here|apply elem_of_list_further]|
      repeat (apply elem_of_cons in Hi as [-> |Hi]; [repeat first [apply elem_of_list_here|apply elem_of_list_further]|]); inversion Hi|
      repeat (apply elem_of_cons in Hi as [-> |Hi]; [vm_compute; reflexivity|]); inversion Hi]|]). exact I.
  - intros st p pl n Hi Hp H. destruct (setup_about st p Hi Hp) as (q & Hq). eapply setup_spot; [exact H|]. eapply mine_spots. exact Hq.
Qed.
