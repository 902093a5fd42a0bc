(** C61: checkouts of git repositories. *)
From Coq Require Import Lia ZifyBool ZifyN ZifyNat.
From stdpp Require Import gmap.
From Verif Require Import Base Utf8 Utf8_proofs Dict_proofs Codec Spec_Codec Codec_proofs2 Paths Sys Spec_Sys Sys_proofs Dispatcher Client Spec_Session Spec_Remote Remote_run Control Spec_Control Control_proofs
  Remote_safe Remote_proofs Walk_proofs Quiet Digits Direct Thrift Prop_Control Op Op_proofs Files Files_plain Spec_Files Shell_proofs Steps Dir_proofs Remote_examples Files_examples Prop_Files System Spec_Commands Commands_proofs Package_proofs Prop_Package
  Spec_Account Spec_Service Spec_Git Git_proofs Git_prog.
Local Open Scope nat_scope.

Lemma git_result a x r (y : opres) : outcome a x r -> r = Ok y -> x = Ok y.
Proof. intros Ho ->. destruct x as [z|e]; cbn in Ho; [|discriminate]. destruct Ho as [[Ho _]|(_ & _ & Ho)]; [congruence|discriminate]. Qed.

Lemma ask_healthy exec sha512 cmd c : bounded exec -> fine c -> sendable cmd -> answered exec (sysof c) cmd ->
  exists z c2, crun exec sha512 cmd c = (Ok z, c2) /\ (unaffected (sysof c) (sysof c2) -> fine c2 /\ sysof c2 = sysof c).
Proof.
  intros Hb Hf (H1 & H2 & H3) Hd. unfold crun. destruct (run exec sha512 cmd None true true None None None None c) as [r c'] eqn:E.
  destruct (run_fine exec sha512 _ _ _ _ _ E Hf H1 H2 H3) as (p & x & F1 & F2 & F3 & F4).
  apply run_any in E as [E _]. destruct Hf as ((L1 & L2 & L3) & d & L4 & L5).
  destruct (Hd p F2) as (out & err & s' & G1 & G3). rewrite F1 in G1. injection G1 as -> <-.
  destruct (Hb _ _ _ _ _ _ F1) as (B1 & B2 & B3). specialize (F4 0%Z out err eq_refl B1 B2 B3). specialize (F3 B1 B2 B3).
  exists (Completed (Some out) (Some err) 0%Z), c'. split; [rewrite F3; reflexivity|]. intros Hu.
  assert (Hs : sysof c' = sysof c) by (rewrite Hu, G3, <- L2; destruct (sysof c); reflexivity).
  split; [|exact Hs]. split; [split_and!; [exact F4|exact G3|rewrite Hs; exact L3]|]. exists d. split; [rewrite E; exact L4|]. rewrite Hs. exact L5.
Qed.

Section C61.
  Variable exec : proc -> M xres.
  Variable sha512 : bytes -> bytes.
  Variable up : os -> pystr -> upstream.
  Variable checkout : os -> pystr -> option work.
  Variable behind : pystr -> pystr -> Prop.
  Hypothesis Hb : bounded exec.
  Hypothesis Hg : git_program exec up checkout behind.

  (** Full statement: without the conditions [distinct] and [follows] in [repo_outcome].  It is false, see below. *)
  Theorem C61_partial url path branch update depth rebase ff submodules recursive shallow a c r c' : short path ->
    operation a (repo exec sha512 false url path branch update depth rebase ff submodules recursive shallow) c = (r, c') ->
    c' = set_remote (c_remote c') c /\ exists l, history exec (sysof c) l (sysof c') /\
      repo_outcome up checkout behind url path branch update depth rebase ff submodules recursive shallow (sysof c) l (sysof c') r.
  Proof.
    intros Hp E. rewrite (operation_plain _ _ _ _ (repo_plain exec sha512 false url path branch update depth rebase ff submodules recursive shallow)) in E. apply verdict_outcome in E as (y & E & Ho).
    apply (repo_does exec sha512 up checkout behind Hb Hg) in E as (H1 & l & H2 & there & lags & L1 & L2 & L3 & L4 & L5); [|exact Hp]. split; [exact H1|]. exists l. split; [exact H2|].
    exists there, lags. split; [exact L1|]. split; [exact L2|]. split; [exact L3|]. split; [exact L4|]. intros x Hx. apply L5. exact (git_result _ _ _ _ Ho Hx).
  Qed.
  (** Where the checkout is at the newest commit, the operation works and reports that nothing changed. *)
  Theorem C61_rerun_partial url path branch update depth rebase ff submodules recursive shallow a c :
    fine c -> os_ok (sysof c) -> hash_ok sha512 -> absolute path -> c_string path -> c_string (path_join path (lit ".git")) ->
    directory_at (sysof c) path -> directory_at (sysof c) (path_join path (lit ".git")) ->
    (forall cmd, cmd ∈ repo_plan url path branch update depth rebase ff submodules recursive shallow true false -> sendable cmd /\ answered exec (sysof c) cmd) ->
    literal (default [] branch) -> distinct (up (sysof c) url) branch -> current up checkout url path branch (sysof c) ->
    exists x c', operation a (repo exec sha512 false url path branch update depth rebase ff submodules recursive shallow) c = (Ok x, c') /\
      or_success x = true /\ or_changed x = false /\ unaffected (sysof c) (sysof c').
  Proof.
    intros Hf Hos Hh Ha Hp Hp' (pl & n & N1 & N2) (pl' & n' & N1' & N2') Hcmd Hl Hd Hc. rewrite (operation_plain _ _ _ _ (repo_plain exec sha512 false url path branch update depth rebase ff submodules recursive shallow)).
    apply absolute_isabs in Ha. assert (Hcheck : check_absolute_path path = mret tt) by (apply absolute_isabs in Ha as [q ->]; reflexivity). unfold repo_body. rewrite Hcheck.
    assert (Hst : forall p pl n, isabs p = true -> c_string p -> sees (sysof c) p pl n -> stat exec sha512 p false false c = (Ok (Some (statres_of (sysof c) n None)), c)).
    { intros p pl0 n0 Hap Hcp H. destruct Hf as ((Hlk & Hfl & _) & _). assert (Hr : c_remote c = Remote (sysof c) Up) by (unfold sysof; destruct (c_remote c) as [s0 l0]; cbn in *; congruence).
      unfold stat, via. rewrite Hr, (stat_direct exec sha512 (sysof c) p false false Hos Hh Hcp Hfl). rewrite <- Hr, set_remote_self. unfold stat_result. rewrite (isabs_cwd_node _ _ [] _ _ Hap), H. reflexivity. }
    assert (Hty : forall n h, n_kind n = KDir -> str_eqb (st_type (statres_of (sysof c) n h)) (lit "dir") = true) by (intros n0 h H; cbn; unfold node_type; rewrite H; reflexivity).
    assert (Hask : forall cmd c1, fine c1 -> sysof c1 = sysof c -> cmd ∈ repo_plan url path branch update depth rebase ff submodules recursive shallow true false ->
      exists z c2, crun exec sha512 cmd c1 = (Ok z, c2) /\ (unaffected (sysof c1) (sysof c2) -> fine c2 /\ sysof c2 = sysof c)).
    { intros cmd c1 Hf1 Hs1 Hin. destruct (Hcmd cmd Hin) as [K1 K2]. rewrite <- Hs1 in K2 |- *. exact (ask_healthy exec sha512 cmd c1 Hb Hf1 K1 K2). }
    destruct (Hask (git_head path) c Hf eq_refl ltac:(left)) as (z & c1 & E1 & F1).
    assert (D1 := E1). apply (head_does exec sha512 up checkout behind Hb Hg) in D1 as (_ & l1 & _ & U1 & _ & D1). destruct (F1 U1) as [F1' S1]. destruct (D1 z eq_refl) as [_ (w & W1 & W2)].
    assert (Hfin : exists x c2, finish exec sha512 false url path branch update depth rebase ff submodules recursive shallow true (Some (out_bsr z)) c1 = (Ok x, c2) /\ or_success x = true /\ or_changed x = false /\ unaffected (sysof c1) (sysof c2)).
    { unfold finish. cbv zeta. destruct update; cbn [andb negb].
      - destruct (Hask (git_list url (pattern branch)) c1 F1' S1) as (z2 & c2 & E2 & F2); [unfold repo_plan; right; left|].
        assert (D2 := E2). apply (list_does exec sha512 up checkout behind Hb Hg) in D2 as (_ & l2 & _ & U2 & _ & D2). destruct (D2 z2 eq_refl) as [_ D3]. destruct (D3 (literal_pattern _ Hl)) as (r & l & ws & C1 & C2).
        assert (Hup : up (sysof c1) = up (sysof c)) by (apply (g_stable _ _ _ _ Hg); exact U1). rewrite Hup in C1. apply chosen_tip in C1; [|exact Hd].
        destruct Hc as (w' & V1 & V2). assert (w' = w) as -> by congruence.
        unfold mbind at 1, W_bind at 1. rewrite E2, C2. unfold same_commit. rewrite bool_decide_eq_true_2 by congruence. cbn [andb]. eexists _, c2. split; [reflexivity|]. auto.
      - eexists _, c1. split; [reflexivity|]. cbn [or_success or_changed]. split; [reflexivity|]. split; [|apply unaffected_refl].
        apply negb_false_iff. change (py_eq (VDict (repo_state true (Some (out_bsr z)))) (VDict (repo_state true (Some (out_bsr z)))) = true). rewrite repo_eq. unfold same_commit. rewrite bool_decide_eq_true_2 by reflexivity. reflexivity. }
    destruct Hfin as (x & c2 & E2 & X1 & X2 & X3). exists x, c2. split; [|split; [exact X1|split; [exact X2|eapply unaffected_trans; eassumption]]].
    unfold mbind, W_bind, mret, W_ret. rewrite (Hst path pl n Ha Hp N1), (Hty n None N2). rewrite (Hst _ pl' n' (join_abs path (lit ".git") Ha eq_refl) Hp' N1'), (Hty n' None N2'). cbn [negb].
    rewrite E1. rewrite E2. unfold verdict. rewrite X1, andb_false_r. reflexivity.
  Qed.
End C61.
Print Assumptions C61_partial.
Print Assumptions C61_rerun_partial.

(** ** Examples, with the program of Git_prog *)
(** A repository with a branch and another one whose name ends with its name, and with a tag that has an object of its own. *)
Definition ex_refs (newer : bool) : list (pystr * pystr) :=
  [(heads (lit "dev"), if newer then lit "d2" else lit "d1"); (heads (lit "feature/main"), lit "f1"); (heads (lit "main"), lit "m1"); (tags (lit "v1"), lit "t1"); (tags (lit "v1") ++ lit "^{}", lit "c1")].
Definition ex_url : pystr := lit "https://host/repo".
Definition ex_server (newer : bool) (url : pystr) : upstream := if str_eqb url ex_url then Upstream (ex_refs newer) (heads (lit "main")) else Upstream [] [].
Definition gitx := git_exec ex_server.
Definition gup := srv_up ex_server.
Definition p_co : pystr := lit "/co".
Definition b_dev : pystr := lit "dev".
Definition clone_or_pull (branch : option pystr) (c : ctl) := operation NotGiven (repo gitx fake_hash false ex_url p_co branch true None false true true true false) c.
(** Time goes by, and the branch gets a new commit. *)
Definition later (c : ctl) : ctl := set_remote (Remote (set_env (dset k_newer [] (o_env (sysof c))) (sysof c)) Up) c.
Definition co1 : ctl := snd (clone_or_pull (Some b_dev) on_site).
Definition co2 : ctl := snd (clone_or_pull (Some b_dev) co1).
Definition co3 : ctl := snd (clone_or_pull (Some b_dev) (later co2)).
Lemma ex_distinct newer b h : b <> [] -> tip (ex_server newer ex_url) (Some b) = Some h -> Forall (fun r => called b r -> r.2 = h) (advertised (ex_server newer ex_url)) -> distinct (ex_server newer ex_url) (Some b).
Proof. intros Hb Ht Hf r Hr Hc. rewrite Ht. f_equal. symmetry. rewrite Forall_forall in Hf. apply Hf; [exact Hr|]. destruct b; [congruence|exact Hc]. Qed.
Lemma dev_distinct newer : distinct (ex_server newer ex_url) (Some b_dev).
Proof. destruct newer; (eapply ex_distinct; [discriminate|vm_compute; reflexivity|]); vm_compute advertised; unfold called; repeat constructor; dec. Qed.
Example C61_case : bounded gitx /\ git_program gitx gup srv_checkout (fun _ _ => True) /\ short p_co /\ literal b_dev /\
  distinct (gup (sysof on_site) ex_url) (Some b_dev) /\ distinct (gup (sysof (later co2)) ex_url) (Some b_dev) /\
  or_success (result_of (clone_or_pull (Some b_dev) on_site)) = true /\ or_changed (result_of (clone_or_pull (Some b_dev) on_site)) = true /\
  srv_checkout (sysof co1) p_co = Some (Work ex_url (Some (heads b_dev)) (lit "d1")) /\
  or_success (result_of (clone_or_pull (Some b_dev) co1)) = true /\ or_changed (result_of (clone_or_pull (Some b_dev) co1)) = false /\
  or_success (result_of (clone_or_pull (Some b_dev) (later co2))) = true /\ or_changed (result_of (clone_or_pull (Some b_dev) (later co2))) = true /\
  srv_checkout (sysof co3) p_co = Some (Work ex_url (Some (heads b_dev)) (lit "d2")) /\
  or_success (result_of (clone_or_pull (Some b_dev) co3)) = true /\ or_changed (result_of (clone_or_pull (Some b_dev) co3)) = false.
Proof.
  split; [apply git_bounded|]. split; [apply git_ok|]. split; [text|]. split; [repeat constructor; dec|]. split; [exact (dev_distinct false)|].
  split; [assert (E : gup (sysof (later co2)) = ex_server true) by (vm_compute; reflexivity); rewrite E; exact (dev_distinct true)|].
  split_and!; vm_compute; reflexivity.
Qed.

Definition co_env (h : pystr) : list (pystr * pystr) := [(lit "LANG", lit "C"); (k_follows p_co, heads b_dev); (k_at p_co, h); (k_origin p_co, ex_url)].
Definition co_site : os := set_fs (dirs p_co site_fs) (set_env (co_env (lit "d1")) site).
Lemma co_ok : os_ok co_site.
Proof.
  destruct site_ok as (H1 & H2 & H3 & H4 & H5 & H6 & H7). unfold os_ok. unfold co_site. cbn [set_fs set_env o_passwd o_group o_shadow o_env o_fs o_uid o_gid o_now o_faults].
  split; [exact H1|]. split; [exact H2|]. split; [exact H3|]. split; [exact H4|]. split; [|split; [|exact H7]].
  - assert (S : forall x, short x -> str_ok x) by (intros x [K1 K2]; split; [exact K1|unfold small; lia]). each; apply S; text.
  - intros pl n. unfold dirs. set (q1 := lit ".git" :: place_of p_co). set (q2 := place_of p_co).
    assert (Hn : node_ok (Node KDir 493 0 0 0 0)) by (split_and!; cbn; unfold id_ok, in_u64; try lia; exact I).
    destruct (decide (q1 = pl)) as [<-|K]; [rewrite lookup_insert; intros [= <-]; exact Hn|rewrite lookup_insert_ne by exact K].
    destruct (decide (q2 = pl)) as [<-|K']; [rewrite lookup_insert; intros [= <-]; exact Hn|rewrite lookup_insert_ne by exact K'; apply H6].
Qed.
Lemma co_fine : fine (on co_site ex_base).
Proof.
  split; [split_and!; reflexivity|]. exists ex_settled. split; [reflexivity|]. split_and!; try exact I.
  - split; [split; [text|dec]|]. exists (Account (lit "root") 0 0 [] (lit "/root") (lit "/bin/sh")). split; [left|left; reflexivity].
  - split; [split; [text|dec]|]. exists (Grent (lit "root") 0 []). split; [left|left; reflexivity].
  - split; [text|]. eexists. split; [vm_compute; reflexivity|]. unfold c_int. lia.
  - split; [split; [text|dec]|]. split; [reflexivity|]. eexists _, _. split; [vm_compute; reflexivity|reflexivity].
Qed.
Example C61_rerun_case : fine (on co_site ex_base) /\ os_ok co_site /\ absolute p_co /\ c_string p_co /\ c_string (path_join p_co (lit ".git")) /\
  directory_at co_site p_co /\ directory_at co_site (path_join p_co (lit ".git")) /\
  (forall cmd, cmd ∈ repo_plan ex_url p_co (Some b_dev) true None false true true true false true false -> sendable cmd /\ answered gitx co_site cmd) /\
  literal b_dev /\ distinct (gup co_site ex_url) (Some b_dev) /\ current gup srv_checkout ex_url p_co (Some b_dev) co_site.
Proof.
  split; [apply co_fine|]. split; [apply co_ok|]. split; [eexists; reflexivity|]. split; [split; [text|dec]|]. split; [split; [text|dec]|].
  split; [exists [lit "co"], (Node KDir 493 0 0 0 0); split; [vm_compute; reflexivity|reflexivity]|].
  split; [exists [lit ".git"; lit "co"], (Node KDir 493 0 0 0 0); split; [vm_compute; reflexivity|reflexivity]|].
  split; [|split; [repeat constructor; dec|split; [exact (dev_distinct false)|]]].
  - assert (Hc : forall l, Forall (fun cmd => sendable cmd /\ answered gitx co_site cmd) l -> forall cmd, cmd ∈ l -> sendable cmd /\ answered gitx co_site cmd) by (intros l H cmd; rewrite Forall_forall in H; apply H).
    assert (Hs : forall cmd, cmd <> [] -> small cmd -> Forall c_string cmd -> (exists out, git_argv ex_server cmd co_site = (Ok (XExit 0 out []), co_site)) -> sendable cmd /\ answered gitx co_site cmd).
    { intros cmd H1 H2 H3 (out & H4). split; [split; [exact H1|split; [exact H2|exact H3]]|]. intros q Hq. exists out, [], co_site. split; [|reflexivity]. unfold gitx, git_exec. rewrite Hq. exact H4. }
    apply Hc. constructor; [|constructor; [|constructor]]; (apply Hs; [discriminate|small_nat|each; (split; [text|dec])|eexists; vm_compute; reflexivity]).
  - exists (Work ex_url (Some (heads b_dev)) (lit "d1")). split; vm_compute; reflexivity.
Qed.

(** Not so for a checkout of another branch: the operation succeeds and reports a change, over and over, but the checkout stays where it was. *)
Definition on_main : ctl := snd (clone_or_pull (Some (lit "main")) on_site).
Definition on_main2 : ctl := snd (clone_or_pull (Some b_dev) on_main).
Definition on_tag : ctl := snd (clone_or_pull (Some (lit "v1")) on_site).
Theorem C61_branch_refuted : exists exec up checkout behind url path branch c x c', bounded exec /\ git_program exec up checkout behind /\ short path /\ literal branch /\ distinct (up (sysof c) url) (Some branch) /\
  operation NotGiven (repo exec fake_hash false url path (Some branch) true None false true true true false) c = (Ok x, c') /\ or_success x = true /\ or_changed x = true /\
  ~ current up checkout url path (Some branch) (sysof c') /\
  exists x2, operation NotGiven (repo exec fake_hash false url path (Some branch) true None false true true true false) c' = (Ok x2, c') /\ or_success x2 = true /\ or_changed x2 = true.
Proof.
  exists gitx, gup, srv_checkout, (fun _ _ => True), ex_url, p_co, b_dev, on_main, (result_of (clone_or_pull (Some b_dev) on_main)), on_main2.
  split; [apply git_bounded|]. split; [apply git_ok|]. split; [text|]. split; [repeat constructor; dec|].
  split; [assert (E : gup (sysof on_main) = ex_server false) by (vm_compute; reflexivity); rewrite E; exact (dev_distinct false)|].
  split; [apply surely; vm_compute; reflexivity|]. split; [vm_compute; reflexivity|]. split; [vm_compute; reflexivity|]. split.
  - intros (w & W1 & W2). assert (E : srv_checkout (sysof on_main2) p_co = Some (Work ex_url (Some (heads (lit "main"))) (lit "m1"))) by (vm_compute; reflexivity).
    rewrite E in W1. injection W1 as <-. assert (E2 : tip (gup (sysof on_main2) ex_url) (Some b_dev) = Some (lit "d1")) by (vm_compute; reflexivity). rewrite E2 in W2. revert W2. clear. vm_compute. discriminate.
  - exists (result_of (clone_or_pull (Some b_dev) on_main2)). split; [|split; vm_compute; reflexivity].
    assert (E : snd (clone_or_pull (Some b_dev) on_main2) = on_main2) by (vm_compute; reflexivity). exact (eq_trans (surely (clone_or_pull (Some b_dev) on_main2) ltac:(vm_compute; reflexivity)) (f_equal (pair _) E)).
Qed.
(** Not so for a tag with an object of its own: the checkout is at its commit, but the second run fails. *)
Theorem C61_tag_refuted : exists exec up checkout behind url path tag c x c', bounded exec /\ git_program exec up checkout behind /\ short path /\ literal tag /\ fine c /\
  operation NotGiven (repo exec fake_hash false url path (Some tag) true None false true true true false) c = (Ok x, c') /\ or_success x = true /\
  current up checkout url path (Some tag) (sysof c') /\
  exists e c2, operation NotGiven (repo exec fake_hash false url path (Some tag) true None false true true true false) c' = (Err e, c2).
Proof.
  exists gitx, gup, srv_checkout, (fun _ _ => True), ex_url, p_co, (lit "v1"), on_site, (result_of (clone_or_pull (Some (lit "v1")) on_site)), on_tag.
  split; [apply git_bounded|]. split; [apply git_ok|]. split; [text|]. split; [repeat constructor; dec|]. split; [exact site_fine|].
  split; [apply surely; vm_compute; reflexivity|]. split; [vm_compute; reflexivity|]. split.
  - exists (Work ex_url None (lit "c1")). split; vm_compute; reflexivity.
  - exists (match fst (clone_or_pull (Some (lit "v1")) on_tag) with Err e => e | Ok _ => IndexError end), (snd (clone_or_pull (Some (lit "v1")) on_tag)).
    assert (H : forall y : result opres * ctl, (match fst y with Err _ => true | Ok _ => false end) = true -> y = (Err (match fst y with Err e => e | Ok _ => IndexError end), snd y)) by (intros [[?|?] ?]; [discriminate|reflexivity]).
    apply H. vm_compute. reflexivity.
Qed.
(** Not so if another branch ends with the name: the operation reports a change although the checkout is and stays at the newest commit. *)
Theorem C61_suffix_refuted : exists exec up checkout behind url path branch c x c', bounded exec /\ git_program exec up checkout behind /\ short path /\ literal branch /\
  (exists w, checkout (sysof c) path = Some w /\ follows behind (up (sysof c) url) (Some branch) w) /\ current up checkout url path (Some branch) (sysof c) /\
  operation NotGiven (repo exec fake_hash false url path (Some branch) true None false true true true false) c = (Ok x, c') /\ or_success x = true /\ or_changed x = true /\ c' = c.
Proof.
  exists gitx, gup, srv_checkout, (fun _ _ => True), ex_url, p_co, (lit "main"), on_main, (result_of (clone_or_pull (Some (lit "main")) on_main)), (snd (clone_or_pull (Some (lit "main")) on_main)).
  split; [apply git_bounded|]. split; [apply git_ok|]. split; [text|]. split; [repeat constructor; dec|]. split; [|split].
  - exists (Work ex_url (Some (heads (lit "main"))) (lit "m1")). split; [vm_compute; reflexivity|]. split; [vm_compute; reflexivity|]. intros; exact I.
  - exists (Work ex_url (Some (heads (lit "main"))) (lit "m1")). split; vm_compute; reflexivity.
  - split; [apply surely; vm_compute; reflexivity|]. split_and!; vm_compute; reflexivity.
Qed.
Print Assumptions C61_branch_refuted.
Print Assumptions C61_tag_refuted.
Print Assumptions C61_suffix_refuted.
