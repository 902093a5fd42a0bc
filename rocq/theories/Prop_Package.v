(** C57: package operations. *)
From Coq Require Import Lia ZifyBool ZifyN ZifyNat.
From stdpp Require Import gmap.
From Verif Require Import Base Utf8 Dict_proofs Codec Spec_Codec Paths Sys Spec_Sys Sys_proofs Dispatcher Client Spec_Session Spec_Remote Remote_run Control Spec_Control Control_proofs
  Walk_proofs Quiet Prop_Control Op Op_proofs Files Files_plain Spec_Files Shell_proofs Steps Remote_examples Files_examples Prop_Files System Spec_Commands Commands_proofs Package_proofs.
Local Open Scope nat_scope.

Section managers.
  Variable exec : proc -> M xres.
  Variable sha512 : bytes -> bytes.
  (** sets are iterated over in any order *)
  Variable set_order : list pystr -> list pystr.
  Hypothesis Horder : forall l, set_order l ≡ₚ l.
  (** the packages that are installed *)
  Variable has : os -> pystr -> Prop.
  Hypothesis Hstable : stable has.
  Hypothesis Hb : bounded exec.

  (** ** pacman *)
  Theorem C57_pacman packages (present : bool) opts a c r c' :
    answers exec has pacman_ask by_code -> installs exec has (pacman_sync (opt_list opts)) -> removes exec has (pacman_erase (opt_list opts)) ->
    operation a (pacman_package exec sha512 false set_order packages present opts) c = (r, c') ->
    c' = set_remote (c_remote c') c /\
    exists l, history exec (sysof c) l (sysof c') /\
      package_outcome has pacman_ask (if present then pacman_sync (opt_list opts) else pacman_erase (opt_list opts)) packages present (sysof c) l (sysof c') r.
  Proof.
    intros H1 H2 H3. unfold pacman_package. apply (generic_does exec set_order Horder has Hstable); auto.
    - intros p. apply pacman_has_does; assumption.
    - intros p. apply sh_does. assumption.
    - intros p. apply sh_does. assumption.
  Qed.
  (** ** portage *)
  Definition emerge_marker : bytes := blit "was built with the following".
  Theorem C57_portage packages (present oneshot : bool) opts a c r c' :
    answers exec has emerge_ask (by_text emerge_marker) -> installs exec has (emerge_add oneshot (opt_list opts)) -> removes exec has (emerge_erase (opt_list opts)) ->
    operation a (portage_package exec sha512 false set_order packages present oneshot opts) c = (r, c') ->
    c' = set_remote (c_remote c') c /\
    exists l, history exec (sysof c) l (sysof c') /\
      package_outcome has emerge_ask (if present then emerge_add oneshot (opt_list opts) else emerge_erase (opt_list opts)) packages present (sysof c) l (sysof c') r.
  Proof.
    intros H1 H2 H3. unfold portage_package. apply (generic_does exec set_order Horder has Hstable); auto.
    - intros p. apply marked_has_does; assumption.
    - intros p. destruct oneshot; apply (sh_does exec); assumption.
    - intros p. apply sh_does. assumption.
  Qed.

  (** ** apt, on a system that has a program of the name "dpgk-query" (see C57_apt_refuted) *)
  Definition apt_ask (p : pystr) : list pystr := [lit "dpgk-query"; lit "--show"; lit "--showformat=${Status}"; lit "--"; p].
  Definition apt_add (opts : list pystr) (p : pystr) : list pystr := [lit "apt-get"; lit "install"] ++ opts ++ [lit "--"; p].
  Definition apt_erase (opts : list pystr) (p : pystr) : list pystr := [lit "apt-get"; lit "remove"] ++ opts ++ [lit "--"; p].
  Theorem C57_apt_partial packages (present : bool) opts a c r c' :
    answers exec has apt_ask (by_text (blit "ok installed")) -> installs exec has (apt_add (opt_list opts)) -> removes exec has (apt_erase (opt_list opts)) ->
    operation a (apt_package exec sha512 false set_order packages present opts) c = (r, c') ->
    c' = set_remote (c_remote c') c /\
    exists l, history exec (sysof c) l (sysof c') /\
      package_outcome has apt_ask (if present then apt_add (opt_list opts) else apt_erase (opt_list opts)) packages present (sysof c) l (sysof c') r.
  Proof.
    intros H1 H2 H3. unfold apt_package. apply (generic_does exec set_order Horder has Hstable); auto.
    - intros p. apply marked_has_does; assumption.
    - intros p. apply sh_does. assumption.
    - intros p. apply sh_does. assumption.
  Qed.

  (** ** When the system is able to, the operations succeed *)
  Theorem C57_pacman_works packages (present : bool) opts a c : fine c ->
    (forall p, p ∈ packages -> sendable (pacman_ask p) /\ dependable exec (pacman_ask p) (fun _ _ => True)) ->
    (forall p, p ∈ packages -> let cmd := if present then pacman_sync (opt_list opts) p else pacman_erase (opt_list opts) p in sendable cmd /\ dependable exec cmd ended) ->
    exists x c', operation a (pacman_package exec sha512 false set_order packages present opts) c = (Ok x, c') /\ fine c'.
  Proof.
    intros Hc H1 H2. apply (generic_lives set_order Horder); [exact Hc|..].
    - apply (run_lives exec sha512 Hb false). intros p Hp. destruct (H1 p Hp) as [G1 G2]. split; [exact G1|].
      intros q s Hq Hs. destruct (G2 q s Hq Hs) as (rc & out & err & s' & A1 & _ & A2). exists rc, out, err, s'. split; [exact A1|]. split; [discriminate|exact A2].
    - destruct present; apply (sh_lives exec sha512 Hb); exact H2.
  Qed.
  Theorem C57_portage_works packages (present oneshot : bool) opts a c : fine c ->
    (forall p, p ∈ packages -> sendable (emerge_ask p) /\ dependable exec (emerge_ask p) ended) ->
    (forall p, p ∈ packages -> let cmd := if present then emerge_add oneshot (opt_list opts) p else emerge_erase (opt_list opts) p in sendable cmd /\ dependable exec cmd ended) ->
    exists x c', operation a (portage_package exec sha512 false set_order packages present oneshot opts) c = (Ok x, c') /\ fine c'.
  Proof.
    intros Hc H1 H2. apply (generic_lives set_order Horder); [exact Hc|..].
    - apply (run_lives exec sha512 Hb true). intros p Hp. destruct (H1 p Hp) as [G1 G2]. split; [exact G1|].
      intros q s Hq Hs. destruct (G2 q s Hq Hs) as (rc & out & err & s' & A1 & A0 & A2). exists rc, out, err, s'. split; [exact A1|]. split; [intros _; exact A0|exact A2].
    - destruct present; apply (sh_lives exec sha512 Hb); destruct oneshot; exact H2.
  Qed.

  (** ** Rerunning after success changes nothing and reports so, unless a package is named twice *)
  Lemma outcome_rerun query cmd packages (present : bool) s l s' x s2 l2 s3 x2 :
    package_outcome has query cmd packages present s l s' (Ok x) -> unaffected s' s2 -> package_outcome has query cmd packages present s2 l2 s3 (Ok x2) ->
    present = false \/ NoDup packages -> or_changed x2 = false /\ l2 = query <$> packages /\ unaffected s2 s3.
  Proof.
    intros (asked & acted & _ & _ & _ & _ & _ & _ & G) Hu (asked2 & acted2 & -> & _ & _ & G2 & _ & G3 & G4) Hp.
    destruct (G x eq_refl) as (_ & _ & _ & G5 & _). destruct (G4 x2 eq_refl) as (_ & -> & _ & _ & _ & G6).
    assert (acted2 = []) as ->.
    { destruct acted2 as [|p acted2]; [reflexivity|]. exfalso. destruct (G2 p) as [K1 K2]; [left|]. specialize (G5 p K1). destruct present; cbn in K2.
      - apply K2. eapply Hstable; eassumption.
      - apply G5. apply (stable_iff has Hstable _ _ p Hu). exact K2. }
    split; [apply G6; auto|]. split; [rewrite app_nil_r; reflexivity|auto].
  Qed.
  Theorem C57_rerun_partial packages (present : bool) opts a a2 c x c' c2 x2 c3 :
    answers exec has pacman_ask by_code -> installs exec has (pacman_sync (opt_list opts)) -> removes exec has (pacman_erase (opt_list opts)) ->
    operation a (pacman_package exec sha512 false set_order packages present opts) c = (Ok x, c') ->
    present = false \/ NoDup packages -> unaffected (sysof c') (sysof c2) ->
    operation a2 (pacman_package exec sha512 false set_order packages present opts) c2 = (Ok x2, c3) ->
    or_changed x2 = false /\ history exec (sysof c2) (pacman_ask <$> packages) (sysof c3) /\ unaffected (sysof c2) (sysof c3).
  Proof.
    intros H1 H2 H3 E Hp Hu E2. apply C57_pacman in E as (_ & l & _ & G); [|assumption..]. apply C57_pacman in E2 as (_ & l2 & G1 & G2); [|assumption..].
    destruct (outcome_rerun _ _ _ _ _ _ _ _ _ _ _ _ G Hu G2 Hp) as (K1 & -> & K3). auto.
  Qed.
  Theorem C57_portage_rerun_partial packages (present oneshot : bool) opts a a2 c x c' c2 x2 c3 :
    answers exec has emerge_ask (by_text emerge_marker) -> installs exec has (emerge_add oneshot (opt_list opts)) -> removes exec has (emerge_erase (opt_list opts)) ->
    operation a (portage_package exec sha512 false set_order packages present oneshot opts) c = (Ok x, c') ->
    present = false \/ NoDup packages -> unaffected (sysof c') (sysof c2) ->
    operation a2 (portage_package exec sha512 false set_order packages present oneshot opts) c2 = (Ok x2, c3) ->
    or_changed x2 = false /\ history exec (sysof c2) (emerge_ask <$> packages) (sysof c3) /\ unaffected (sysof c2) (sysof c3).
  Proof.
    intros H1 H2 H3 E Hp Hu E2. apply C57_portage in E as (_ & l & _ & G); [|assumption..]. apply C57_portage in E2 as (_ & l2 & G1 & G2); [|assumption..].
    destruct (outcome_rerun _ _ _ _ _ _ _ _ _ _ _ _ G Hu G2 Hp) as (K1 & -> & K3). auto.
  Qed.
End managers.
Print Assumptions C57_pacman.
Print Assumptions C57_portage.
Print Assumptions C57_apt_partial.
Print Assumptions C57_pacman_works.
Print Assumptions C57_portage_works.
Print Assumptions C57_rerun_partial.
Print Assumptions C57_portage_rerun_partial.

(** ** A package manager for examples.  It keeps the names of the installed packages in [o_env]. *)
Definition set_env (e : list (pystr * pystr)) (s : os) : os :=
  OS (o_passwd s) (o_group s) (o_shadow s) e (o_fs s) (o_uid s) (o_gid s) (o_groups s) (o_cwd s) (o_now s) (o_faults s).
Definition listed (s : os) (p : pystr) : Prop := p ∈ (o_env s).*1.
Definition reply (text b : bool) : xres := if text then XExit 0 (if b then emerge_marker else []) [] else XExit (if b then 0 else 1) [] [].
Definition depot (text : bool) (query install remove : pystr -> list pystr) (p : proc) : M xres := fun s =>
  let pkg := default [] (last (p_argv p)) in
  if bool_decide (p_argv p = query pkg) then (Ok (reply text (str_in pkg (o_env s).*1)), s)
  else if bool_decide (p_argv p = install pkg) then (Ok (XExit 0 [] []), set_env (dset pkg [] (o_env s)) s)
  else if bool_decide (p_argv p = remove pkg) then (Ok (XExit 0 [] []), set_env (List.filter (fun e => negb (str_eqb (fst e) pkg)) (o_env s)) s)
  else (Ok (XFail (oserr ENOENT)), s).

Section depot.
  Variable text : bool.
  Variable query install remove : pystr -> list pystr.
  Hypothesis Hq : forall p, last (query p) = Some p.
  Hypothesis Hi : forall p, last (install p) = Some p.
  Hypothesis Hr : forall p, last (remove p) = Some p.
  Hypothesis Hqi : forall p q, query p <> install q.
  Hypothesis Hqr : forall p q, query p <> remove q.
  Hypothesis Hir : forall p q, install p <> remove q.
  Notation exec := (depot text query install remove).
  Lemma depot_query p q s : p_argv q = query p -> exec q s = (Ok (reply text (str_in p (o_env s).*1)), s).
  Proof. intros E. unfold depot. rewrite E, Hq. cbn. rewrite bool_decide_eq_true_2 by reflexivity. reflexivity. Qed.
  Lemma depot_install p q s : p_argv q = install p -> exec q s = (Ok (XExit 0 [] []), set_env (dset p [] (o_env s)) s).
  Proof. intros E. unfold depot. rewrite E, Hi. cbn. rewrite bool_decide_eq_false_2 by (intros H; symmetry in H; apply Hqi in H; exact H). rewrite bool_decide_eq_true_2 by reflexivity. reflexivity. Qed.
  Lemma depot_remove p q s : p_argv q = remove p -> exec q s = (Ok (XExit 0 [] []), set_env (List.filter (fun e => negb (str_eqb (fst e) p)) (o_env s)) s).
  Proof.
    intros E. unfold depot. rewrite E, Hr. cbn. rewrite bool_decide_eq_false_2 by (intros H; symmetry in H; apply Hqr in H; exact H).
    rewrite bool_decide_eq_false_2 by (intros H; symmetry in H; apply Hir in H; exact H). rewrite bool_decide_eq_true_2 by reflexivity. reflexivity.
  Qed.
  Lemma depot_bounded : bounded exec.
  Proof.
    intros p s rc out err s' E. unfold depot in E. destruct (bool_decide _).
    { unfold reply in E. destruct text, (str_in _ _); injection E as <- <- <- _; unfold in_i32, small; cbn; lia. }
    destruct (bool_decide _); [injection E as <- <- <- _; unfold in_i32, small; cbn; lia|].
    destruct (bool_decide _); [injection E as <- <- <- _; unfold in_i32, small; cbn; lia|discriminate].
  Qed.
  Lemma listed_stable : stable listed.
  Proof. intros s s' p H. unfold listed. rewrite H. auto. Qed.
  Lemma depot_answers : answers exec listed query (if text then by_text emerge_marker else by_code).
  Proof.
    intros p q s x s' E Ex. rewrite (depot_query p q s E) in Ex. injection Ex as <- <-. split; [apply unaffected_refl|].
    intros rc out err b Hx Hbc. unfold listed. rewrite <- str_in_true. unfold reply in Hx. destruct text; injection Hx as <- <- _.
    - destruct Hbc as [_ Hbc]. rewrite Hbc. destruct (str_in p _).
      { split; [auto|]. intros _. exists [], []. reflexivity. }
      split; [|discriminate]. intros (y & z & Hyz). apply (f_equal length) in Hyz. rewrite !app_length in Hyz. cbn in Hyz. lia.
    - unfold by_code in Hbc. rewrite Hbc. destruct (str_in p _); intuition lia.
  Qed.
  Lemma depot_installs : installs exec listed install.
  Proof.
    intros p q s x s' E Ex. rewrite (depot_install p q s E) in Ex. injection Ex as <- <-. unfold listed. cbn. split.
    - intros o Ho. apply elem_of_dset_keys. auto.
    - intros _ _ _. apply elem_of_dset_keys. auto.
  Qed.
  Lemma depot_removes : removes exec listed remove.
  Proof.
    intros p q s x s' E Ex. rewrite (depot_remove p q s E) in Ex. injection Ex as <- <-. unfold listed. cbn. split.
    - intros o Ho. apply filter_keys_sub in Ho. exact Ho.
    - intros _ _ _ H. apply elem_of_list_fmap in H as ([k v] & -> & H). apply elem_of_list_In, filter_In in H as [_ H]. cbn in H. rewrite str_eqb_refl in H. discriminate.
  Qed.
  Lemma set_env_runnable e s d : runnable s d -> runnable (set_env e s) d.
  Proof. auto. Qed.
  Lemma depot_dependable_query p : dependable exec (query p) (fun rc _ => text = true -> rc = 0%Z).
  Proof. intros q s E Hs. rewrite (depot_query p q s E). destruct text; eexists _, _, _, _; (split; [reflexivity|]); (split; [first [reflexivity|discriminate]|auto]). Qed.
  Lemma depot_dependable (b : bool) p : dependable exec (if b then install p else remove p) ended.
  Proof.
    intros q s E Hs. destruct b; [rewrite (depot_install p q s E)|rewrite (depot_remove p q s E)]; eexists _, _, _, _; (split; [reflexivity|]); split_and!; auto; reflexivity.
  Qed.
End depot.
Lemma site_fine : fine on_site.
Proof.
  split; [apply site_healthy|]. exists ex_settled. split; [reflexivity|]. split_and!; try exact I.
  - split; [split; [text|dec]|]. eexists. apply site_root.
  - split; [split; [text|dec]|]. eexists. apply site_root_group.
  - split; [text|]. eexists. split; [vm_compute; reflexivity|]. unfold c_int. lia.
  - split; [split; [text|dec]|]. split; [reflexivity|]. eexists _, _. split; [vm_compute; reflexivity|reflexivity].
Qed.
Definition arch := depot false pacman_ask (pacman_sync []) (pacman_erase []).
Lemma arch_contract : (answers arch listed pacman_ask by_code /\ installs arch listed (pacman_sync []) /\ removes arch listed (pacman_erase [])) /\ bounded arch /\
  (forall p, dependable arch (pacman_ask p) (fun _ _ => True)) /\ forall (b : bool) p, dependable arch (if b then pacman_sync [] p else pacman_erase [] p) ended.
Proof.
  assert (H1 : forall p, last (pacman_ask p) = Some p) by reflexivity.
  assert (H2 : forall p, last (pacman_sync [] p) = Some p) by reflexivity.
  assert (H3 : forall p, last (pacman_erase [] p) = Some p) by reflexivity.
  assert (H4 : forall p q, pacman_ask p <> pacman_sync [] q) by (intros p q [=]).
  assert (H5 : forall p q, pacman_ask p <> pacman_erase [] q) by (intros p q [=]).
  assert (H6 : forall p q, pacman_sync [] p <> pacman_erase [] q).
  { intros p q E. apply (f_equal (fun l => default [] (l !! 4))) in E. cbn in E. vm_compute in E. discriminate. }
  split; [split_and!; [apply (depot_answers false)|apply depot_installs|apply depot_removes]; assumption|].
  split; [apply depot_bounded|]. split; [intros p q s E Hs; destruct (depot_dependable_query false _ (pacman_sync []) (pacman_erase []) H1 p q s E Hs) as (rc & out & err & s' & K1 & _ & K2); exists rc, out, err, s'; auto|intros b p; apply depot_dependable; assumption].
Qed.
Definition vim := lit "vim". Definition git := lit "git". Definition nano := lit "nano".
Definition arch_site (l : list pystr) : ctl := on (set_env (List.map (fun p => (p, [])) l) site) ex_base.
Lemma arch_fine l : fine (arch_site l). Proof. exact site_fine. Qed.
Lemma pkg_sendable (p : pystr) (b : bool) : p = vim \/ p = git -> sendable (pacman_ask p) /\ sendable (if b then pacman_sync [] p else pacman_erase [] p).
Proof.
  intros Hp. assert (Hc : c_string p) by (destruct Hp as [-> | ->]; split; first [text|dec]).
  split; (split; [destruct b; discriminate|]); (split; [destruct b; small_nat|]);
    destruct b; cbn [pacman_ask pacman_sync pacman_erase app]; each; try exact Hc; try (split; [text|dec]).
Qed.
(** one of two packages is missing, and only that one is installed; a rerun changes nothing *)
Example C57_case :
  let op := pacman_package arch fake_hash false (fun l => l) [vim; git] true None in
  let c := arch_site [git; nano] in let c1 := snd (operation NotGiven op c) in let c2 := snd (operation NotGiven op c1) in
  fine c /\ (exists x c', operation NotGiven op c = (Ok x, c') /\ fine c') /\
  or_changed (result_of (operation NotGiven op c)) = true /\ (o_env (sysof c1)).*1 = [git; nano; vim] /\
  history arch (sysof c) [pacman_ask vim; pacman_ask git; pacman_sync [] vim] (sysof c1) /\
  or_success (result_of (operation NotGiven op c1)) = true /\ or_changed (result_of (operation NotGiven op c1)) = false /\ o_env (sysof c2) = o_env (sysof c1).
Proof.
  intros op c c1 c2. destruct arch_contract as ((A1 & A2 & A3) & A4 & A5 & A6). split; [apply arch_fine|]. split.
  { apply (C57_pacman_works arch fake_hash (fun l => l)); [reflexivity|exact A4|apply arch_fine|..].
    - intros p Hp. split; [|apply A5]. apply (pkg_sendable p true). apply elem_of_cons in Hp as [-> |Hp]; [auto|]. apply elem_of_list_singleton in Hp as ->. auto.
    - intros p Hp. split; [|apply (A6 true)]. apply (pkg_sendable p true). apply elem_of_cons in Hp as [-> |Hp]; [auto|]. apply elem_of_list_singleton in Hp as ->. auto. }
  split; [vm_compute; reflexivity|]. split; [vm_compute; reflexivity|]. split; [|split_and!; vm_compute; reflexivity].
  destruct (C57_pacman arch fake_hash (fun l => l) ltac:(reflexivity) listed listed_stable A4 [vim; git] true None NotGiven c (Ok (result_of (operation NotGiven op c))) c1 A1 A2 A3) as (_ & l & H1 & asked & acted & -> & _ & H2 & H3 & _ & _ & H4).
  { apply surely. vm_compute. reflexivity. }
  destruct (H4 _ eq_refl) as (_ & -> & H5 & _).
  assert (Hv : vim ∈ acted) by (apply H5; [left|]; cbn; unfold listed; intros H; apply str_in_true in H; vm_compute in H; discriminate).
  assert (Hall : forall p, p ∈ acted -> p = vim).
  { intros p Hp. destruct (H3 p Hp) as [K1 K2]. apply elem_of_cons in K1 as [-> |K1]; [reflexivity|]. apply elem_of_list_singleton in K1 as ->.
    exfalso. apply K2. unfold listed. apply str_in_true. vm_compute. reflexivity. }
  destruct acted as [|p [|q acted]].
  - inversion Hv.
  - rewrite (Hall p) in H1 by left. exact H1.
  - exfalso. rewrite (Hall p), (Hall q) in H2 by (repeat constructor). inversion H2 as [|? ? Hn _]; subst. apply Hn. left.
Qed.

(** The same with portage, and removal: of two packages, one is there. *)
Definition gentoo := depot true emerge_ask (emerge_add false []) (emerge_erase []).
Example C57_portage_case :
  let op := portage_package gentoo fake_hash false (fun l => l) [vim; git] false false None in
  let c := arch_site [git; nano] in let c1 := snd (operation NotGiven op c) in
  (answers gentoo listed emerge_ask (by_text emerge_marker) /\ installs gentoo listed (emerge_add false []) /\ removes gentoo listed (emerge_erase [])) /\ bounded gentoo /\
  (forall p, dependable gentoo (emerge_ask p) ended) /\ (forall (b : bool) p, dependable gentoo (if b then emerge_add false [] p else emerge_erase [] p) ended) /\
  fine c /\ or_success (result_of (operation NotGiven op c)) = true /\ or_changed (result_of (operation NotGiven op c)) = true /\ (o_env (sysof c1)).*1 = [nano].
Proof.
  intros op c c1.
  assert (H1 : forall p, last (emerge_ask p) = Some p) by reflexivity.
  assert (H2 : forall p, last (emerge_add false [] p) = Some p) by reflexivity.
  assert (H3 : forall p, last (emerge_erase [] p) = Some p) by reflexivity.
  assert (H4 : forall p q, emerge_ask p <> emerge_add false [] q) by (intros p q [=]).
  assert (H5 : forall p q, emerge_ask p <> emerge_erase [] q) by (intros p q [=]).
  assert (H6 : forall p q, emerge_add false [] p <> emerge_erase [] q) by (intros p q [=]).
  split; [split_and!; [apply (depot_answers true)|apply depot_installs|apply depot_removes]; assumption|].
  split; [apply depot_bounded|]. split; [intros p q s E Hs; destruct (depot_dependable_query true _ (emerge_add false []) (emerge_erase []) H1 p q s E Hs) as (rc & out & err & s' & K1 & K0 & K2); exists rc, out, err, s'; split; [exact K1|split; [apply K0; reflexivity|exact K2]]|].
  split; [intros b p; apply depot_dependable; assumption|]. split; [apply arch_fine|]. split_and!; vm_compute; reflexivity.
Qed.

(** ** False: "rerunning it reports unchanged".  A package that is named twice is installed once, but is reported as a change
    again and again:
    [operation a op c = (Ok x, c') -> operation a op c' = (Ok x2, c'') -> or_changed x2 = false]. *)
Theorem C57_rerun_refuted : exists exec has packages c x c' x2 c'',
  (answers exec has pacman_ask by_code /\ installs exec has (pacman_sync []) /\ removes exec has (pacman_erase []) /\ stable has) /\
  bounded exec /\ fine c /\
  operation NotGiven (pacman_package exec fake_hash false (fun l => l) packages true None) c = (Ok x, c') /\ or_success x = true /\
  operation NotGiven (pacman_package exec fake_hash false (fun l => l) packages true None) c' = (Ok x2, c'') /\ or_success x2 = true /\
  or_changed x2 = true /\ sysof c'' = sysof c'.
Proof.
  set (op := pacman_package arch fake_hash false (fun l => l) [vim; vim] true None). set (c := arch_site []).
  set (c1 := snd (operation NotGiven op c)). set (c2 := snd (operation NotGiven op c1)).
  exists arch, listed, [vim; vim], c, (result_of (operation NotGiven op c)), c1, (result_of (operation NotGiven op c1)), c2.
  destruct arch_contract as ((A1 & A2 & A3) & A4 & _). split; [split_and!; [exact A1|exact A2|exact A3|apply listed_stable]|]. split; [exact A4|]. split; [apply arch_fine|].
  split; [ran|]. split; [vm_compute; reflexivity|]. split; [ran|]. split; [vm_compute; reflexivity|]. split; vm_compute; reflexivity.
Qed.
Print Assumptions C57_rerun_refuted.

(** And with apt, where the program exists under the wrong name. *)
Definition mint (p : proc) : M xres := fun s =>
  match depot true apt_ask (apt_add []) (apt_erase []) p s with
  | (Ok (XExit rc out err), s') => (Ok (XExit rc (match out with [] => [] | _ => blit "install ok installed" end) err), s')
  | x => x
  end.
Example C57_apt_case :
  let op := apt_package mint fake_hash false (fun l => l) [vim; git] true None in
  let c := arch_site [git; nano] in let c1 := snd (operation NotGiven op c) in
  (answers mint listed apt_ask (by_text (blit "ok installed")) /\ installs mint listed (apt_add []) /\ removes mint listed (apt_erase [])) /\ stable listed /\
  or_success (result_of (operation NotGiven op c)) = true /\ or_changed (result_of (operation NotGiven op c)) = true /\ (o_env (sysof c1)).*1 = [git; nano; vim].
Proof.
  intros op c c1.
  assert (H1 : forall p, last (apt_ask p) = Some p) by reflexivity.
  assert (H2 : forall p, last (apt_add [] p) = Some p) by reflexivity.
  assert (H3 : forall p, last (apt_erase [] p) = Some p) by reflexivity.
  assert (H4 : forall p q, apt_ask p <> apt_add [] q) by (intros p q [=]).
  assert (H5 : forall p q, apt_ask p <> apt_erase [] q) by (intros p q [=]).
  assert (H6 : forall p q, apt_add [] p <> apt_erase [] q).
  { intros p q E. apply (f_equal (fun l => default [] (l !! 1))) in E. cbn in E. vm_compute in E. discriminate. }
  split; [split_and!|split; [apply listed_stable|split_and!; vm_compute; reflexivity]].
  - intros p q s x s' E Ex. unfold mint in Ex. rewrite (depot_query true apt_ask (apt_add []) (apt_erase []) H1 p q s E) in Ex. unfold reply in Ex.
    injection Ex as <- <-. split; [apply unaffected_refl|]. intros rc out err b Hx [_ Hb]. unfold listed. rewrite <- str_in_true. injection Hx as <- <- _. rewrite Hb.
    destruct (str_in p _); cbn.
    + split; [auto|]. intros _. exists (blit "install "), []. vm_compute. reflexivity.
    + split; [|discriminate]. intros (y & z & Hyz). apply (f_equal length) in Hyz. rewrite !app_length in Hyz. cbn in Hyz. lia.
  - intros p q s x s' E Ex. unfold mint in Ex. pose proof (depot_installs true apt_ask (apt_add []) (apt_erase []) H2 H4 p q s) as K. rewrite (depot_install true apt_ask (apt_add []) (apt_erase []) H2 H4 p q s E) in *.
    injection Ex as <- <-. apply (K _ _ E eq_refl).
  - intros p q s x s' E Ex. unfold mint in Ex. pose proof (depot_removes true apt_ask (apt_add []) (apt_erase []) H3 H5 H6 p q s) as K. rewrite (depot_remove true apt_ask (apt_add []) (apt_erase []) H3 H5 H6 p q s E) in *.
    injection Ex as <- <-. apply (K _ _ E eq_refl).
Qed.

(** ** False for apt: the program that is asked is called "dpgk-query", which does not exist.
    [fine c -> (commands of apt and dpkg work) -> exists x, operation a (apt_package packages present opts) c = (Ok x, c')]
    fails for every list of packages that is not empty. *)
Definition dpkg_query (p : pystr) : list pystr := [lit "dpkg-query"; lit "--show"; lit "--showformat=${Status}"; lit "--"; p].
Definition debian := depot false dpkg_query (apt_add []) (apt_erase []).
Theorem C57_apt_refuted : exists exec has c,
  (answers exec has dpkg_query by_code /\ installs exec has (apt_add []) /\ removes exec has (apt_erase []) /\ stable has) /\ bounded exec /\
  (forall p, dependable exec (dpkg_query p) (fun _ _ => True)) /\ (forall (b : bool) p, dependable exec (if b then apt_add [] p else apt_erase [] p) ended) /\
  fine c /\
  forall set_order packages present a, packages <> [] -> exists e, fst (operation a (apt_package exec fake_hash false set_order packages present None) c) = Err e.
Proof.
  exists debian, listed, on_site.
  assert (H1 : forall p, last (dpkg_query p) = Some p) by reflexivity.
  assert (H2 : forall p, last (apt_add [] p) = Some p) by reflexivity.
  assert (H3 : forall p, last (apt_erase [] p) = Some p) by reflexivity.
  assert (H4 : forall p q, dpkg_query p <> apt_add [] q) by (intros p q [=]).
  assert (H5 : forall p q, dpkg_query p <> apt_erase [] q) by (intros p q [=]).
  assert (H6 : forall p q, apt_add [] p <> apt_erase [] q).
  { intros p q E. apply (f_equal (fun l => default [] (l !! 1))) in E. cbn in E. vm_compute in E. discriminate. }
  split; [split_and!; [apply (depot_answers false)|apply depot_installs|apply depot_removes|apply listed_stable]; assumption|].
  split; [apply depot_bounded|]. split; [intros p q s E Hs; destruct (depot_dependable_query false _ (apt_add []) (apt_erase []) H1 p q s E Hs) as (rc & out & err & s' & K1 & _ & K2); exists rc, out, err, s'; auto|]. split; [intros b p; apply depot_dependable; assumption|].
  split; [apply site_fine|]. intros set_order packages present a Hp. destruct packages as [|p packages]; [contradiction|].
  destruct (operation a _ on_site) as [r c'] eqn:E. cbn. unfold apt_package in E.
  rewrite (operation_plain _ _ _ _ (generic_plain false set_order (p :: packages) present _ _ _)) in E.
  apply bind_spec in E as [(x & c2 & E & _)|(e & _ & ->)]; [|eauto]. exfalso. apply bind_spec in E as [(l & c1 & E & _)|(e & _ & [=])].
  cbn [probe_all] in E. apply bind_spec in E as [(b & c3 & E & _)|(e & _ & [=])]. unfold apt_has in E. apply bind_spec in E as [(z & c4 & E & _)|(e & _ & [=])].
  apply run_does in E as (_ & l0 & _ & E). apply ran_ok in E as (_ & q & s1 & rc & out & err & _ & E & Eq & _); [|apply depot_bounded].
  unfold debian, depot in E. rewrite Eq in E. change (default [] (last (apt_query p))) with p in E.
  rewrite bool_decide_eq_false_2 in E by (intros K; apply (f_equal (fun l => default [] (l !! 0))) in K; vm_compute in K; discriminate).
  rewrite !bool_decide_eq_false_2 in E by (intros [=]). discriminate.
Qed.
Print Assumptions C57_apt_refuted.
