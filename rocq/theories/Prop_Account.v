(** C54, C55, C56: accounts and groups. *)
From Coq Require Import Lia ZifyBool ZifyN ZifyNat.
From stdpp Require Import gmap.
From Verif Require Import Base Utf8 Dict_proofs Codec Spec_Codec Paths Sys Spec_Sys Sys_proofs Dispatcher Client Spec_Session Spec_Remote Remote_run Digits Control Spec_Control Control_proofs
  Walk_proofs Quiet Prop_Control Op Op_proofs Files Files_plain Spec_Files Shell_proofs Steps Dir_proofs Remote_examples Files_examples Prop_Files System Spec_Commands Commands_proofs Package_proofs Prop_Package
  Spec_Account Query_proofs Account_proofs Account_run Shadow.
Local Open Scope nat_scope.

Lemma same_result a x r (y : opres) : outcome a x r -> r = Ok y -> x = Ok y.
Proof. intros Ho ->. destruct x as [z|e]; cbn in Ho; [|discriminate]. destruct Ho as [[Ho _]|(_ & _ & Ho)]; [congruence|discriminate]. Qed.

Section C54.
  Variable exec : proc -> M xres.
  Variable sha512 : bytes -> bytes.
  Hypothesis Hb : bounded exec.
  Hypothesis Hsu : shadow_utils exec.

  (** Full statement: [C54_partial] and [C54_rerun_partial] for all requests and systems, where uid=0, groups=[] and empty texts
      are requests as well.  It is false, see below. *)
  Theorem C54_partial u uid group groups append system hash home shell comment a c r c' :
    c_string u -> plain_request (sysof c) u group groups ->
    operation a (user exec sha512 false u true uid group groups append system hash home shell comment) c = (r, c') ->
    c' = set_remote (c_remote c') c /\ exists l, history exec (sysof c) l (sysof c') /\ others u (sysof c) (sysof c') /\
      forall x, r = Ok x -> or_success x = true /\ (or_changed x = false -> l = []) /\
        user_granted u uid group groups append hash home shell comment (sysof c) (sysof c').
  Proof.
    intros Hu Hp E. rewrite (operation_plain _ _ _ _ (user_plain exec sha512 false u true uid group groups append system hash home shell comment)) in E. apply verdict_outcome in E as (y & E & Ho).
    apply (present_does exec sha512 Hb Hsu) in E as (H1 & l & H2 & H3 & _ & H4); [|assumption..]. split; [exact H1|]. exists l. split; [exact H2|]. split; [exact H3|].
    intros x Hx. destruct (H4 x (same_result _ _ _ _ Ho Hx)) as (G1 & G2 & G3). auto.
  Qed.
  Theorem C54_rerun_partial u uid group groups append system hash home shell comment a s0 c r c' :
    c_string u -> py_int 10 u = None -> (forall l, asks_list groups l -> NoDup l) -> NoDup (gids (sysof c)).*1 ->
    (forall g g' n, asks_text group g -> (g, n) ∈ gids (sysof c) -> (g', n) ∈ gids (sysof c) -> g' = g) ->
    user_granted u uid group groups append hash home shell comment s0 (sysof c) ->
    operation a (user exec sha512 false u true uid group groups append system hash home shell comment) c = (r, c') ->
    sysof c' = sysof c /\ forall x, r = Ok x -> or_success x = true /\ or_changed x = false.
  Proof.
    clear Hb Hsu. intros H1 H2 H3 H4 H5 H6 E. rewrite (operation_plain _ _ _ _ (user_plain exec sha512 false u true uid group groups append system hash home shell comment)) in E.
    apply verdict_outcome in E as (y & E & Ho). eapply again_does in E as (_ & K1 & K2); [|eassumption..]. split; [exact K1|]. intros x Hx. apply K2. eapply same_result; eassumption.
  Qed.
  (** Full statement: without the hypothesis that an existing account is complete. *)
  Theorem C55_partial u uid group groups append system hash home shell comment a c r c' :
    c_string u -> py_int 10 u = None -> (forall b, entry (sysof c) u = Some b -> complete (sysof c) u b) ->
    operation a (user exec sha512 false u false uid group groups append system hash home shell comment) c = (r, c') ->
    c' = set_remote (c_remote c') c /\ exists l, history exec (sysof c) l (sysof c') /\ others u (sysof c) (sysof c') /\
      (forall x, r = Ok x -> or_success x = true /\ (or_changed x = false -> l = []) /\ entry (sysof c') u = None /\
        (entry (sysof c) u <> None -> secret (sysof c') u = None /\ forall g, ~ member (sysof c') g u)) /\
      (entry (sysof c) u = None -> sysof c' = sysof c /\ forall x, r = Ok x -> or_changed x = false).
  Proof.
    intros Hu Hn Hc E. rewrite (operation_plain _ _ _ _ (user_plain exec sha512 false u false uid group groups append system hash home shell comment)) in E. apply verdict_outcome in E as (y & E & Ho).
    apply (absent_does exec sha512 Hb Hsu) in E as (H1 & l & H2 & (H3 & _ & H4) & H5); [|assumption..]. split; [exact H1|]. exists l. split; [exact H2|]. split; [exact H3|]. split.
    - intros x Hx. destruct (H4 x (same_result _ _ _ _ Ho Hx)) as (G1 & G2 & G3). destruct (G3 eq_refl) as [K1 K2]. split; [exact G1|]. split; [exact G2|]. split; [exact K1|]. intros H. apply K2. exact H.
    - intros H. destruct (H5 H) as (K1 & _ & K3). split; [exact K1|]. intros x Hx. apply K3. eapply same_result; eassumption.
  Qed.
  (** Full statement: also for gid=0 and names that are numbers.  It is false, see below. *)
  Theorem C56_partial g (present : bool) gid system a c r c' : c_string g -> py_int 10 g = None ->
    operation a (System.group exec sha512 false g present gid system) c = (r, c') ->
    c' = set_remote (c_remote c') c /\ exists l, history exec (sysof c) l (sysof c') /\ other_groups g (sysof c) (sysof c') /\
      forall x, r = Ok x -> or_success x = true /\ (or_changed x = false -> l = []) /\
        if present then group_granted g gid (sysof c) (sysof c') else gid_of (sysof c') g = None.
  Proof.
    intros Hg Hn E. rewrite (operation_plain _ _ _ _ (group_plain exec sha512 false g present gid system)) in E. apply verdict_outcome in E as (y & E & Ho).
    apply (group_does exec sha512 Hb Hsu) in E as (H1 & l & H2 & (H3 & _ & H4) & _); [|assumption..]. split; [exact H1|]. exists l. split; [exact H2|]. split; [exact H3|].
    intros x Hx. destruct (H4 x (same_result _ _ _ _ Ho Hx)) as (G1 & G2 & G3). split; [exact G1|]. split; [exact G2|]. specialize (G3 eq_refl). destruct present; exact G3.
  Qed.
  Theorem C56_rerun_partial g (present : bool) gid system a s0 c r c' : c_string g -> py_int 10 g = None ->
    (if present then group_granted g gid s0 (sysof c) else gid_of (sysof c) g = None) ->
    operation a (System.group exec sha512 false g present gid system) c = (r, c') ->
    sysof c' = sysof c /\ forall x, r = Ok x -> or_success x = true /\ or_changed x = false.
  Proof.
    intros Hg Hn H0 E. rewrite (operation_plain _ _ _ _ (group_plain exec sha512 false g present gid system)) in E. apply verdict_outcome in E as (y & E & Ho).
    apply (group_does exec sha512 Hb Hsu) in E as (H1 & l & H2 & (_ & _ & H3) & H4); [|assumption..]. destruct H4 as (K1 & _ & K3).
    { destruct present; [|exact H0]. destruct H0 as (n & N1 & N2 & _). eauto. }
    split; [exact K1|]. intros x Hx. pose proof (same_result _ _ _ _ Ho Hx) as Hy. split; [apply (H3 x Hy)|apply (K3 x Hy)].
  Qed.
End C54.
Print Assumptions C54_partial.
Print Assumptions C54_rerun_partial.
Print Assumptions C55_partial.
Print Assumptions C56_partial.
Print Assumptions C56_rerun_partial.

(** ** Examples *)
Definition bob := lit "bob". Definition carol := lit "carol". Definition wheel := lit "wheel". Definition audio := lit "audio".
Definition bobs : account := Account bob 1001 1001 (lit "Bob") (lit "/home/bob") (lit "/bin/bash").
Definition office_db (s : os) : os := set_db (o_passwd s ++ [bobs])
  (o_group s ++ [Grent bob 1001 []; Grent wheel 10 []; Grent audio 20 [bob]]) (o_shadow s ++ [(bob, lit "$6$x")]) s.
Definition office : ctl := on (office_db site) ex_base.
Lemma office_fine : fine office.
Proof.
  split; [split_and!; reflexivity|]. exists ex_settled. split; [reflexivity|]. split_and!; try exact I.
  - split; [split; [text|dec]|]. exists (Account (lit "root") 0 0 [] (lit "/root") (lit "/bin/sh")). split; [left|left; reflexivity].
  - split; [split; [text|dec]|]. exists (Grent (lit "root") 0 []). split; [left|left; reflexivity].
  - split; [text|]. eexists. split; [vm_compute; reflexivity|]. unfold c_int. lia.
  - split; [split; [text|dec]|]. split; [reflexivity|]. eexists _, _. split; [vm_compute; reflexivity|reflexivity].
Qed.
Lemma bob_string : c_string bob. Proof. split; [text|dec]. Qed.
Lemma carol_string : c_string carol. Proof. split; [text|dec]. Qed.
Lemma tame_text g : bool_decide (g <> [] /\ 44%N ∉ g /\ py_int 10 g = None) = true -> tame g.
Proof. intros H. apply bool_decide_eq_true in H. exact H. Qed.
Lemma office_members g u : member (sysof office) g u -> g = audio /\ u = bob.
Proof.
  intros (e & H1 & H2 & H3). cbn in H1. rewrite !elem_of_cons in H1.
  destruct H1 as [-> |[-> |[-> |[-> |[-> |H1]]]]]; cbn in H2, H3; try (inversion H3; fail); [|inversion H1]. apply elem_of_list_singleton in H3. auto.
Qed.
Lemma bob_complete : complete (sysof office) bob bobs.
Proof. split; [vm_compute; reflexivity|]. split; [exists (lit "$6$x"); vm_compute; reflexivity|]. exists bob. apply elem_of_list_In. vm_compute. tauto. Qed.
Lemma office_plain u group groups : u = bob \/ u = carol -> (forall g, asks_text group g -> tame g) -> (forall l, asks_list groups l -> Forall tame l) ->
  plain_request (sysof office) u group groups.
Proof.
  intros Hu H1 H2. split; [destruct Hu as [-> | ->]; vm_compute; reflexivity|]. split; [exact H1|]. split; [exact H2|]. split.
  - intros g H. apply office_members in H as [-> ->]. split; [apply tame_text; vm_compute; reflexivity|]. vm_compute. discriminate.
  - destruct Hu as [-> | ->]; intros a H; [|vm_compute in H; discriminate]. assert (a = bobs) as -> by (vm_compute in H; injection H as <-; reflexivity). apply bob_complete.
Qed.

(** An account is changed; the second run changes nothing. *)
Definition edit_bob := user shadow fake_hash false bob true (Some 1005%Z) (Some (lit "users")) (Some [wheel]) true false (Some (lit "$6$y")) None (Some (lit "/bin/zsh")) None.
Example C54_case :
  let c1 := snd (operation NotGiven edit_bob office) in let c2 := snd (operation NotGiven edit_bob c1) in
  bounded shadow /\ shadow_utils shadow /\ fine office /\ c_string bob /\ plain_request (sysof office) bob (Some (lit "users")) (Some [wheel]) /\
  or_success (result_of (operation NotGiven edit_bob office)) = true /\ or_changed (result_of (operation NotGiven edit_bob office)) = true /\
  entry (sysof c1) bob = Some (Account bob 1005 100 (lit "Bob") (lit "/home/bob") (lit "/bin/zsh")) /\ secret (sysof c1) bob = Some (lit "$6$y") /\
  groups_of (sysof c1) bob = [wheel; audio] /\
  NoDup [wheel] /\ NoDup (gids (sysof c1)).*1 /\
  or_success (result_of (operation NotGiven edit_bob c1)) = true /\ or_changed (result_of (operation NotGiven edit_bob c1)) = false.
Proof.
  intros c1 c2. split; [apply shadow_bounded|]. split; [apply shadow_ok|]. split; [apply office_fine|]. split; [apply bob_string|]. split.
  { apply office_plain; [auto|..].
    - intros g [[= <-] _]. apply tame_text. vm_compute. reflexivity.
    - intros l [[= <-] _]. repeat constructor; apply tame_text; vm_compute; reflexivity. }
  split_and!; try (vm_compute; reflexivity); (eapply bool_decide_eq_true; vm_compute; reflexivity).
Qed.
(** A new account. *)
Definition add_carol := user shadow fake_hash false carol true None None (Some [wheel; audio]) false true None (Some (lit "/home/carol")) None (Some (lit "Carol")).
Example C54_case_new :
  let c1 := snd (operation NotGiven add_carol office) in
  plain_request (sysof office) carol None (Some [wheel; audio]) /\
  or_success (result_of (operation NotGiven add_carol office)) = true /\ or_changed (result_of (operation NotGiven add_carol office)) = true /\
  entry (sysof c1) carol = Some (Account carol 1002 1002 (lit "Carol") (lit "/home/carol") (lit "/sbin/nologin")) /\ secret (sysof c1) carol = Some (lit "!") /\
  gid_of (sysof c1) carol = Some 1002%N /\ groups_of (sysof c1) carol = [wheel; audio] /\ groups_of (sysof c1) bob = [audio] /\
  or_success (result_of (operation NotGiven add_carol c1)) = true /\ or_changed (result_of (operation NotGiven add_carol c1)) = false.
Proof.
  intros c1. split.
  { apply office_plain; [auto|..].
    - intros g [[=] _].
    - intros l [[= <-] _]. repeat constructor; apply tame_text; vm_compute; reflexivity. }
  split_and!; vm_compute; reflexivity.
Qed.
Definition drop (u : pystr) := user shadow fake_hash false u false None None None true false None None None None.
Example C55_case :
  let c1 := snd (operation NotGiven (drop bob) office) in
  complete (sysof office) bob bobs /\ or_success (result_of (operation NotGiven (drop bob) office)) = true /\ or_changed (result_of (operation NotGiven (drop bob) office)) = true /\
  entry (sysof c1) bob = None /\ groups_of (sysof c1) bob = [] /\
  or_success (result_of (operation NotGiven (drop bob) c1)) = true /\ or_changed (result_of (operation NotGiven (drop bob) c1)) = false.
Proof. intros c1. split; [apply bob_complete|]. split_and!; vm_compute; reflexivity. Qed.
Definition mkgroup (g : pystr) (present : bool) (gid : option Z) := System.group shadow fake_hash false g present gid true.
Example C56_case :
  let c1 := snd (operation NotGiven (mkgroup wheel true (Some 11%Z)) office) in
  let c2 := snd (operation NotGiven (mkgroup (lit "video") true None) c1) in
  let c3 := snd (operation NotGiven (mkgroup audio false None) c2) in
  py_int 10 wheel = None /\ gid_of (sysof office) wheel = Some 10%N /\
  or_success (result_of (operation NotGiven (mkgroup wheel true (Some 11%Z)) office)) = true /\ or_changed (result_of (operation NotGiven (mkgroup wheel true (Some 11%Z)) office)) = true /\
  gid_of (sysof c1) wheel = Some 11%N /\ gid_of (sysof c2) (lit "video") = Some 1002%N /\ gid_of (sysof c2) audio = Some 20%N /\ gid_of (sysof c3) audio = None /\ gid_of (sysof c3) wheel = Some 11%N /\
  or_changed (result_of (operation NotGiven (mkgroup wheel true (Some 11%Z)) c3)) = false /\ or_success (result_of (operation NotGiven (mkgroup wheel true (Some 11%Z)) c3)) = true.
Proof. intros c1 c2 c3. split_and!; vm_compute; reflexivity. Qed.

(** ** False: "if system.user succeeds, the account has all requested properties":
      C54_partial with [asks_int uid z] as [uid = Some z], [asks_list groups l] as [groups = Some l], [asks_text comment v] as [comment = Some v].
    uid=0, an empty list of groups and an empty comment are ignored; all is well, allegedly: *)
Theorem C54_refuted : exists exec u c x c', bounded exec /\ shadow_utils exec /\ fine c /\ c_string u /\ plain_request (sysof c) u None (Some []) /\
  operation NotGiven (user exec fake_hash false u true (Some 0%Z) None (Some []) false false None None None (Some [])) c = (Ok x, c') /\
  or_success x = true /\ or_changed x = false /\
  (exists a, entry (sysof c') u = Some a /\ pw_uid a <> 0%N /\ pw_gecos a <> []) /\ exists g, member (sysof c') g u.
Proof.
  set (op := user shadow fake_hash false bob true (Some 0%Z) None (Some []) false false None None None (Some [])). set (c1 := snd (operation NotGiven op office)).
  exists shadow, bob, office, (result_of (operation NotGiven op office)), c1. split; [apply shadow_bounded|]. split; [apply shadow_ok|]. split; [apply office_fine|]. split; [apply bob_string|].
  split; [apply office_plain; [auto|intros g [[=] _]|intros l [[= <-] H]; contradiction]|]. split; [ran|]. split; [vm_compute; reflexivity|]. split; [vm_compute; reflexivity|]. split.
  - exists bobs. split; [vm_compute; reflexivity|]. split; discriminate.
  - exists audio. apply groups_of_spec. apply elem_of_list_In. vm_compute. tauto.
Qed.
(** ** False: "rerunning it changes nothing": C54_rerun_partial without [NoDup l], and for a group that is given by number. *)
Theorem C54_rerun_refuted : exists exec u c,
  bounded exec /\ shadow_utils exec /\ fine c /\ c_string u /\
  forall group groups, (group = None /\ groups = Some [wheel; wheel]) \/ (group = Some (lit "100") /\ groups = None) ->
    let op := user exec fake_hash false u true None group groups false false None None None None in
    let x1 := operation NotGiven op c in let x2 := operation NotGiven op (snd x1) in let x3 := operation NotGiven op (snd x2) in
    or_success (result_of x1) = true /\ or_success (result_of x2) = true /\ or_changed (result_of x2) = true /\ or_success (result_of x3) = true /\ or_changed (result_of x3) = true /\
    entry (sysof (snd x2)) u = entry (sysof (snd x1)) u /\ groups_of (sysof (snd x2)) u = groups_of (sysof (snd x1)) u.
Proof.
  exists shadow, bob, office. split; [apply shadow_bounded|]. split; [apply shadow_ok|]. split; [apply office_fine|]. split; [apply bob_string|].
  intros group groups [[-> ->]|[-> ->]]; cbv zeta; split_and!; vm_compute; reflexivity.
Qed.
(** ** False: "if system.user succeeds, there is such an account": C54_partial for names that are numbers.
    They are taken for the number of some user. *)
Theorem C54_number_refuted : exists exec u c x c', bounded exec /\ shadow_utils exec /\ fine c /\ c_string u /\
  operation NotGiven (user exec fake_hash false u true None None None true false None None None None) c = (Ok x, c') /\
  or_success x = true /\ entry (sysof c') u = None.
Proof.
  set (u := lit "1001"). set (op := user shadow fake_hash false u true None None None true false None None None None).
  exists shadow, u, office, (result_of (operation NotGiven op office)), (snd (operation NotGiven op office)). split; [apply shadow_bounded|]. split; [apply shadow_ok|]. split; [apply office_fine|].
  split; [split; [text|dec]|]. split; [ran|]. split; vm_compute; reflexivity.
Qed.
(** ** False: "the new account is a member of the requested groups only": C54_partial for a user who is named as a member
    of a group, but does not exist.  Nothing is done about the memberships that are left. *)
Definition stray_office : ctl := on (set_db (o_passwd (office_db site)) (o_group (office_db site) ++ [Grent (lit "docker") 30 [carol]]) (o_shadow (office_db site)) (office_db site)) ex_base.
Lemma stray_fine : fine stray_office.
Proof.
  split; [split_and!; reflexivity|]. exists ex_settled. split; [reflexivity|]. split_and!; try exact I.
  - split; [split; [text|dec]|]. exists (Account (lit "root") 0 0 [] (lit "/root") (lit "/bin/sh")). split; [left|left; reflexivity].
  - split; [split; [text|dec]|]. exists (Grent (lit "root") 0 []). split; [left|left; reflexivity].
  - split; [text|]. eexists. split; [vm_compute; reflexivity|]. unfold c_int. lia.
  - split; [split; [text|dec]|]. split; [reflexivity|]. eexists _, _. split; [vm_compute; reflexivity|reflexivity].
Qed.
Theorem C54_stray_refuted : exists exec u l c x c', bounded exec /\ shadow_utils exec /\ fine c /\ c_string u /\ entry (sysof c) u = None /\ Forall tame l /\
  operation NotGiven (user exec fake_hash false u true None None (Some l) false false None None None None) c = (Ok x, c') /\
  or_success x = true /\ exists g, member (sysof c') g u /\ g ∉ l.
Proof.
  set (c := stray_office).
  set (op := user shadow fake_hash false carol true None None (Some [wheel]) false false None None None None).
  exists shadow, carol, [wheel], c, (result_of (operation NotGiven op c)), (snd (operation NotGiven op c)). split; [apply shadow_bounded|]. split; [apply shadow_ok|].
  split; [apply stray_fine|].
  split; [apply carol_string|]. split; [vm_compute; reflexivity|]. split; [repeat constructor; apply tame_text; vm_compute; reflexivity|].
  split; [ran|]. split; [vm_compute; reflexivity|]. exists (lit "docker"). split.
  - apply groups_of_spec. apply elem_of_list_In. vm_compute. tauto.
  - intros H. apply elem_of_list_singleton in H. vm_compute in H. discriminate.
Qed.
(** ** False: "system.user(present=False) succeeds only if the user does not exist afterwards": C55_partial for an account that
    has no password entry.  It counts as absent. *)
Theorem C55_refuted : exists exec u c x c', bounded exec /\ shadow_utils exec /\ fine c /\ c_string u /\ py_int 10 u = None /\
  operation NotGiven (user exec fake_hash false u false None None None true false None None None None) c = (Ok x, c') /\
  or_success x = true /\ or_changed x = false /\ entry (sysof c') u <> None.
Proof.
  set (u := lit "alice"). exists shadow, u, office, (result_of (operation NotGiven (drop u) office)), (snd (operation NotGiven (drop u) office)).
  split; [apply shadow_bounded|]. split; [apply shadow_ok|]. split; [apply office_fine|]. split; [split; [text|dec]|]. split; [vm_compute; reflexivity|]. split; [ran|].
  split; [vm_compute; reflexivity|]. split; [vm_compute; reflexivity|]. vm_compute. discriminate.
Qed.
(** ** False: "if system.group succeeds the group exists with the requested gid": C56_partial with [asks_int gid z] as
    [gid = Some z], or for names that are numbers. *)
Theorem C56_refuted : exists exec g c x c', bounded exec /\ shadow_utils exec /\ fine c /\ c_string g /\ py_int 10 g = None /\
  operation NotGiven (System.group exec fake_hash false g true (Some 0%Z) false) c = (Ok x, c') /\ or_success x = true /\ or_changed x = false /\ gid_of (sysof c') g <> Some 0%N.
Proof.
  set (op := System.group shadow fake_hash false wheel true (Some 0%Z) false). exists shadow, wheel, office, (result_of (operation NotGiven op office)), (snd (operation NotGiven op office)).
  split; [apply shadow_bounded|]. split; [apply shadow_ok|]. split; [apply office_fine|]. split; [split; [text|dec]|]. split; [vm_compute; reflexivity|]. split; [ran|].
  split; [vm_compute; reflexivity|]. split; [vm_compute; reflexivity|]. vm_compute. discriminate.
Qed.
Theorem C56_number_refuted : exists exec g c x c', bounded exec /\ shadow_utils exec /\ fine c /\ c_string g /\
  operation NotGiven (System.group exec fake_hash false g true None false) c = (Ok x, c') /\ or_success x = true /\ gid_of (sysof c') g = None.
Proof.
  set (g := lit "100"). set (op := System.group shadow fake_hash false g true None false). exists shadow, g, office, (result_of (operation NotGiven op office)), (snd (operation NotGiven op office)).
  split; [apply shadow_bounded|]. split; [apply shadow_ok|]. split; [apply office_fine|]. split; [split; [text|dec]|]. split; [ran|]. split; vm_compute; reflexivity.
Qed.
Print Assumptions C54_refuted.
Print Assumptions C54_rerun_refuted.
Print Assumptions C54_number_refuted.
Print Assumptions C54_stray_refuted.
Print Assumptions C55_refuted.
Print Assumptions C56_refuted.
Print Assumptions C56_number_refuted.
