(** Directories and files: the bodies of the operations. *)
From Coq Require Import Lia ZifyBool ZifyN ZifyNat.
From stdpp Require Import gmap.
From Verif Require Import Base Utf8 Dict_proofs Digits Codec Spec_Codec Codec_proofs Codec_proofs2 Paths Sys Spec_Sys Sys_proofs Dispatcher Client Spec_Session Session_proofs Spec_Remote
  Remote_safe Remote_proofs Remote_upload Remote_run Direct Control Spec_Control Control_proofs Control_settle Quiet Thrift Op Op_proofs Files Coreutils Walk_proofs Spec_Files Shell_proofs Files_plain Steps.
Local Open Scope nat_scope.

Lemma spends_honest s s' : spends s s' -> honest s -> honest s'.
Proof. intros [_ [l H]] Hh k Hk. apply (Hh k). rewrite H. apply elem_of_app. auto. Qed.
Lemma spends_os_ok s s' : spends s s' -> os_ok s -> os_ok s'.
Proof.
  intros [H [l Hl]] (O1 & O2 & O3 & O4 & O5 & O6 & O7 & O8 & O9 & O10). rewrite Hl in O10. apply Forall_app in O10 as [_ O10]. rewrite H. split_and!; auto.
Qed.
Section operations.
  Variable exec : proc -> M xres.
  Variable sha512 : bytes -> bytes.
  Definition outcome (a : check_arg) (x r : result opres) : Prop :=
    match x with
    | Err e => r = Err e
    | Ok res => (r = Ok res /\ (seen_check a = true -> or_success res = true)) \/
                (or_success res = false /\ seen_check a = true /\ r = Err (OperationError (default (lit "None") (or_message res))))
    end.
  Lemma verdict_outcome a (w : W opres) c r c' : (w ≫= verdict a) c = (r, c') -> exists x, w c = (x, c') /\ outcome a x r.
  Proof.
    intros E. apply bind_spec in E as [(res & c1 & E1 & E)|(e & E & ->)].
    - exists (Ok res). unfold verdict in E. cbn. destruct (seen_check a) eqn:Ea; cbn in E.
      + destruct (or_success res) eqn:Es; cbn in E; injection E as <- <-; split; auto.
      + injection E as <- <-. split; [assumption|]. left. split; [reflexivity|discriminate].
    - exists (Err e). split; [exact E|reflexivity].
  Qed.
  Lemma absolute_isabs path : isabs path = true <-> absolute path.
  Proof.
    unfold isabs, absolute. change (lit "/") with [slash]. destruct path as [|x p]; cbn [startswith]; [split; [discriminate|intros [r [=]]]|].
    assert (Hnil : startswith p [] = true) by (destruct p; reflexivity). rewrite Hnil, andb_true_r. rewrite N.eqb_eq.
    split; [intros <-; eauto|]. intros [r [= -> _]]. reflexivity.
  Qed.
  Lemma check_path path c : (isabs path = true /\ check_absolute_path path c = (Ok tt, c)) \/
    (isabs path = false /\ exists m, check_absolute_path path c = (Err (ValueError m), c)).
  Proof.
    destruct (isabs path) eqn:E; [left|right]; (split; [reflexivity|]).
    - apply absolute_isabs in E as [r ->]. reflexivity.
    - destruct path as [|x p]; [eexists; reflexivity|]. unfold check_absolute_path. destruct (N.eqb_spec x slash) as [-> |]; [|eexists; reflexivity].
      assert (isabs (slash :: p) = true) by (apply absolute_isabs; exists p; reflexivity). congruence.
  Qed.

  Lemma op_any a path q body (op : O opres) c r c' reqs d0 :
    yields op new_op (_ ← check_absolute_path path; script_defaults exec sha512 q body) ->
    (forall d, remotely (body d)) -> operation a op c = (r, c') -> active c = Some d0 -> enclosing (sysof c) (c_base c) reqs d0 ->
    c' = set_remote (c_remote c') c /\
    ((unaffected (sysof c) (sysof c') /\ exists e, r = Err e) \/
     (isabs path = true /\ exists c1 attr x c2, spends (sysof c) (sysof c1) /\ settles (sysof c) (c_base c) (reqs ++ [q]) attr /\ active c1 = Some attr /\
        body attr c1 = (x, c2) /\ c_remote c' = c_remote c2 /\ outcome a x r)).
  Proof.
    intros Hy Hb E Ha Henc. rewrite (operation_plain a op _ c Hy) in E. apply verdict_outcome in E as (x & E & Hx).
    destruct (check_path path c) as [[Hp Hc]|[Hp [m Hc]]].
    - rewrite (bind_works _ _ _ _ _ Hc) in E. split; [eapply remotely_block; eassumption|].
      destruct (block_any exec sha512 q body c x c' reqs d0 E Ha Henc) as [[H1 [e ->]]|(c1 & attr & c2 & F1 & F2 & F3 & F4 & F5)].
      + left. split; [exact H1|]. cbn in Hx. eauto.
      + right. split; [exact Hp|]. exists c1, attr, x, c2. auto 10.
    - unfold mbind, W_bind in E. rewrite Hc in E. injection E as <- <-. split; [symmetry; apply set_remote_self|]. left.
      split; [apply unaffected_refl|]. cbn in Hx. eauto.
  Qed.
  Lemma op_fine a path q body (op : O opres) c r c' reqs d0 :
    yields op new_op (_ ← check_absolute_path path; script_defaults exec sha512 q body) ->
    isabs path = true -> operation a op c = (r, c') -> active c = Some d0 -> enclosing (sysof c) (c_base c) reqs d0 ->
    healthy c -> os_ok (sysof c) -> hash_ok sha512 -> accounts_ok (sysof c) -> feasible (sysof c) (c_base c) (reqs ++ [q]) ->
    exists c1 attr x c2, c_remote c1 = c_remote c /\ fine c1 /\ settles (sysof c) (c_base c) (reqs ++ [q]) attr /\ active c1 = Some attr /\
      body attr c1 = (x, c2) /\ c_remote c' = c_remote c2 /\ octal_below 4096 (s_file_mode attr) /\ octal_below 4096 (s_dir_mode attr) /\ outcome a x r.
  Proof.
    intros Hy Hp E Ha Henc Hh Hos Hha Hac Hfe. rewrite (operation_plain a op _ c Hy) in E. apply verdict_outcome in E as (x & E & Hx).
    destruct (check_path path c) as [[_ Hc]|[Hp' _]]; [|congruence]. rewrite (bind_works _ _ _ _ _ Hc) in E.
    destruct (block_fine exec sha512 q body c x c' reqs d0 E Ha Henc Hh Hos Hha Hac Hfe) as (c1 & attr & c2 & F1 & F2 & F3 & F4 & F5 & F6 & F7 & F8).
    exists c1, attr, x, c2. auto 12.
  Qed.
  (** ** C48: relative paths *)
  Lemma op_relative a path q body (op : O opres) c : yields op new_op (_ ← check_absolute_path path; script_defaults exec sha512 q body) ->
    ~ absolute path -> exists m, operation a op c = (Err (ValueError m), c).
  Proof.
    intros Hy Hp. rewrite (operation_plain a op _ c Hy). destruct (check_path path c) as [[Hp' _]|[_ [m Hc]]]; [apply absolute_isabs in Hp'; contradiction|].
    exists m. unfold mbind, W_bind. rewrite Hc. reflexivity.
  Qed.
End operations.

(** ** Removed files *)
Lemma leads_grows fs fs' f cur l pl : grows fs fs' -> leads fs f cur l pl -> leads fs' f cur l pl.
Proof.
  intros Hg. assert (Hk : forall q k, kind_at fs q = Some k -> exists k', kind_at fs' q = Some k' /\ match k with KFile _ => exists b, k' = KFile b | _ => k' = k end).
  { unfold kind_at. intros q k. destruct (fs !! q) as [n|] eqn:E; cbn; [|discriminate]. intros [= <-]. apply Hg in E as (n' & -> & Hs). cbn. exists (n_kind n'). split; [reflexivity|].
    unfold shape in Hs. destruct (n_kind n), (n_kind n'); try discriminate Hs; eauto. }
  induction 1 as [| | |? ? ? ? ? K|? ? ? ? K|? ? ? ? K|? ? ? ? K|? ? ? ? ? ? K]; try (econstructor; eauto; fail).
  all: apply Hk in K as (k' & K & Kx).
  - subst. eapply leads_dir; eauto.
  - destruct Kx as [b' ->]. eapply leads_file; eauto.
  - subst. eapply leads_other; eauto.
  - subst. eapply leads_this; eauto.
  - subst. eapply leads_link; eauto.
Qed.
Lemma gone_missing s s' path pl n : resolve_node (o_fs s) [] path false = Ok (pl, n) -> grows (o_fs s') (o_fs s) -> o_fs s' !! pl = None -> missing s' path.
Proof.
  intros Hr Hg Hn pl' n' (N1 & N2 & N3 & N4). apply resolve_node_names in Hr. apply (leads_grows _ _ _ _ _ _ Hg) in N3.
  destruct (Hg _ _ N4) as (n2 & N5 & _). destruct (names_det _ _ _ _ _ _ _ _ Hr (conj N1 (conj N2 (conj N3 N5)))) as [-> _]. congruence.
Qed.
Lemma none_missing s path : resolve_node (o_fs s) [] path false = Err (oserr ENOENT) -> missing s path.
Proof. intros H pl n Hn. apply names_resolve in Hn as [Hn|Hn]; rewrite H in Hn; discriminate. Qed.
Lemma removed_grows pl s s' : only_removed pl s s' -> grows (o_fs s') (o_fs s).
Proof. intros [_ H] q n Hq. destruct (H q) as [E|[_ E]]; rewrite E in Hq; [eauto|discriminate]. Qed.

Section bodies.
  Variable rest : proc -> M xres.
  Variable sha512 : bytes -> bytes.
  Notation exec := (coreutils rest).

  Lemma remotely_sh cmd : remotely (sh exec sha512 cmd).
  Proof. unfold sh. apply remotely_bind; [|intros; apply remotely_ret]. unfold crun, run. apply remotely_bind; [apply remotely_current|]. intros d. apply remotely_via. Qed.
  Lemma remotely_crun cmd : remotely (crun exec sha512 cmd).
  Proof. unfold crun, run. apply remotely_bind; [apply remotely_current|]. intros d. apply remotely_via. Qed.
  Lemma remotely_wif b w : remotely w -> remotely (wif b w).
  Proof. intros H. destruct b; [exact H|apply remotely_ret]. Qed.
  Lemma remotely_chmod path m : remotely (chmod_to exec sha512 path m).
  Proof.
    unfold chmod_to, arg. destruct m; [|apply remotely_raise]. apply remotely_bind; [apply remotely_crun|]. intros. apply remotely_ret.
  Qed.
  Lemma remotely_conclude i f w : remotely w -> remotely (conclude i f w).
  Proof. intros H. unfold conclude. destruct (py_eq _ _); [apply remotely_ret|]. apply remotely_bind; [exact H|]. intros. apply remotely_ret. Qed.
  Ltac rem := repeat first [apply remotely_ret | apply remotely_raise | apply remotely_via | apply remotely_current | apply remotely_bind; [|intros] | apply remotely_wif | apply remotely_chmod
    | apply remotely_sh | apply remotely_crun | apply remotely_conclude].
  Lemma remotely_dir_work dry path present touch attr st : remotely (dir_work exec sha512 dry path present touch attr st).
  Proof. unfold dir_work, chown_to. destruct dry; [rem|]. destruct present; rem. Qed.
  Lemma remotely_dir dry path present touch attr : remotely (dir_body exec sha512 dry path present touch attr).
  Proof.
    unfold dir_body, stat. apply remotely_bind; [rem|]. intros [x|]; [destruct (negb _); [rem|]|]; apply remotely_conclude, remotely_dir_work.
  Qed.
  Lemma remotely_file_work dry path present touch attr st : remotely (file_work exec sha512 dry path present touch attr st).
  Proof. unfold file_work, chown_to. destruct dry; [rem|]. destruct present; rem. Qed.
  Lemma remotely_file dry path present touch attr : remotely (file_body exec sha512 dry path present touch attr).
  Proof.
    unfold file_body, stat. apply remotely_bind; [rem|]. intros [x|]; [destruct (negb _); [rem|]|]; apply remotely_conclude, remotely_file_work.
  Qed.

  (** *** What has become of a file *)
  Lemma land_ldiff_511 u : N.land (N.ldiff 511 u) 3072 = 0%N.
  Proof. apply N.bits_inj. intros k. rewrite N.land_spec, N.ldiff_spec, N.bits_0. change 511%N with (N.ones 9). change 3072%N with (N.lor (N.shiftl 1 10) (N.shiftl 1 11)).
    destruct (N.testbit (N.ones 9) k) eqn:E; [|reflexivity]. destruct (N.lt_ge_cases k 9) as [Hk|Hk]; [|rewrite N.ones_spec_high in E by assumption; discriminate].
    rewrite N.lor_spec, !N.shiftl_spec_low by lia. rewrite andb_false_r. reflexivity.
  Qed.
  Lemma new_dir_bits p s pl : o_fs s !! pl = None -> N.land (n_mode (new_dir p s pl)) 3072 = kept_bits s pl.
  Proof.
    intros Hn. unfold kept_bits. rewrite Hn. unfold new_dir, dir_sgid. cbn [n_mode]. rewrite N.land_lor_distr_l, land_ldiff_511, N.lor_0_l.
    unfold parent. destruct (o_fs s !! tail pl) as [d|]; [|reflexivity]. destruct (N.eqb_spec (N.land (n_mode d) S_ISGID) 0) as [E|E]; cbn [negb].
    - symmetry. exact E.
    - unfold S_ISGID in *. change 1024%N with (2 ^ 10)%N in *. change 3072%N with (2 ^ 10 + 2 ^ 11)%N.
      assert (Ht : N.testbit (n_mode d) 10 = true).
      { destruct (N.testbit (n_mode d) 10) eqn:Et; [reflexivity|]. destruct E. apply N.bits_inj. intros k. rewrite N.land_spec, N.bits_0.
        destruct (N.eq_dec k 10) as [-> |Hk]; [rewrite Et; reflexivity|]. rewrite (N.pow2_bits_false 10 k) by congruence. apply andb_false_r. }
      transitivity (2 ^ 10)%N; [reflexivity|]. apply N.bits_inj. intros k. rewrite N.land_spec. destruct (N.eq_dec k 10) as [-> |Hk]; [rewrite Ht; reflexivity|].
      rewrite (N.pow2_bits_false 10 k) by congruence. rewrite andb_false_r. reflexivity.
  Qed.
  Lemma old_bits s pl n : o_fs s !! pl = Some n -> kept_bits s pl = N.land (n_mode n) 3072.
  Proof. intros H. unfold kept_bits. rewrite H. reflexivity. Qed.

  (** the directory is as wanted *)
  Definition good_owner (attr : settings) (a : account) (b : grent) (n : node) : Prop := n_uid n = pw_uid a /\ n_gid n = gr_gid b.
  Definition dir_mode_ok (s : os) (attr : settings) (pl : place) (n : node) : Prop :=
    exists z, means (s_dir_mode attr) z /\ (n_mode n = z \/ n_mode n = N.lor z (kept_bits s pl)).
  Definition file_mode_ok (attr : settings) (n : node) : Prop :=
    exists z, means (s_file_mode attr) z /\ (n_mode n = z \/ n_mode n = drop_suid z).

  (** already there *)
  Lemma seen_ok s attr a b n h : accounts_ok s -> accounts_of s attr a b ->
    seen_owner (Some (statres_of s n h)) = s_owner attr -> seen_group (Some (statres_of s n h)) = s_group attr -> good_owner attr a b n.
  Proof.
    intros Hac (Ha & Hb & Ho & Hg) H1 H2. rewrite Ho in H1. rewrite Hg in H2. cbn in H1, H2. injection H1 as H1. injection H2 as H2.
    split; [eapply seen_user; eassumption|eapply seen_grp; eassumption].
  Qed.
  Lemma seen_mode_ok s n h m : seen_mode (Some (statres_of s n h)) = m -> means m (n_mode n).
  Proof. intros <-. cbn. eexists. split; [reflexivity|]. apply oct_tail_value. Qed.

  Lemma chown_wif path attr c r c' s0 s pl n st a b : isabs path = true -> c_string path -> (forall t, n_kind n <> KLink t) -> only_files s (sysof c) ->
    accounts_ok s -> accounts_of s attr a b ->
    wif (differ (seen_owner st) (s_owner attr) || differ (seen_group st) (s_group attr)) (chown_to exec sha512 path attr) c = (r, c') ->
    sits path s0 (sysof c) pl n ->
    stepped path s0 pl n (fun n' => (seen_owner st = s_owner attr /\ seen_group st = s_group attr /\ n' = n) \/ n' = chowned (o_now s) (pw_uid a) (gr_gid b) n) True c r c'.
  Proof.
    intros Ha Hp Hk Ho Hac Hof E Hs.
    assert (Hac' : accounts_ok (sysof c)) by (unfold accounts_ok in *; rewrite (only_files_passwd _ _ Ho), (only_files_group _ _ Ho); exact Hac).
    assert (Hof' : accounts_of (sysof c) attr a b) by (unfold accounts_of in *; rewrite (only_files_passwd _ _ Ho), (only_files_group _ _ Ho); exact Hof).
    assert (H := stepped_wif path s0 pl n _ _ _ True c r c' Hs E (fun _ E' => chown_step rest sha512 path attr c r c' s0 pl n a b Ha Hp Hk Hac' Hof' E' Hs)).
    rewrite (only_files_now _ _ Ho) in H.
    destruct H as (H1 & (n' & H2 & H3 & H4) & H5). split; [exact H1|]. split; [|auto]. exists n'. split; [exact H2|]. split; [exact H3|]. intros Hr. specialize (H4 Hr).
    destruct (differ_spec (seen_owner st) (s_owner attr)) as [|D1]; [right; exact H4|]. destruct (differ_spec (seen_group st) (s_group attr)) as [|D2]; [right; exact H4|].
    left. split; [destruct (decide (seen_owner st = s_owner attr)); [assumption|contradiction]|].
    split; [destruct (decide (seen_group st = s_group attr)); [assumption|contradiction]|exact H4].
  Qed.
  Lemma chmod_wif path m c r c' s0 s pl n st : isabs path = true -> c_string path -> (forall t, n_kind n <> KLink t) -> only_files s (sysof c) ->
    wif (differ (seen_mode st) m) (chmod_to exec sha512 path m) c = (r, c') -> sits path s0 (sysof c) pl n ->
    stepped path s0 pl n (fun n' => (seen_mode st = m /\ n' = n) \/ (exists t v, m = Some t /\ gnu_mode t = Some v /\ n' = chmoded (o_now s) t v n)) (octal_below 4096 m) c r c'.
  Proof.
    intros Ha Hp Hk Ho E Hs.
    assert (H := stepped_wif path s0 pl n _ _ _ _ c r c' Hs E (fun _ E' => chmod_step rest sha512 path m c r c' s0 pl n Ha Hp Hk E' Hs)).
    rewrite (only_files_now _ _ Ho) in H.
    destruct H as (H1 & (n' & H2 & H3 & H4) & H5). split; [exact H1|]. split; [|auto]. exists n'. split; [exact H2|]. split; [exact H3|]. intros Hr. specialize (H4 Hr).
    destruct (differ_spec (seen_mode st) m) as [|D1]; [right; exact H4|].
    left. split; [destruct (decide (seen_mode st = m)); [assumption|contradiction]|exact H4].
  Qed.

  (** *** Mode, owner, time: the common end of directory and file *)
  Lemma sits_only path s0 s pl n : sits path s0 s pl n -> only_files s0 s. Proof. intros (H & _). exact H. Qed.
  Definition moded (s : os) (m : option pystr) (st : option statres) (n n1 : node) : Prop :=
    (seen_mode st = m /\ n1 = n) \/ (exists t v, m = Some t /\ gnu_mode t = Some v /\ n1 = chmoded (o_now s) t v n).
  Definition given (s : os) (attr : settings) (a : account) (b : grent) (st : option statres) (n1 n2 : node) : Prop :=
    (seen_owner st = s_owner attr /\ seen_group st = s_group attr /\ n2 = n1) \/ n2 = chowned (o_now s) (pw_uid a) (gr_gid b) n1.
  Definition timed (s : os) (t : bool) (n2 n3 : node) : Prop := n3 = if t then touched (o_now s) n2 else n2.
  Definition adjusted (s : os) (m : option pystr) (attr : settings) (a : account) (b : grent) (st : option statres) (t : bool) (n n3 : node) : Prop :=
    exists n1, moded s m st n n1 /\ n_kind n1 = n_kind n /\ exists n2, given s attr a b st n1 n2 /\ n_kind n2 = n_kind n1 /\ timed s t n2 n3.
  Lemma adjust_step path m t attr st c r c' s pl n a b : isabs path = true -> c_string path -> (forall l, n_kind n <> KLink l) -> accounts_ok s -> accounts_of s attr a b ->
    (_ ← wif (differ (seen_mode st) m) (chmod_to exec sha512 path m);
     _ ← wif (differ (seen_owner st) (s_owner attr) || differ (seen_group st) (s_group attr)) (chown_to exec sha512 path attr);
     wif t (sh exec sha512 [lit "touch"; lit "--"; path])) c = (r, c') ->
    sits path s (sysof c) pl n -> stepped path s pl n (adjusted s m attr a b st t n) (octal_below 4096 m) c r c'.
  Proof.
    intros Ha Hp Hk Hac Hof E Hs.
    destruct (stepped_bind path s pl n (wif (differ (seen_mode st) m) (chmod_to exec sha512 path m))
      (_ ← wif (differ (seen_owner st) (s_owner attr) || differ (seen_group st) (s_group attr)) (chown_to exec sha512 path attr); wif t (sh exec sha512 [lit "touch"; lit "--"; path]))
      (moded s m st n) (fun n1 n3 => exists n2, given s attr a b st n1 n2 /\ n_kind n2 = n_kind n1 /\ timed s t n2 n3)
      (octal_below 4096 m) (True /\ True) c r c'
      (fun r1 c1 E1 => chmod_wif path m c r1 c1 s s pl n st Ha Hp Hk (sits_only _ _ _ _ _ Hs) E1 Hs)) as (H1 & H2 & H3); [|exact E|].
    - intros n1 c1 r1 c2 _ _ Hs1 Hk1 E1. assert (Hk1' : forall l, n_kind n1 <> KLink l) by (rewrite Hk1; exact Hk).
      refine (stepped_bind path s pl n1 (wif (differ (seen_owner st) (s_owner attr) || differ (seen_group st) (s_group attr)) (chown_to exec sha512 path attr))
        (wif t (sh exec sha512 [lit "touch"; lit "--"; path])) (given s attr a b st n1) (timed s t) True True c1 r1 c2
        (fun r3 c3 E3 => chown_wif path attr c1 r3 c3 s s pl n1 st a b Ha Hp Hk1' (sits_only _ _ _ _ _ Hs1) Hac Hof E3 Hs1) _ E1).
      intros n2 c3 r3 c4 _ _ Hs3 Hk3 E3. assert (Hk3' : forall l, n_kind n2 <> KLink l) by (rewrite Hk3; exact Hk1').
      destruct (stepped_wif path s pl n2 _ _ _ True c3 r3 c4 Hs3 E3 (fun _ E' => touch_step rest sha512 path c3 r3 c4 s pl n2 Ha Hp Hk3' E' Hs3)) as (T1 & (n'' & T2 & T3 & T4) & T5).
      split; [exact T1|]. split; [|auto]. exists n''. split_and!; auto. intros Hr. specialize (T4 Hr).
      rewrite (only_files_now _ _ (sits_only _ _ _ _ _ Hs3)) in T4. unfold timed. destruct t; exact T4.
    - split; [exact H1|]. split; [exact H2|auto].
  Qed.
  Lemma given_kind s attr a b st n1 n2 : given s attr a b st n1 n2 -> n_kind n2 = n_kind n1 /\ n_mtime n2 = n_mtime n1 /\ n_mode n2 = match n_kind n1 with KDir => n_mode n1 | _ => n_mode n2 end.
  Proof. intros [(_ & _ & ->)| ->]; [destruct (n_kind n1); auto|]. unfold chowned. cbn. destruct (n_kind n1); auto. Qed.
  (** who owns it in the end *)
  Lemma adjusted_owner s m attr a b st t n n3 : accounts_ok s -> accounts_of s attr a b ->
    match st with None => True | Some x => exists h, x = statres_of s n h end ->
    adjusted s m attr a b st t n n3 -> n_kind n3 = n_kind n /\ good_owner attr a b n3.
  Proof.
    intros Hac Hof Hst (n1 & M & K1 & n2 & G & K2 & ->). assert (G2 : good_owner attr a b n2).
    { destruct G as [(G1 & G2 & ->)| ->]; [|unfold chowned; split; reflexivity]. destruct st as [x|]; [|destruct Hof as (_ & _ & Ho & _); cbn in G1; congruence].
      destruct Hst as [h ->]. assert (Hgo : good_owner attr a b n) by (eapply seen_ok; eassumption). destruct M as [[_ ->]|(t' & v & _ & _ & ->)]; exact Hgo. }
    destruct t; [unfold touched; cbn; split; [congruence|exact G2]|split; [congruence|exact G2]].
  Qed.
  Lemma adjusted_time s m attr a b st t n n3 : adjusted s m attr a b st t n n3 -> n_mtime n3 = (if t then o_now s else n_mtime n) /\ (n_ctime n3 = n_ctime n \/ n_ctime n3 = o_now s).
  Proof.
    intros (n1 & M & K1 & n2 & G & K2 & ->).
    assert (Hm : n_mtime n1 = n_mtime n /\ (n_ctime n1 = n_ctime n \/ n_ctime n1 = o_now s)) by (destruct M as [[_ ->]|(t' & v & _ & _ & ->)]; cbn; auto).
    assert (Hg : n_mtime n2 = n_mtime n1 /\ (n_ctime n2 = n_ctime n1 \/ n_ctime n2 = o_now s)) by (destruct G as [(_ & _ & ->)| ->]; cbn; auto).
    destruct Hm as [M1 M2], Hg as [G1 G2]. split; [destruct t; cbn; congruence|]. destruct t; cbn; [auto|]. destruct G2 as [-> |G2]; auto.
  Qed.

  Lemma chmoded_mode now t v n s pl : n_kind n = KDir -> N.land (n_mode n) 3072 = kept_bits s pl ->
    n_mode (chmoded now t v n) = v \/ n_mode (chmoded now t v n) = N.lor v (kept_bits s pl).
  Proof.
    intros Hk Hb. unfold chmoded, gnu_apply. cbn [n_mode]. rewrite Hk. destruct (length t <? 5)%nat; [right|left; reflexivity].
    change (N.lor S_ISUID S_ISGID) with 3072%N. rewrite Hb. reflexivity.
  Qed.
  Lemma dir_result touch attr st s pl n a b n3 : accounts_ok s -> accounts_of s attr a b -> s_dir_mode attr <> None -> n_kind n = KDir ->
    (st = None /\ o_fs s !! pl = None /\ (exists p, n = new_dir p s pl)) \/ (exists h, o_fs s !! pl = Some n /\ st = Some (statres_of s n h)) ->
    adjusted s (s_dir_mode attr) attr a b st (there st && touch) n n3 ->
    n_kind n3 = KDir /\ good_owner attr a b n3 /\ dir_mode_ok s attr pl n3 /\ dated s touch pl n3.
  Proof.
    intros Hac Hof Hm Hk Hst Hadj.
    assert (Hst' : match st with None => True | Some x => exists h, x = statres_of s n h end).
    { destruct Hst as [(-> & _)|(h & _ & ->)]; [exact I|eauto]. }
    destruct (adjusted_owner _ _ _ _ _ _ _ _ _ Hac Hof Hst' Hadj) as [R1 R2]. assert (R3 := adjusted_time _ _ _ _ _ _ _ _ _ Hadj).
    split; [congruence|]. split; [exact R2|]. split.
    - assert (Hbits : N.land (n_mode n) 3072 = kept_bits s pl).
      { destruct Hst as [(_ & Hn & [p ->])|(h & Hn & _)]; [apply new_dir_bits; exact Hn|]. symmetry. apply old_bits. exact Hn. }
      destruct Hadj as (n1 & M & K1 & n2 & G & K2 & Ht). apply given_kind in G as (_ & _ & G). rewrite K1, Hk in G.
      assert (E3 : n_mode n3 = n_mode n1) by (rewrite Ht; destruct (there st && touch); exact G). unfold dir_mode_ok. rewrite E3.
      destruct M as [[Hsm ->]|(t & v & Et & Hv & ->)].
      + destruct Hst as [(-> & _)|(h & _ & ->)]; [cbn in Hsm; congruence|]. exists (n_mode n). split; [eapply seen_mode_ok; exact Hsm|left; reflexivity].
      + exists v. split; [rewrite Et; exists t; split; [reflexivity|apply (gnu_value t v Hv)]|]. apply chmoded_mode; assumption.
    - destruct R3 as [R3 R4]. unfold dated. rewrite R3. destruct Hst as [(-> & Hn & [p ->])|(h & Hn & ->)]; rewrite Hn; cbn [there andb].
      + split; [reflexivity|]. left. destruct R4 as [-> | ->]; reflexivity.
      + split; [reflexivity|]. destruct R4 as [-> | ->]; eauto.
  Qed.
  Lemma dir_work_any path touch attr st c r c' a b : isabs path = true -> c_string path -> accounts_ok (sysof c) -> accounts_of (sysof c) attr a b -> s_dir_mode attr <> None ->
    (st = None /\ resolve_node (o_fs (sysof c)) [] path false = Err (oserr ENOENT)) \/
    (exists pl n h, resolve_node (o_fs (sysof c)) [] path false = Ok (pl, n) /\ n_kind n = KDir /\ st = Some (statres_of (sysof c) n h)) ->
    dir_work exec sha512 false path true touch attr st c = (r, c') ->
    ((unaffected (sysof c) (sysof c') /\ exists e, r = Err e) \/
     exists pl n, sits path (sysof c) (sysof c') pl n /\ n_kind n = KDir /\ (forall n0, o_fs (sysof c) !! pl = Some n0 -> n_kind n0 = KDir) /\
       (r = Ok tt -> good_owner attr a b n /\ dir_mode_ok (sysof c) attr pl n /\ dated (sysof c) touch pl n)) /\
    (fine c -> octal_below 4096 (s_dir_mode attr) -> (st = None -> creatable (sysof c) path) -> r = Ok tt /\ fine c').
  Proof.
    intros Ha Hp Hac Hof Hm Hst E. unfold dir_work in E. destruct Hst as [[-> Hno]|(pl & n & h & Hr & Hk & ->)].
    - cbn [there negb wif] in E. apply bind_spec in E as [([] & c1 & E1 & E)|(e & E & ->)].
      + destruct (mkdir_create rest sha512 path c _ c1 Ha Hp Hno E1) as (M1 & [[_ [e [=]]]|(_ & pl & n & M2 & M3 & p & M4)] & M5).
        assert (Hk : n_kind n = KDir) by (rewrite M4; reflexivity).
        destruct (adjust_step path (s_dir_mode attr) (there None && touch) attr None c1 r c' (sysof c) pl n a b Ha Hp ltac:(congruence) Hac Hof E M3) as (T1 & (n3 & T2 & T3 & T4) & T5). split.
        * right. exists pl, n3. split; [exact T2|]. split; [congruence|]. split; [intros n0 Hn0; congruence|]. intros Hr. destruct (dir_result touch attr None (sysof c) pl n a b n3 Hac Hof Hm Hk) as (_ & R2 & R3 & R4).
          -- left. split_and!; eauto.
          -- exact (T4 Hr).
          -- auto.
        * intros Hf Ho Hcr. destruct (M5 Hf (Hcr eq_refl)) as [_ Hf1]. apply T5; assumption.
      + destruct (mkdir_create rest sha512 path c _ c' Ha Hp Hno E) as (M1 & M2 & M5). split; [|intros Hf Ho Hcr; destruct (M5 Hf (Hcr eq_refl)) as [[=] _]].
        destruct M2 as [M2|(_ & pl & n & M2 & M3 & p & M4)]; [left; split; [apply M2|eauto]|right]. exists pl, n. split; [exact M3|].
        split; [rewrite M4; reflexivity|]. split; [intros n0 Hn0; congruence|discriminate].
    - cbn [there negb wif] in E. assert (Hn := Hr). apply resolve_node_split in Hn as [_ Hn].
      change ((_ ← wif (differ (seen_mode (Some (statres_of (sysof c) n h))) (s_dir_mode attr)) (chmod_to exec sha512 path (s_dir_mode attr));
        _ ← wif (differ (seen_owner (Some (statres_of (sysof c) n h))) (s_owner attr) || differ (seen_group (Some (statres_of (sysof c) n h))) (s_group attr)) (chown_to exec sha512 path attr);
        wif (there (Some (statres_of (sysof c) n h)) && touch) (sh exec sha512 [lit "touch"; lit "--"; path])) c = (r, c')) in E.
      destruct (adjust_step path (s_dir_mode attr) (there (Some (statres_of (sysof c) n h)) && touch) attr _ c r c' (sysof c) pl n a b Ha Hp ltac:(congruence) Hac Hof E (sits_start _ _ _ _ Hr)) as (T1 & (n3 & T2 & T3 & T4) & T5). split.
      + right. exists pl, n3. split; [exact T2|]. split; [congruence|]. split; [intros n0 Hn0; congruence|]. intros Hok.
        destruct (dir_result touch attr (Some (statres_of (sysof c) n h)) (sysof c) pl n a b n3 Hac Hof Hm Hk) as (_ & R2 & R3 & R4).
        * right. exists h. auto.
        * exact (T4 Hok).
        * auto.
      + intros Hf Ho _. apply T5; assumption.
  Qed.

  (** *** The common frame: look, compare, act *)
  Definition frame (T : pystr) (msg : pystr) (present touch : bool) (m : option pystr) (attr : settings) (path : pystr) (work : option statres -> W unit) : W opres :=
    st ← stat exec sha512 path false false;
    let f := goal present m attr touch in
    match st with
    | Some x => if negb (str_eqb (st_type x) T) then mret (OpRes false false [] f (Some msg)) else conclude (report st) f (work st)
    | None => conclude (report st) f (work st)
    end.
  (** what was found *)
  Definition found (isk : kind -> Prop) (s : os) (path : pystr) (st : option statres) : Prop :=
    (st = None /\ resolve_node (o_fs s) [] path false = Err (oserr ENOENT)) \/
    (exists pl n h, resolve_node (o_fs s) [] path false = Ok (pl, n) /\ isk (n_kind n) /\ st = Some (statres_of s n h)).
  Definition matching (s : os) (m : option pystr) (attr : settings) (n : node) : Prop :=
    m = seen_mode (Some (statres_of s n None)) /\ s_owner attr = seen_owner (Some (statres_of s n None)) /\ s_group attr = seen_group (Some (statres_of s n None)).
  Lemma goal_met m attr touch st : py_eq (VDict (report st)) (VDict (goal true m attr touch)) = true <->
    st <> None /\ m = seen_mode st /\ s_owner attr = seen_owner st /\ s_group attr = seen_group st /\ touch = false.
  Proof.
    rewrite report_eq. unfold goal. rewrite file_state_eq. destruct st as [st|]; cbn [there Bool.eqb].
    - destruct (differ_spec (seen_mode (Some st)) m) as [D|D]; [cbn [negb andb]; split; [discriminate|]; intros (_ & E & _); congruence|].
      destruct (differ_spec (seen_owner (Some st)) (s_owner attr)) as [D1|D1]; [cbn [negb andb]; split; [discriminate|]; intros (_ & _ & E & _); congruence|].
      destruct (differ_spec (seen_group (Some st)) (s_group attr)) as [D2|D2]; [cbn [negb andb]; split; [discriminate|]; intros (_ & _ & _ & E & _); congruence|].
      destruct touch; cbn [negb andb Bool.eqb]; (split; [intros H; try discriminate H|]).
      + intros (_ & _ & _ & _ & [=]).
      + split; [discriminate|]. repeat match goal with H : ~ _ <> _ |- _ => apply dec_stable in H end. auto.
      + reflexivity.
    - cbn. split; [discriminate|]. intros [H _]. destruct (H eq_refl).
  Qed.
  Lemma frame_any T msg m touch attr path work isk (Conf Good : place -> node -> Prop) (V : Prop) s c x c' :
    unaffected s (sysof c) -> isabs path = true -> c_string path -> os_ok (sysof c) -> honest (sysof c) ->
    (forall n, node_ok n -> node_type n = T <-> isk (n_kind n)) ->
    (forall st c r c', unaffected s (sysof c) -> found isk s path st -> work st c = (r, c') ->
       ((unaffected s (sysof c') /\ exists e, r = Err e) \/ exists pl n, sits path s (sysof c') pl n /\ Conf pl n /\ (r = Ok tt -> Good pl n)) /\
       (fine c -> V -> (st = None -> creatable s path) -> r = Ok tt /\ fine c')) ->
    (forall pl n, resolve_node (o_fs s) [] path false = Ok (pl, n) -> isk (n_kind n) -> matching s m attr n -> touch = false -> Conf pl n /\ Good pl n) ->
    frame T msg true touch m attr path work c = (x, c') ->
    (unaffected s (sysof c') \/ exists pl n, sits path s (sysof c') pl n /\ Conf pl n) /\
    (forall res, x = Ok res -> or_success res = true ->
       exists pl n, sits path s (sysof c') pl n /\ Conf pl n /\ Good pl n /\ (or_changed res = false -> unaffected s (sysof c') /\ touch = false)) /\
    (fine c -> hash_ok sha512 -> V ->
       (resolve_node (o_fs s) [] path false = Err (oserr ENOENT) /\ creatable s path) \/ (exists pl n, resolve_node (o_fs s) [] path false = Ok (pl, n) /\ isk (n_kind n)) ->
       exists res, x = Ok res /\ or_success res = true /\ fine c' /\
         (or_changed res = false <-> exists pl n, resolve_node (o_fs s) [] path false = Ok (pl, n) /\ matching s m attr n /\ touch = false)).
  Proof.
    intros Hu Ha Hp Hos Hh Hty Hw Hsame E.
    assert (Hfs : o_fs (sysof c) = o_fs s) by (rewrite (unaffected_fs _ _ Hu); reflexivity).
    assert (Hst : forall n h, statres_of (sysof c) n h = statres_of s n h) by (intros n h; rewrite Hu; reflexivity).
    assert (Hnode : forall pl n, resolve_node (o_fs s) [] path false = Ok (pl, n) -> node_ok n).
    { intros pl n Hr. apply resolve_node_split in Hr as [_ Hr]. rewrite <- Hfs in Hr. apply Hos in Hr. exact Hr. }
    unfold frame in E. apply bind_spec in E as [(st & c1 & Es & E)|(e & Es & ->)].
    - assert (Hsa := stat_any rest sha512 _ _ _ _ _ _ Es Ha (proj1 Hp)). destruct Hsa as (S1 & S2 & S3). specialize (S3 Hos Hh). rewrite Hfs in S3. cbn in S3.
      assert (Hu1 : unaffected s (sysof c1)) by (eapply unaffected_trans; eassumption).
      assert (Hfine1 : fine c -> hash_ok sha512 -> c1 = c).
      { intros [Hhl _] Hha. assert (Es' := stat_fine rest sha512 path false false c Hhl Hos Hha Hp). rewrite Es' in Es. injection Es as _ ->. reflexivity. }
      assert (Hgood : found isk s path st -> conclude (report st) (goal true m attr touch) (work st) c1 = (x, c') ->
        (unaffected s (sysof c') \/ exists pl n, sits path s (sysof c') pl n /\ Conf pl n) /\
        (forall res, x = Ok res -> or_success res = true ->
           exists pl n, sits path s (sysof c') pl n /\ Conf pl n /\ Good pl n /\ (or_changed res = false -> unaffected s (sysof c') /\ touch = false)) /\
        (fine c -> hash_ok sha512 -> V -> (st = None -> creatable s path) -> exists res, x = Ok res /\ or_success res = true /\ fine c' /\
         (or_changed res = false <-> exists pl n, resolve_node (o_fs s) [] path false = Ok (pl, n) /\ matching s m attr n /\ touch = false))).
      { intros Hfd Ec. unfold conclude in Ec. destruct (py_eq (VDict (report st)) (VDict (goal true m attr touch))) eqn:Eq.
        - apply goal_met in Eq as (Q1 & Q2 & Q3 & Q4 & Q5). destruct Hfd as [[-> _]|(pl & n & h & Hr & Hk & ->)]; [contradiction|].
          injection Ec as <- <-. destruct (Hsame pl n Hr Hk) as [C1 C2]; [split_and!; assumption|exact Q5|].
          assert (Hsit : sits path s (sysof c1) pl n) by (apply (sits_unaffected _ _ s); [exact Hu1|]; apply sits_start; exact Hr).
          split; [left; exact Hu1|]. split.
          + intros res [= <-] _. exists pl, n. split_and!; auto.
          + intros Hf Hha _ _. eexists. split; [reflexivity|]. split; [reflexivity|]. split; [rewrite (Hfine1 Hf Hha); exact Hf|].
            split; [intros _|reflexivity]. exists pl, n. split; [exact Hr|]. split; [split_and!; assumption|exact Q5].
        - assert (Hun : forall pl n, resolve_node (o_fs s) [] path false = Ok (pl, n) -> matching s m attr n -> touch = false -> False).
          { intros pl n Hr (M1 & M2 & M3) Ht. destruct Hfd as [[-> He]|(pl' & n' & h & Hr' & Hk & ->)]; [congruence|].
            rewrite Hr in Hr'. injection Hr' as <- <-. assert (Eq' := proj2 (goal_met m attr touch (Some (statres_of s n h)))). rewrite Eq in Eq'.
            discriminate Eq'. split_and!; auto. }
          apply bind_spec in Ec as [([] & c2 & Ew & Ec)|(e & Ew & ->)].
          + injection Ec as <- <-. destruct (Hw st c1 _ c2 Hu1 Hfd Ew) as [[[_ [e [=]]]|(pl & n & W1 & W2 & W3)] W4]. split; [right; eauto|]. split.
            * intros res [= <-] _. exists pl, n. split_and!; auto. discriminate.
            * intros Hf Hha HV Hc. rewrite (Hfine1 Hf Hha) in *. destruct (W4 Hf HV Hc) as [_ Hf']. eexists. split; [reflexivity|]. split; [reflexivity|]. split; [exact Hf'|].
              split; [discriminate|]. intros (pl' & n' & R1 & R2 & R3). destruct (Hun _ _ R1 R2 R3).
          + destruct (Hw st c1 _ c' Hu1 Hfd Ew) as [H W4]. split.
            * destruct H as [[H _]|(pl & n & W1 & W2 & _)]; [left; exact H|right; eauto].
            * split; [discriminate|]. intros Hf Hha HV Hc. rewrite (Hfine1 Hf Hha) in *. destruct (W4 Hf HV Hc) as [[=] _]. }
      destruct st as [st|].
      + destruct S3 as (pl & n & Hr & Hst'). rewrite Hst in Hst'. destruct (str_eqb_spec (st_type st) T) as [Ht|Ht]; cbn [negb] in E.
        * assert (Hk : isk (n_kind n)) by (apply (Hty n (Hnode _ _ Hr)); rewrite <- Ht, Hst'; reflexivity).
          destruct (Hgood) as (G1 & G2 & G3); [right; exists pl, n, None; rewrite Hst'; auto|exact E|]. split; [exact G1|]. split; [exact G2|].
          intros Hf Hha HV _. apply G3; auto. discriminate.
        * injection E as <- <-. split; [left; exact Hu1|]. split; [intros res [= <-]; discriminate|].
          intros Hf Hha HV [[Hno _]|(pl' & n' & Hr' & Hk)]; [congruence|]. rewrite Hr in Hr'. injection Hr' as <- <-. destruct Ht. apply (Hty n (Hnode _ _ Hr)) in Hk. rewrite <- Hk, Hst'. reflexivity.
      + destruct (Hgood) as (G1 & G2 & G3); [left; auto|exact E|]. split; [exact G1|]. split; [exact G2|].
        intros Hf Hha HV [[_ Hc]|(pl & n & Hr & _)]; [apply G3; auto|congruence].
    - assert (Hsa := stat_any rest sha512 _ _ _ _ _ _ Es Ha (proj1 Hp)). destruct Hsa as (S1 & S2 & S3).
      split; [left; eapply unaffected_trans; eassumption|]. split; [discriminate|]. intros [Hhl _] Hha _ Hex.
      assert (Es' := stat_fine rest sha512 path false false c Hhl Hos Hha Hp). rewrite Es' in Es. unfold stat_result in Es. rewrite (isabs_cwd_node _ _ [] _ _ Ha), Hfs in Es.
      destruct Hex as [[Hno _]|(pl & n & Hr & _)]; [rewrite Hno in Es|rewrite Hr in Es]; discriminate Es.
  Qed.
  Lemma dir_frame path present touch attr : dir_body exec sha512 false path present touch attr =
    frame (lit "dir") (lit "path '" ++ path ++ lit "' exists but is not a directory!") present touch (s_dir_mode attr) attr path (dir_work exec sha512 false path present touch attr).
  Proof. reflexivity. Qed.
  Lemma file_frame path present touch attr : file_body exec sha512 false path present touch attr =
    frame (lit "file") (lit "path '" ++ path ++ lit "' exists but is not a file!") present touch (s_file_mode attr) attr path (file_work exec sha512 false path present touch attr).
  Proof. reflexivity. Qed.

  (** *** directory(present=True) *)
  Definition dir_conf (s : os) (pl : place) (n : node) : Prop := n_kind n = KDir /\ forall n0, o_fs s !! pl = Some n0 -> n_kind n0 = KDir.
  Definition dir_good (s : os) (attr : settings) (touch : bool) (a : account) (b : grent) (pl : place) (n : node) : Prop :=
    good_owner attr a b n /\ dir_mode_ok s attr pl n /\ dated s touch pl n.
  Lemma type_kind n T (isk : kind -> Prop) : (forall b, isk (KFile b) <-> T = lit "file") -> (isk KDir <-> T = lit "dir") -> (forall t, isk (KLink t) <-> T = lit "link") -> (forall t, ~ isk (KOther t)) ->
    T ∉ other_types -> node_ok n -> node_type n = T <-> isk (n_kind n).
  Proof.
    intros H1 H2 H3 H4 H5 [Hk _]. unfold node_type. destruct (n_kind n) as [b| |t|t]; [rewrite H1; split; congruence|rewrite H2; split; congruence|rewrite H3; split; congruence|].
    cbn in Hk. split; [intros ->; contradiction|intros H; destruct (H4 _ H)].
  Qed.
  Lemma is_dir n : node_ok n -> node_type n = lit "dir" <-> n_kind n = KDir.
  Proof.
    intros H. apply (type_kind n _ (fun k => k = KDir)); auto.
    - intros b. split; [discriminate|intros E; discriminate E].
    - split; reflexivity.
    - intros b. split; [discriminate|intros E; discriminate E].
    - apply (bool_decide_unpack _); vm_compute; exact I.
  Qed.
  Definition is_file (k : kind) : Prop := exists b, k = KFile b.
  Lemma is_file_type n : node_ok n -> node_type n = lit "file" <-> is_file (n_kind n).
  Proof.
    intros H. apply (type_kind n _ is_file); auto.
    - intros b. split; [reflexivity|eexists; reflexivity].
    - split; [intros [b [=]]|intros E; discriminate E].
    - intros b. split; [intros [b' [=]]|intros E; discriminate E].
    - intros t [b [=]].
    - apply (bool_decide_unpack _); vm_compute; exact I.
  Qed.
  Lemma dir_body_any path touch attr s c x c' a b :
    unaffected s (sysof c) -> isabs path = true -> c_string path -> os_ok (sysof c) -> honest (sysof c) ->
    accounts_ok s -> accounts_of s attr a b -> s_dir_mode attr <> None ->
    dir_body exec sha512 false path true touch attr c = (x, c') ->
    (unaffected s (sysof c') \/ exists pl n, sits path s (sysof c') pl n /\ dir_conf s pl n) /\
    (forall res, x = Ok res -> or_success res = true ->
       exists pl n, sits path s (sysof c') pl n /\ dir_conf s pl n /\ dir_good s attr touch a b pl n /\ (or_changed res = false -> unaffected s (sysof c') /\ touch = false)) /\
    (fine c -> hash_ok sha512 -> octal_below 4096 (s_dir_mode attr) ->
       (resolve_node (o_fs s) [] path false = Err (oserr ENOENT) /\ creatable s path) \/ (exists pl n, resolve_node (o_fs s) [] path false = Ok (pl, n) /\ n_kind n = KDir) ->
       exists res, x = Ok res /\ or_success res = true /\ fine c' /\
         (or_changed res = false <-> exists pl n, resolve_node (o_fs s) [] path false = Ok (pl, n) /\ matching s (s_dir_mode attr) attr n /\ touch = false)).
  Proof.
    intros Hu Ha Hp Hos Hh Hac Hof Hm E. rewrite dir_frame in E.
    refine (frame_any _ _ _ _ _ _ _ (fun k => k = KDir) (dir_conf s) (dir_good s attr touch a b) (octal_below 4096 (s_dir_mode attr)) s c x c' Hu Ha Hp Hos Hh is_dir _ _ E); clear c x c' Hu Hos Hh E.
    - intros st c r c' Hu Hfd E. assert (H := dir_work_any path touch attr st c r c' a b Ha Hp). unfold found in Hfd. rewrite Hu in H. specialize (H Hac Hof Hm Hfd E).
      destruct H as [H H']. split; [|exact H']. destruct H as [H|(pl & n & H1 & H2 & H3 & H4)]; [left; exact H|right]. exists pl, n. split; [exact H1|]. split; [split; assumption|exact H4].
    - intros pl n Hr Hk (M1 & M2 & M3) ->. assert (Hn := Hr). apply resolve_node_split in Hn as [_ Hn]. split; [split; [exact Hk|intros n0 H0; congruence]|].
      split; [eapply seen_ok; eauto|]. split; [|unfold dated; rewrite Hn; eauto]. exists (n_mode n). split; [eapply seen_mode_ok; symmetry; exact M1|left; reflexivity].
  Qed.

  (** *** file(present=True) *)
  Definition file_conf (s : os) (pl : place) (n : node) : Prop :=
    match o_fs s !! pl with Some n0 => is_file (n_kind n0) /\ n_kind n = n_kind n0 | None => n_kind n = KFile [] end.
  Definition file_good (s : os) (attr : settings) (touch : bool) (a : account) (b : grent) (pl : place) (n : node) : Prop :=
    good_owner attr a b n /\ file_mode_ok attr n /\ dated s touch pl n.
  Lemma file_work_any path touch attr st c r c' a b : isabs path = true -> c_string path -> accounts_ok (sysof c) -> accounts_of (sysof c) attr a b -> s_file_mode attr <> None ->
    found is_file (sysof c) path st ->
    file_work exec sha512 false path true touch attr st c = (r, c') ->
    ((unaffected (sysof c) (sysof c') /\ exists e, r = Err e) \/
     exists pl n, sits path (sysof c) (sysof c') pl n /\ file_conf (sysof c) pl n /\ (r = Ok tt -> file_good (sysof c) attr touch a b pl n)) /\
    (fine c -> octal_below 4096 (s_file_mode attr) -> (st = None -> creatable (sysof c) path) -> r = Ok tt /\ fine c').
  Proof.
    intros Ha Hp Hac Hof Hm Hst E. unfold file_work in E.
    assert (Hrest : forall c1 r c' pl n, is_file (n_kind n) -> (st = None \/ exists h n0, st = Some (statres_of (sysof c) n0 h) /\ n_mode n0 = n_mode n /\ n_uid n0 = n_uid n /\ n_gid n0 = n_gid n) ->
      sits path (sysof c) (sysof c1) pl n ->
      (_ ← wif (differ (seen_mode st) (s_file_mode attr)) (chmod_to exec sha512 path (s_file_mode attr));
       wif (differ (seen_owner st) (s_owner attr) || differ (seen_group st) (s_group attr)) (chown_to exec sha512 path attr)) c1 = (r, c') ->
      stepped path (sysof c) pl n (fun n3 => good_owner attr a b n3 /\ file_mode_ok attr n3 /\ n_mtime n3 = n_mtime n /\ (n_ctime n3 = n_ctime n \/ n_ctime n3 = o_now (sysof c))) (octal_below 4096 (s_file_mode attr)) c1 r c').
    { clear r c' E. intros c1 r c' pl n Hk Hst' Hs E1. assert (Hk' : forall l, n_kind n <> KLink l) by (destruct Hk as [b' ->]; discriminate).
      assert (E1' : (_ ← wif (differ (seen_mode st) (s_file_mode attr)) (chmod_to exec sha512 path (s_file_mode attr));
        _ ← wif (differ (seen_owner st) (s_owner attr) || differ (seen_group st) (s_group attr)) (chown_to exec sha512 path attr);
        wif false (sh exec sha512 [lit "touch"; lit "--"; path])) c1 = (r, c')).
      { rewrite <- E1. unfold mbind, W_bind. destruct (wif _ (chmod_to _ _ _ _) c1) as [[[]|e] c2]; [|reflexivity].
        destruct (wif _ (chown_to _ _ _ _) c2) as [[[]|e] c3]; reflexivity. }
      destruct (adjust_step path (s_file_mode attr) false attr st c1 r c' (sysof c) pl n a b Ha Hp Hk' Hac Hof E1' Hs) as (T1 & (n3 & T2 & T3 & T4) & T5).
      split; [exact T1|]. split; [|exact T5]. exists n3. split; [exact T2|]. split; [exact T3|]. intros Hr. specialize (T4 Hr).
      assert (R3 := adjusted_time _ _ _ _ _ _ _ _ _ T4).
      assert (Hst2 : match st with None => True | Some x => exists h, st_mode x = st_mode (statres_of (sysof c) n h) /\ st_owner x = st_owner (statres_of (sysof c) n h) /\ st_group x = st_group (statres_of (sysof c) n h) end).
      { destruct Hst' as [-> |(h & n0 & -> & N1 & N2 & N3)]; [exact I|]. exists h. cbn. rewrite N1, N2, N3. auto. }
      destruct T4 as (n1 & M & K1 & n2 & G & K2 & Ht). unfold timed in Ht. subst n3.
      split; [|split; [|exact R3]].
      - destruct G as [(G1 & G2 & ->)| ->]; [|unfold chowned; split; reflexivity]. destruct st as [x|]; [|destruct Hof as (_ & _ & Ho & _); cbn in G1; congruence].
        destruct Hst2 as (h & S1 & S2 & S3). assert (Hgo : good_owner attr a b n).
        { apply (seen_ok (sysof c) attr a b n h Hac Hof); cbn [seen_owner seen_group fmap option_fmap option_map] in *; [rewrite <- S2|rewrite <- S3]; assumption. }
        destruct M as [[_ ->]|(t' & v & _ & _ & ->)]; exact Hgo.
      - assert (Hm1 : exists z, means (s_file_mode attr) z /\ n_mode n1 = z).
        { destruct M as [[Hsm ->]|(t & v & Et & Hv & ->)].
          - destruct st as [x|]; [|cbn in Hsm; congruence]. destruct Hst2 as (h & S1 & _). exists (n_mode n). split; [|reflexivity].
            apply (seen_mode_ok (sysof c) n h). rewrite <- Hsm. cbn [seen_mode fmap option_fmap option_map]. rewrite S1. reflexivity.
          - exists v. split; [rewrite Et; exists t; split; [reflexivity|apply (gnu_value t v Hv)]|]. unfold chmoded, gnu_apply. cbn [n_mode]. destruct Hk as [b' ->]. reflexivity. }
        destruct Hm1 as (z & Z1 & Z2). exists z. split; [exact Z1|]. destruct G as [(_ & _ & ->)| ->]; [left; exact Z2|].
        right. unfold chowned. cbn [n_mode]. rewrite K1. destruct Hk as [b' ->]. rewrite Z2. reflexivity. }
    destruct Hst as [[-> Hno]|(pl & n & h & Hr & Hk & ->)].
    - cbn [there negb orb wif] in E. apply bind_spec in E as [([] & c1 & E1 & E)|(e & E & ->)].
      + destruct (touch_create rest sha512 path c _ c1 Ha Hp Hno E1) as (M1 & [[_ [e [=]]]|(_ & pl & n & M2 & M3 & p & M4)] & M5).
        assert (Hk : is_file (n_kind n)) by (rewrite M4; eexists; reflexivity).
        destruct (Hrest c1 r c' pl n Hk (or_introl eq_refl) M3 E) as (T1 & (n3 & T2 & T3 & T4) & T5). split.
        * right. exists pl, n3. split; [exact T2|]. split; [unfold file_conf; rewrite M2, T3, M4; reflexivity|]. intros Hr. destruct (T4 Hr) as (R1 & R2 & R3 & R4). split; [exact R1|]. split; [exact R2|].
          unfold dated. rewrite M2, R3, M4. split; [reflexivity|]. left. destruct R4 as [-> | ->]; [rewrite M4|]; reflexivity.
        * intros Hf Ho Hcr. destruct (M5 Hf (Hcr eq_refl)) as [_ Hf1]. apply T5; assumption.
      + destruct (touch_create rest sha512 path c _ c' Ha Hp Hno E) as (M1 & M2 & M5). split; [|intros Hf Ho Hcr; destruct (M5 Hf (Hcr eq_refl)) as [[=] _]].
        destruct M2 as [M2|(_ & pl & n & M2 & M3 & p & M4)]; [left; split; [apply M2|eauto]|right]. exists pl, n. split; [exact M3|].
        split; [unfold file_conf; rewrite M2, M4; reflexivity|discriminate].
    - cbn [there negb orb] in E. assert (Hn := Hr). apply resolve_node_split in Hn as [_ Hn]. assert (Hk' : forall l, n_kind n <> KLink l) by (destruct Hk as [b' ->]; discriminate).
      assert (Hs := sits_start _ _ _ _ Hr).
      destruct (stepped_bind path (sysof c) pl n (wif touch (sh exec sha512 [lit "touch"; lit "--"; path]))
        (_ ← wif (differ (seen_mode (Some (statres_of (sysof c) n h))) (s_file_mode attr)) (chmod_to exec sha512 path (s_file_mode attr));
         wif (differ (seen_owner (Some (statres_of (sysof c) n h))) (s_owner attr) || differ (seen_group (Some (statres_of (sysof c) n h))) (s_group attr)) (chown_to exec sha512 path attr))
        (fun n' => if touch then n' = touched (o_now (sysof c)) n else n' = n) (fun n1 n3 => good_owner attr a b n3 /\ file_mode_ok attr n3 /\ n_mtime n3 = n_mtime n1 /\ (n_ctime n3 = n_ctime n1 \/ n_ctime n3 = o_now (sysof c)))
        (touch = true -> True) (octal_below 4096 (s_file_mode attr)) c r c'
        (fun r1 c1 E1 => stepped_wif path _ pl n touch _ _ True c r1 c1 Hs E1 (fun _ E' => touch_step rest sha512 path c r1 c1 _ pl n Ha Hp Hk' E' Hs))) as (T1 & (n3 & T2 & T3 & T4) & T5); [|exact E|].
      + intros n1 c1 r1 c2 Q _ Hs1 Hk1 E1.
        assert (Hx : n_mode n1 = n_mode n /\ n_uid n1 = n_uid n /\ n_gid n1 = n_gid n) by (destruct touch; rewrite Q; auto).
        apply (Hrest c1 r1 c2 pl n1); [rewrite Hk1; exact Hk| |exact Hs1|exact E1]. right. exists h, n. destruct Hx as (X1 & X2 & X3). auto.
      + split; [|intros; apply T5; auto]. right. exists pl, n3. split; [exact T2|]. split; [unfold file_conf; rewrite Hn; auto|]. intros Hok.
        destruct (T4 Hok) as (n1 & Q1 & _ & Q2 & Q3 & Q4 & Q5). split; [exact Q2|]. split; [exact Q3|]. unfold dated. rewrite Hn, Q4.
        destruct touch; rewrite Q1 in Q5 |- *; (split; [reflexivity|]); destruct Q5 as [-> | ->]; cbn; eauto.
  Qed.
  Lemma file_body_any path touch attr s c x c' a b :
    unaffected s (sysof c) -> isabs path = true -> c_string path -> os_ok (sysof c) -> honest (sysof c) ->
    accounts_ok s -> accounts_of s attr a b -> s_file_mode attr <> None ->
    file_body exec sha512 false path true touch attr c = (x, c') ->
    (unaffected s (sysof c') \/ exists pl n, sits path s (sysof c') pl n /\ file_conf s pl n) /\
    (forall res, x = Ok res -> or_success res = true ->
       exists pl n, sits path s (sysof c') pl n /\ file_conf s pl n /\ file_good s attr touch a b pl n /\ (or_changed res = false -> unaffected s (sysof c') /\ touch = false)) /\
    (fine c -> hash_ok sha512 -> octal_below 4096 (s_file_mode attr) ->
       (resolve_node (o_fs s) [] path false = Err (oserr ENOENT) /\ creatable s path) \/ (exists pl n, resolve_node (o_fs s) [] path false = Ok (pl, n) /\ is_file (n_kind n)) ->
       exists res, x = Ok res /\ or_success res = true /\ fine c' /\
         (or_changed res = false <-> exists pl n, resolve_node (o_fs s) [] path false = Ok (pl, n) /\ matching s (s_file_mode attr) attr n /\ touch = false)).
  Proof.
    intros Hu Ha Hp Hos Hh Hac Hof Hm E. rewrite file_frame in E.
    refine (frame_any _ _ _ _ _ _ _ is_file (file_conf s) (file_good s attr touch a b) (octal_below 4096 (s_file_mode attr)) s c x c' Hu Ha Hp Hos Hh is_file_type _ _ E); clear c x c' Hu Hos Hh E.
    - intros st c r c' Hu Hfd E. assert (H := file_work_any path touch attr st c r c' a b Ha Hp). rewrite Hu in H. exact (H Hac Hof Hm Hfd E).
    - intros pl n Hr Hk (M1 & M2 & M3) ->. assert (Hn := Hr). apply resolve_node_split in Hn as [_ Hn]. split; [unfold file_conf; rewrite Hn; auto|].
      split; [eapply seen_ok; eauto|]. split; [|unfold dated; rewrite Hn; eauto]. exists (n_mode n). split; [eapply seen_mode_ok; symmetry; exact M1|left; reflexivity].
  Qed.

  (** *** present=False *)
  Lemma absent_any T msg m touch attr path w isk (V : place -> node -> Prop) (Rem : place -> os -> Prop) s c x c' :
    unaffected s (sysof c) -> isabs path = true -> c_string path -> os_ok (sysof c) -> honest (sysof c) ->
    (forall n, node_ok n -> node_type n = T <-> isk (n_kind n)) ->
    (forall c r c' pl n, unaffected s (sysof c) -> resolve_node (o_fs s) [] path false = Ok (pl, n) -> isk (n_kind n) -> w c = (r, c') ->
       Rem pl (sysof c') /\ only_removed pl s (sysof c') /\ (r = Ok tt -> o_fs (sysof c') !! pl = None) /\ (fine c -> V pl n -> r = Ok tt /\ healthy c')) ->
    frame T msg false touch m attr path (fun st => wif (there st) w) c = (x, c') ->
    (unaffected s (sysof c') \/ exists pl n, resolve_node (o_fs s) [] path false = Ok (pl, n) /\ isk (n_kind n) /\ Rem pl (sysof c')) /\
    (forall res, x = Ok res -> or_success res = true -> missing (sysof c') path /\ (or_changed res = false -> unaffected s (sysof c'))) /\
    (fine c -> hash_ok sha512 ->
       resolve_node (o_fs s) [] path false = Err (oserr ENOENT) \/ (exists pl n, resolve_node (o_fs s) [] path false = Ok (pl, n) /\ isk (n_kind n) /\ V pl n) ->
       exists res, x = Ok res /\ or_success res = true /\ healthy c' /\ (or_changed res = false <-> resolve_node (o_fs s) [] path false = Err (oserr ENOENT))).
  Proof.
    intros Hu Ha Hp Hos Hh Hty Hw E.
    assert (Hfs : o_fs (sysof c) = o_fs s) by (rewrite (unaffected_fs _ _ Hu); reflexivity).
    assert (Hst : forall n h, statres_of (sysof c) n h = statres_of s n h) by (intros n h; rewrite Hu; reflexivity).
    assert (Hnode : forall pl n, resolve_node (o_fs s) [] path false = Ok (pl, n) -> node_ok n).
    { intros pl n Hr. apply resolve_node_split in Hr as [_ Hr]. rewrite <- Hfs in Hr. apply Hos in Hr. exact Hr. }
    unfold frame in E. apply bind_spec in E as [(st & c1 & Es & E)|(e & Es & ->)].
    - assert (Hsa := stat_any rest sha512 _ _ _ _ _ _ Es Ha (proj1 Hp)). destruct Hsa as (S1 & S2 & S3). specialize (S3 Hos Hh). rewrite Hfs in S3. cbn in S3.
      assert (Hu1 : unaffected s (sysof c1)) by (eapply unaffected_trans; eassumption).
      assert (Hfine1 : fine c -> hash_ok sha512 -> c1 = c).
      { intros [Hhl _] Hha. assert (Es' := stat_fine rest sha512 path false false c Hhl Hos Hha Hp). rewrite Es' in Es. injection Es as _ ->. reflexivity. }
      destruct st as [st|].
      + destruct S3 as (pl & n & Hr & Hst'). rewrite Hst in Hst'. destruct (str_eqb_spec (st_type st) T) as [Ht|Ht]; cbn [negb] in E.
        * assert (Hk : isk (n_kind n)) by (apply (Hty n (Hnode _ _ Hr)); rewrite <- Ht, Hst'; reflexivity).
          unfold conclude in E. rewrite report_eq in E. unfold goal in E. rewrite file_state_eq in E. cbn [there Bool.eqb andb wif] in E.
          apply bind_spec in E as [([] & c2 & Ew & E)|(e & Ew & ->)].
          -- injection E as <- <-. destruct (Hw c1 _ c2 pl n Hu1 Hr Hk Ew) as (W0 & W1 & W2 & W3). split; [right; eauto|]. split.
             ++ intros res [= <-] _. split; [|discriminate]. eapply gone_missing; [exact Hr|eapply removed_grows; exact W1|exact (W2 eq_refl)].
             ++ intros Hf Hha [Hno|(pl' & n' & Hr' & _ & HV)]; [congruence|]. rewrite Hr in Hr'. injection Hr' as <- <-. rewrite (Hfine1 Hf Hha) in *.
                destruct (W3 Hf HV) as [_ Hh']. eexists. split; [reflexivity|]. split; [reflexivity|]. split; [exact Hh'|]. split; [discriminate|congruence].
          -- destruct (Hw c1 _ c' pl n Hu1 Hr Hk Ew) as (W0 & W1 & W2 & W3). split; [right; eauto|]. split; [discriminate|].
             intros Hf Hha [Hno|(pl' & n' & Hr' & _ & HV)]; [congruence|]. rewrite Hr in Hr'. injection Hr' as <- <-. rewrite (Hfine1 Hf Hha) in *. destruct (W3 Hf HV) as [[=] _].
        * injection E as <- <-. split; [left; exact Hu1|]. split; [intros res [= <-]; discriminate|].
          intros Hf Hha [Hno|(pl' & n' & Hr' & Hk & _)]; [congruence|]. rewrite Hr in Hr'. injection Hr' as <- <-. destruct Ht. apply (Hty n (Hnode _ _ Hr)) in Hk. rewrite <- Hk, Hst'. reflexivity.
      + unfold conclude in E. rewrite report_eq in E. unfold goal in E. rewrite file_state_eq in E. cbn [there Bool.eqb andb seen_mode seen_owner seen_group fmap option_fmap option_map] in E.
        destruct (differ_spec None None) as [D|_]; [destruct (D eq_refl)|]. cbn [negb andb] in E. injection E as <- <-. split; [left; exact Hu1|]. split.
        * intros res [= <-] _. split; [|auto]. apply none_missing. rewrite (unaffected_fs _ _ Hu1). exact S3.
        * intros Hf Hha _. eexists. split; [reflexivity|]. split; [reflexivity|]. split; [rewrite (Hfine1 Hf Hha); apply Hf|]. split; auto.
    - assert (Hsa := stat_any rest sha512 _ _ _ _ _ _ Es Ha (proj1 Hp)). destruct Hsa as (S1 & S2 & S3).
      split; [left; eapply unaffected_trans; eassumption|]. split; [discriminate|]. intros [Hhl _] Hha Hex.
      assert (Es' := stat_fine rest sha512 path false false c Hhl Hos Hha Hp). rewrite Es' in Es. unfold stat_result in Es. rewrite (isabs_cwd_node _ _ [] _ _ Ha), Hfs in Es.
      destruct Hex as [Hno|(pl & n & Hr & _)]; [rewrite Hno in Es|rewrite Hr in Es]; discriminate Es.
  Qed.
  Definition removable (path : pystr) (pl : place) : Prop := pl <> [] /\ basename path <> lit "." /\ basename path <> lit "..".
  Lemma dir_absent_any path touch attr s c x c' :
    unaffected s (sysof c) -> isabs path = true -> c_string path -> os_ok (sysof c) -> honest (sysof c) ->
    dir_body exec sha512 false path false touch attr c = (x, c') ->
    (unaffected s (sysof c') \/ exists pl n, resolve_node (o_fs s) [] path false = Ok (pl, n) /\ n_kind n = KDir /\ only_removed pl s (sysof c')) /\
    (forall res, x = Ok res -> or_success res = true -> missing (sysof c') path /\ (or_changed res = false -> unaffected s (sysof c'))) /\
    (fine c -> hash_ok sha512 ->
       resolve_node (o_fs s) [] path false = Err (oserr ENOENT) \/ (exists pl n, resolve_node (o_fs s) [] path false = Ok (pl, n) /\ n_kind n = KDir /\ removable path pl) ->
       exists res, x = Ok res /\ or_success res = true /\ healthy c' /\ (or_changed res = false <-> resolve_node (o_fs s) [] path false = Err (oserr ENOENT))).
  Proof.
    intros Hu Ha Hp Hos Hh E. rewrite dir_frame in E.
    refine (absent_any _ _ _ _ _ _ _ (fun k => k = KDir) (fun pl _ => removable path pl) (fun pl s' => only_removed pl s s') s c x c' Hu Ha Hp Hos Hh is_dir _ E); clear c x c' Hu Hos Hh E.
    intros c r c' pl n Hu Hr Hk E. destruct (rm_rf_any rest sha512 path c r c' Ha E) as [_ H]. assert (Hr' := Hr). apply resolve_node_split in Hr' as [Hr' _].
    rewrite Hu in H. change (o_fs (set_faults (o_faults (sysof c)) s)) with (o_fs s) in H. rewrite Hr' in H. destruct H as [H1 H2].
    split; [exact H1|]. split; [exact H1|]. split; [intros Hok; apply (H2 Hok); reflexivity|]. intros Hf (V1 & V2 & V3).
    eapply (rm_rf_fine rest sha512 path c r c' pl n); eauto. rewrite (unaffected_fs _ _ Hu). exact Hr.
  Qed.
  Lemma file_absent_any path touch attr s c x c' :
    unaffected s (sysof c) -> isabs path = true -> c_string path -> os_ok (sysof c) -> honest (sysof c) ->
    file_body exec sha512 false path false touch attr c = (x, c') ->
    (unaffected s (sysof c') \/ exists pl n, resolve_node (o_fs s) [] path false = Ok (pl, n) /\ is_file (n_kind n) /\ only_at pl s (sysof c') /\ only_removed pl s (sysof c')) /\
    (forall res, x = Ok res -> or_success res = true -> missing (sysof c') path /\ (or_changed res = false -> unaffected s (sysof c'))) /\
    (fine c -> hash_ok sha512 ->
       resolve_node (o_fs s) [] path false = Err (oserr ENOENT) \/ (exists pl n, resolve_node (o_fs s) [] path false = Ok (pl, n) /\ is_file (n_kind n)) ->
       exists res, x = Ok res /\ or_success res = true /\ healthy c' /\ (or_changed res = false <-> resolve_node (o_fs s) [] path false = Err (oserr ENOENT))).
  Proof.
    intros Hu Ha Hp Hos Hh E. rewrite file_frame in E.
    destruct (absent_any (lit "file") (lit "path '" ++ path ++ lit "' exists but is not a file!") (s_file_mode attr) touch attr path (sh exec sha512 [lit "rm"; lit "--"; path])
      is_file (fun _ _ => True) (fun pl s' => only_at pl s s' /\ only_removed pl s s') s c x c' Hu Ha Hp Hos Hh is_file_type) as (H1 & H2 & H3); [|exact E|].
    - clear c x c' Hu Hos Hh E. intros c r c' pl n Hu Hr Hk E. destruct (rm_any rest sha512 path c r c' Ha E) as [_ H].
      assert (Hfs : o_fs (sysof c) = o_fs s) by (rewrite (unaffected_fs _ _ Hu); reflexivity).
      assert (Hfine : fine c -> True -> r = Ok tt /\ healthy c').
      { intros Hf _. eapply (rm_fine rest sha512 path c r c' pl n); eauto; [rewrite Hfs; exact Hr|]. destruct Hk as [b ->]. discriminate. }
      destruct H as [[H [e ->]]|(pl' & n' & _ & H1 & H2 & H3)].
      + assert (Hu' : unaffected s (sysof c')) by (eapply unaffected_trans; eassumption). split_and!; try discriminate; auto.
        * split; [apply unaffected_only; exact Hu'|]. rewrite (unaffected_fs _ _ Hu'). intros q _. reflexivity.
        * split; [apply unaffected_only; exact Hu'|]. rewrite (unaffected_fs _ _ Hu'). auto.
        * split; [apply unaffected_only; exact Hu'|]. rewrite (unaffected_fs _ _ Hu'). auto.
      + rewrite Hfs, Hr in H1. injection H1 as <- <-. rewrite Hfs in H3.
        assert (Ho : only_files s (sysof c')) by (eapply only_files_trans; [apply unaffected_only; exact Hu|exact H2]). split_and!; auto.
        * split; [exact Ho|]. rewrite H3. intros q Hq. rewrite lookup_delete_ne by congruence. reflexivity.
        * split; [exact Ho|]. rewrite H3. intros q. destruct (decide (q = pl)) as [-> |Hq]; [right; split; [reflexivity|apply lookup_delete]|left; apply lookup_delete_ne; congruence].
        * split; [exact Ho|]. rewrite H3. intros q. destruct (decide (q = pl)) as [-> |Hq]; [right; split; [reflexivity|apply lookup_delete]|left; apply lookup_delete_ne; congruence].
        * intros _. rewrite H3. apply lookup_delete.
    - split; [exact H1|]. split; [exact H2|]. intros Hf Hha Hex. apply H3; auto. destruct Hex as [?|(pl & n & ? & ?)]; [left; assumption|right; exists pl, n; auto].
  Qed.
End bodies.
