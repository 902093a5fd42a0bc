(** Running a command line again: the turn of one host. *)
From Coq Require Import Lia ZifyBool ZifyN ZifyNat.
From stdpp Require Import gmap.
From Verif Require Import Base Utf8 Codec Spec_Codec Codec_proofs Codec_proofs2 Paths Sys Spec_Sys Sys_proofs Dispatcher Client Spec_Remote Remote_proofs Remote_run Direct Control Spec_Control Control_proofs Control_settle Op Spec_Op Op_proofs Coreutils Files Walk_proofs Files_plain Spec_Files Shell_proofs Thrift Steps Prop_Query Remote_safe Spec_Session Session_proofs Spec_Script Rerun_proofs Script_proofs System Prop_Tried Fleet Spec_Again.
Local Open Scope nat_scope.

(** ** The steps again, from another state of the process *)
Section elsewhere.
  Variable step : Type.
  Variable does : step -> W opres.
  Variable about : step -> pystr -> Prop.
  Variable now : step -> os -> Prop.
  Variables (s0 : os) (base : settings) (reqs : list settings).
  Notation going := (going s0 base reqs).
  Notation step_fine := (step_fine step does about now s0 base reqs).
  Notation play := (play step does).
  Notation in_turn := (in_turn step does now).
  Notation apart := (apart step about).
  Lemma idle_elsewhere l : Forall step_fine l -> forall c rs c', going c -> in_turn l c -> play l c = (Ok rs, c') ->
    forall c2, going c2 -> healthy c2 -> sysof c2 = sysof c' -> apart (sysof c') l -> (forall st, st ∈ l -> plain_bits_at step about st c') -> forall st, st ∈ l -> idle step does st c2.
  Proof.
    induction 1 as [|st l Hst Hl IH]; intros c rs c' Hg Hin E c2 Hg2 Hh2 Hs2 Hap Hpb st0 Hi; [inversion Hi|].
    rewrite play_cons in E. apply bind_spec in E as [(res & c1 & E1 & E)|(e & _ & [=])]. apply bind_spec in E as [(rs' & c3 & E2 & E)|(e & _ & [=])]. injection E as <- <-.
    destruct Hin as [Hn Hin]. destruct (Hst c res c1 Hg Hn E1) as (_ & Hg1 & _ & D & _ & D2 & D3).
    destruct (going_steps step does about now s0 base reqs l Hl c1 rs' c3 Hg1 (Hin res c1 E1) E2) as (_ & _ & Hgr2 & Hfr & _). destruct Hap as [Ha1 Ha2].
    apply elem_of_cons in Hi as [-> |Hi].
    - apply D3; [exact Hg2|exact Hh2|rewrite Hs2; exact Hgr2| |].
      + intros pl Hd. rewrite Hs2. apply Hfr; [|reflexivity]. intros st' p n Hi' Hab Hs. destruct (D2 pl Hd) as (p0 & n0 & H1 & H2).
        destruct (sees_grows _ _ _ _ _ Hgr2 H2) as (n2 & H3). eapply Ha1; eassumption.
      + intros p pl n Hab Hs. eapply Hpb; [left|exact Hab|]. rewrite <- Hs2. exact Hs.
    - eapply (IH c1 rs' c3); eauto. intros st' Hi'. apply Hpb. right. exact Hi'.
  Qed.
End elsewhere.

(** ** The turn of a host *)
Section turn.
  Variable exec : proc -> M xres.
  Variable sha512 : bytes -> bytes.
  Variable realpath : pystr -> pystr -> pystr.
  Variable isdir : pystr -> bool.

  Lemma own_user s : os_ok s -> (exists a, denotes_user s (str_of_N (o_uid s)) a) ->
    exists a, lookup_user s (str_of_N (o_uid s)) = Ok (Some a) /\ denotes_user s (str_of_N (o_uid s)) a /\ conn_resolve_user exec sha512 None (Remote s Up) = (Ok (pw_name a), Remote s Up).
  Proof.
    intros Hos [a0 Ha0]. destruct (lookup_user_total s (str_of_N (o_uid s)) (str_of_N_no_nul _)) as ([a|] & E & Hd); [|destruct (Hd a0 Ha0)].
    exists a. split; [exact E|]. split; [exact Hd|]. unfold conn_resolve_user. cbv [mbind C_bind].
    assert (Henc : encodable (PResolveUser None)) by (apply packet_ok_write; exact I).
    assert (Hh : handle exec sha512 (PResolveUser None) s = (Ok (Reply [] (PResolveResult (pw_name a))), s)).
    { cbn [handle]. unfold handle_resolve_user. cbv [mbind M_bind bindM getM lift]. rewrite E. reflexivity. }
    assert (Hok : packet_ok (PResolveResult (pw_name a))).
    { destruct Hd as [Ha _]. destruct (os_ok_names s Hos) as [Hp _]. rewrite Forall_forall in Hp. exact (Hp a Ha). }
    rewrite (request_reply exec sha512 _ _ _ _ Henc Hh Hok). reflexivity.
  Qed.
  Lemma own_group s : os_ok s -> (exists a, denotes_group s (str_of_N (o_gid s)) a) ->
    exists a, lookup_group s (str_of_N (o_gid s)) = Ok (Some a) /\ denotes_group s (str_of_N (o_gid s)) a /\ conn_resolve_group exec sha512 None (Remote s Up) = (Ok (gr_name a), Remote s Up).
  Proof.
    intros Hos [a0 Ha0]. destruct (lookup_group_nul s (str_of_N (o_gid s)) (str_of_N_no_nul _)) as ([a|] & E); [|destruct (Remote_run.lookup_group_ok _ _ _ E a0 Ha0)].
    assert (Hd := Remote_run.lookup_group_ok _ _ _ E). cbn beta iota in Hd. exists a. split; [exact E|]. split; [exact Hd|]. unfold conn_resolve_group. cbv [mbind C_bind].
    assert (Henc : encodable (PResolveGroup None)) by (apply packet_ok_write; exact I).
    assert (Hh : handle exec sha512 (PResolveGroup None) s = (Ok (Reply [] (PResolveResult (gr_name a))), s)).
    { cbn [handle]. unfold handle_resolve_group. cbv [mbind M_bind bindM getM lift]. rewrite E. reflexivity. }
    assert (Hok : packet_ok (PResolveResult (gr_name a))).
    { destruct Hd as [Ha _]. destruct (os_ok_names s Hos) as [_ Hp]. rewrite Forall_forall in Hp. exact (Hp a Ha). }
    rewrite (request_reply exec sha512 _ _ _ _ Henc Hh Hok). reflexivity.
  Qed.
  (** The settings depend on the accounts only. *)
  Lemma identity s : in_order_host s -> exists b, forall base, own_settings s base (b base) /\
    forall s', o_passwd s' = o_passwd s -> o_group s' = o_group s -> o_uid s' = o_uid s -> o_gid s' = o_gid s -> os_ok s' ->
    forall c, c_remote c = Remote s' Up -> c_base c = base -> resolve_identity exec sha512 c = (Ok tt, set_base (b base) c).
  Proof.
    intros (_ & _ & _ & Hos & _ & Hu & Hg). destruct (own_user s Hos Hu) as (a & A1 & A2 & A3). destruct (own_group s Hos Hg) as (g & G1 & G2 & G3).
    exists (fun base => Settings (Some (pw_name a)) (Some (gr_name g)) (Some (pw_name a)) (Some (gr_name g)) (s_file_mode base) (s_dir_mode base) (s_umask base) (s_cwd base)).
    intros base. split; [exists a, g; auto|]. intros s' P1 P2 P3 P4 Hos' c Hc Hb.
    assert (L1 : lookup_user s' (str_of_N (o_uid s')) = Ok (Some a)).
    { rewrite P3, <- A1. unfold lookup_user, getpwnam, getpwuid. rewrite P1. reflexivity. }
    assert (L2 : lookup_group s' (str_of_N (o_gid s')) = Ok (Some g)).
    { rewrite P4, <- G1. unfold lookup_group, getgrnam, getgrgid. rewrite P2. reflexivity. }
    assert (D1 : exists a, denotes_user s' (str_of_N (o_uid s')) a) by (exists a; unfold denotes_user in *; rewrite P1, P3; exact A2).
    assert (D2 : exists g, denotes_group s' (str_of_N (o_gid s')) g) by (exists g; unfold denotes_group in *; rewrite P2, P4; exact G2).
    destruct (own_user s' Hos' D1) as (a' & A1' & _ & A3'). destruct (own_group s' Hos' D2) as (g' & G1' & _ & G3').
    rewrite L1 in A1'. injection A1' as <-. rewrite L2 in G1'. injection G1' as <-.
    unfold resolve_identity, resolve_user, resolve_group, via. unfold mbind, W_bind. rewrite Hc, A3'. cbn [c_remote set_remote]. rewrite G3'. unfold modW. cbn. rewrite Hb.
    destruct c; cbn in *; subst; reflexivity.
  Qed.

  Definition dir_ok (p : pystr) (c : ctl) : bool := let d := dirname (realpath (c_cwd c) p) in isdir d && negb (bool_decide (d ∈ c_gone c)).
  Definition back_ok (c : ctl) : bool := isdir (c_cwd c) && negb (bool_decide (c_cwd c ∈ c_gone c)).
  Definition bad {A} (x : result A * ctl) : Prop := exists e, fst x = Err e.
  Lemma no_dir load p c : dir_ok p c = false -> bad (run_script exec sha512 realpath isdir load p c).
  Proof.
    intros H. unfold bad, run_script, wfinally, mbind, W_bind, modW, getW. cbn. unfold chdir at 1. cbn. unfold dir_ok in H. cbv zeta in H. rewrite H. eexists. reflexivity.
  Qed.
  Lemma active_file i f c : active (set_scripts (alter (fun w => Script' (sw_defaults w) f) i (c_scripts c)) c) = active c.
  Proof.
    unfold active. cbn [c_script c_scripts set_scripts]. destruct (c_script c) as [j|]; [|reflexivity]. cbn. destruct (decide (j = i)) as [-> |Hne].
    - rewrite list_lookup_alter. destruct (c_scripts c !! i); reflexivity.
    - rewrite list_lookup_alter_ne by congruence. reflexivity.
  Qed.
  Lemma turn load p c s : c_remote c = Remote s Up -> os_ok s -> hash_ok sha512 -> o_faults s = [] -> accounts_ok s -> known_base (c_base c) -> feasible s (c_base c) [no_settings] -> dir_ok p c = true ->
    exists c1, c_remote c1 = c_remote c /\ c_base c1 = c_base c /\ c_gone c1 = c_gone c /\ ready c1 [no_settings] /\
      match load (realpath (c_cwd c) p) c1 with
      | (Ok u, c2) => c_gone c2 = c_gone c ->
          if back_ok c then exists c', run_script exec sha512 realpath isdir load p c = (Ok u, c') /\ c_remote c' = c_remote c2 /\ c_cwd c' = c_cwd c /\ c_gone c' = c_gone c
          else bad (run_script exec sha512 realpath isdir load p c)
      | (Err _, _) => bad (run_script exec sha512 realpath isdir load p c)
      end.
  Proof.
    intros Hr Hos Hh Hf Hac Hkb Hfe Hd. set (i := length (c_scripts c)).
    set (cg := set_script (Some i) (set_cwd (dirname (realpath (c_cwd c) p)) (set_stack (i :: c_stack c) (set_scripts (c_scripts c ++ [new_script]) (set_indent (S (c_indent c)) c))))).
    assert (Ha : active cg = Some no_settings).
    { unfold active. subst cg. cbn. subst i. rewrite list_lookup_middle by reflexivity. reflexivity. }
    assert (Henc : enclosing s (c_base cg) [] no_settings) by (right; auto).
    destruct (enter_works exec sha512 i no_settings cg no_settings s Hr Hos Hh Hf eq_refl Ha) as (new & d & c1 & E0 & E1 & E2).
    { apply feasible_valid with (reqs := []); [exact Hac|exact Henc|exact Hfe]. }
    assert (Henc' : enclosing (r_os (c_remote cg)) (c_base cg) [] no_settings) by (right; auto).
    destruct (enter_settles exec sha512 i no_settings cg new cg d c1 [] no_settings E0 E1 eq_refl Ha Henc') as (res & F1 & F2 & -> & _ & F4 & F5 & F6 & F7 & F8).
    set (cl := set_scripts (alter (fun w => Script' (sw_defaults w) (Some (realpath (c_cwd c1) (dirname (realpath (c_cwd c) p))))) i (c_scripts c1)) c1).
    assert (Hrun : run_script exec sha512 realpath isdir load p c =
      let '(r, c2) := load (realpath (c_cwd c) p) cl in
      let c3 := set_scripts (alter (fun w => Script' (tail (sw_defaults w)) (sw_file w)) i (c_scripts c2)) c2 in
      let '(r', c4) := match chdir isdir (c_cwd c) c3 with (Ok _, c4) => (r, set_script (c_script c) c4) | (Err e, c4) => (Err e, c4) end in
      (r', set_indent (pred (c_indent c4)) (set_stack (tail (c_stack c4)) c4))).
    { unfold run_script. unfold mbind at 1, W_bind at 1. unfold modW at 1. unfold wfinally at 1. unfold mbind at 1, W_bind at 1. unfold getW at 1. cbv zeta.
      unfold mbind at 1, W_bind at 1. unfold modW at 1. unfold wfinally at 1. unfold mbind at 1, W_bind at 1. unfold getW at 1. cbv zeta.
      unfold mbind at 1, W_bind at 1. unfold chdir at 1. cbn [c_cwd c_gone c_scripts c_script c_stack c_indent c_base c_remote set_stack set_scripts set_indent set_cwd]. unfold dir_ok in Hd. cbv zeta in Hd. rewrite Hd.
      unfold wfinally at 1. unfold mbind at 1, W_bind at 1. unfold modW at 1. fold i. fold cg.
      unfold with_defaults. rewrite (bind_works _ _ _ _ _ E0), (bind_works _ _ _ _ _ E1). unfold wfinally at 1. unfold mbind at 1, W_bind at 1. unfold getW at 1. unfold mbind at 1, W_bind at 1. unfold on_script at 1, modW at 1.
      fold cl. destruct (load (realpath (c_cwd c) p) cl) as [r c2]. unfold exit_defaults, on_script, modW at 1. unfold mbind at 1, W_bind at 1. destruct (chdir isdir (c_cwd c) _) as [[]]; reflexivity. }
    exists cl. split; [exact E2|]. split; [exact F5|]. split; [exact F7|]. split.
    { split; [|split; [|split]].
      - exists res. split; [unfold cl; rewrite active_file; exact F1|]. left. unfold sysof. change (c_remote cl) with (c_remote c1). change (c_base cl) with (c_base c1). rewrite E2, F5. exact F2.
      - change (c_base cl) with (c_base c1). rewrite F5. exact Hkb.
      - unfold sysof. change (c_remote cl) with (c_remote c1). rewrite E2. change (c_remote cg) with (c_remote c). rewrite Hr. exact Hac.
      - unfold sysof. change (c_remote cl) with (c_remote c1). rewrite E2. change (c_remote cg) with (c_remote c). rewrite Hr. exact Hos. }
    rewrite Hrun. destruct (load (realpath (c_cwd c) p) cl) as [[u|e] c2].
    - intros Hg. unfold chdir. cbn [c_gone set_scripts]. rewrite Hg. unfold back_ok. destruct (_ && _).
      + eexists. split; [reflexivity|]. cbn. auto.
      + eexists. reflexivity.
    - unfold chdir. destruct (_ && _); eexists; reflexivity.
  Qed.
End turn.
