(** C94: running the same command line again changes nothing on any host. *)
From Coq Require Import Lia ZifyBool ZifyN ZifyNat.
From stdpp Require Import gmap.
From Verif Require Import Base Dict_proofs Utf8 Codec Spec_Codec Codec_proofs Paths Sys Spec_Sys Sys_proofs Dispatcher Client Spec_Remote Remote_run Direct Control Spec_Control Control_proofs Control_settle Prop_Control Op Spec_Op Op_proofs Coreutils Files Walk_proofs Files_plain Spec_Files Shell_proofs Thrift Steps Dir_proofs Transfer Converge Content_proofs Spec_Link Link_walk Link_proofs Remote_examples Files_examples Sound Frugal Spec_Tree Tree_proofs Prop_Files Prop_Content Prop_Link Tree_run Prop_Tree Tree_dry Prop_Tree_again Prop_Dry Spec_Line Prop_Line Spec_Script Script_proofs Script_line Prop_Script System Prop_Tried Options Fleet Spec_Again Again_proofs Prop_Fleet.
From Verif Require Main Prop_Main Prop_Status.
Local Open Scope nat_scope.

(** C73 without a condition on the state in which the steps are repeated, beyond that of the system *)
Section steps.
  Variable rest : proc -> M xres.
  Variable sha512 : bytes -> bytes.
  Variable want_diff : bool.
  Variable search : bool -> pystr -> pystr -> result bool.
  Variable date : pystr.
  Notation does := (does rest sha512 want_diff search date).
  Notation well_formed := (well_formed rest sha512 want_diff).
  Notation play := (play step does).
  Lemma steps_again l c rs c' reqs :
    ready c reqs -> o_faults (sysof c) = [] -> o_uid (sysof c) = 0%N -> hash_ok sha512 -> unaliased (sysof c) -> canonical_base (c_base c) ->
    Forall (well_formed (sysof c) (c_base c) reqs) l -> in_turn step does now l c -> play l c = (Ok rs, c') ->
    c' = set_remote (c_remote c') c /\ only_files (sysof c) (sysof c') /\ o_faults (sysof c') = [] /\ ready c' reqs /\ grows (o_fs (sysof c)) (o_fs (sysof c')) /\
    (apart step about (sysof c') l -> (forall st p pl n, st ∈ l -> about st p -> sees (sysof c') p pl n -> N.land (n_mode n) 3072 = 0%N) ->
     forall c2, ready c2 reqs -> c_base c2 = c_base c -> c_remote c2 = Remote (sysof c') Up ->
     exists rs2, play l c2 = (Ok rs2, c2) /\ length rs2 = length l /\ Forall (fun r => or_changed r = false) rs2).
  Proof.
    intros Hrd Hfl Hu0 Hha Hun [Hcf Hcd] Hwf Hin E.
    assert (Hac : accounts_ok (sysof c)) by apply Hrd.
    assert (Hfine : Forall (step_fine step does about now (sysof c) (c_base c) reqs) l).
    { eapply Forall_impl; [exact Hwf|]. intros st Hw. destruct st as [path mode owner group|path mode owner group|op path content mode owner group|path target owner group|t src dest ns dm fm owner group|path text present ws].
      - destruct Hw as (W1 & W2 & W3 & W4). eapply (directory_fine rest sha512); eauto; reflexivity.
      - destruct Hw as (W1 & W2 & W3 & W4). eapply (file_fine rest sha512); eauto; reflexivity.
      - destruct Hw as (W0 & W0' & W1 & W2 & W3 & W4). eapply (put_fine rest sha512 want_diff); eauto; reflexivity.
      - destruct Hw as (W1 & W2 & W3 & W4 & W5). eapply (link_fine rest sha512); eauto; reflexivity.
      - destruct Hw as (W0 & (W1 & W2) & W3 & W4). eapply (tree_fine rest sha512 want_diff); eauto; [reflexivity..|split; assumption].
      - destruct Hw as (W1 & W2 & W3 & W4). eapply (line_fine rest sha512 want_diff search date); eauto; reflexivity. }
    assert (Hg : going (sysof c) (c_base c) reqs c).
    { split; [exact Hrd|]. split; [exact Hfl|]. split; [reflexivity|]. split; [apply only_files_refl|]. intros p n Hn. exists n. auto. }
    destruct (going_steps step does about now (sysof c) (c_base c) reqs l Hfine c rs c' Hg Hin E) as (Hset & (Hrd' & Hfl' & _ & Hof & Hgr) & _).
    split; [exact Hset|]. split; [exact Hof|]. split; [exact Hfl'|]. split; [exact Hrd'|]. split; [exact Hgr|]. intros Hap Hbits c2 Hrd2 Hb2 Hc2. apply idle_play.
    assert (Hs2 : sysof c2 = sysof c') by (unfold sysof at 1; rewrite Hc2; reflexivity).
    apply (idle_elsewhere step does about now (sysof c) (c_base c) reqs l Hfine c rs c' Hg Hin E c2); auto.
    - split; [exact Hrd2|]. rewrite Hs2. auto.
    - split; [rewrite Hc2; reflexivity|]. rewrite Hs2. split; [exact Hfl'|]. rewrite Hof. exact Hu0.
    - intros st Hi p pl n Ha Hs. eapply Hbits; eassumption.
  Qed.
End steps.

Section again.
  Variable rest : pystr -> proc -> M xres.
  Variable sha512 : bytes -> bytes.
  Variable search : bool -> pystr -> pystr -> result bool.
  Variable date : pystr.
  Variable set_order : list pystr -> list pystr.
  Variable realpath : pystr -> pystr -> pystr.
  Variable isdir : pystr -> bool.
  Variable inode : pystr -> option N.
  Variable depth : nat.
  Variable digit : N -> bool.
  Variable inventory : option pystr -> result (list pystr).
  Variable base : settings.
  Variable opens : pystr -> result Client.link.
  Variable closes : pystr -> result unit.
  Variable args : opts.
  Variable calls : pystr -> list call.
  Variable steps : pystr -> list step.
  Notation exec := (fun h => coreutils (rest h)).
  Notation fora code := (fora exec sha512 search date set_order realpath isdir inode code depth digit inventory base opens closes).
  Notation run_host code := (run_host exec sha512 search date set_order realpath isdir inode code depth base opens closes).
  Notation run_hosts code := (run_hosts exec sha512 search date set_order realpath isdir inode code depth base opens closes).
  Notation does h := (does (rest h) sha512 (n_diff args) search date).
  Notation play h := (play step (does h) (steps h)).

  (** the hosts that the command line asks for *)
  Definition asked_for (h : pystr) : Prop :=
    exists loaded names, inventory (default None (n_words args !! 0)) = Ok loaded /\ Prop_Main.asked loaded (n_hosts args) names /\ h ∈ names.
  (** The calls are those of steps (Prop_Script.v) that can be carried out in the state [s] of the host. *)
  Definition suits (h : pystr) (s : os) : Prop :=
    in_order_host s /\ Forall2 (fun k st => call_op (coreutils (rest h)) sha512 (n_diff args) search date set_order false NotGiven k = does h st) (calls h) (steps h) /\
    forall b, own_settings s base b -> feasible s b [no_settings] /\ Forall (well_formed (rest h) sha512 (n_diff args) s b [no_settings]) (steps h) /\
      forall c, sysof c = s -> c_base c = b -> ready c [no_settings] -> in_turn step (does h) now (steps h) c.

  Lemma tell_in_order local ks l h c : n_dry args = false ->
    Forall2 (fun k st => call_op (coreutils (rest h)) sha512 (n_diff args) search date set_order false NotGiven k = does h st) ks l ->
    tell (exec h) sha512 search date set_order isdir args local (in_order ks) c = Spec_Script.play step (does h) l c.
  Proof.
    intros Hd H. revert c. induction H as [|k st ks l Hk _ IH]; intros c; [reflexivity|]. cbn [in_order tell Spec_Script.play]. rewrite Hd, Hk.
    unfold mbind, W_bind. destruct (does h st c) as [[r|e] c1]; [|reflexivity]. cbn [tell]. unfold mbind, W_bind. rewrite IH. reflexivity.
  Qed.
  Lemma narrate_in_order code h k c : n_dry args = false ->
    Forall2 (fun k st => call_op (coreutils (rest h)) sha512 (n_diff args) search date set_order false NotGiven k = does h st) (calls h) (steps h) ->
    exists local, narrate (exec h) sha512 search date set_order realpath isdir inode code args depth unit (Bind (in_order (calls h)) k) c =
      match play h c with (Ok rs, c1) => tell (exec h) sha512 search date set_order isdir args local (k rs) c1 | (Err e, c1) => (Err e, c1) end.
  Proof.
    intros Hd Hs. destruct depth as [|d]; cbn [narrate tell]; unfold mbind, W_bind; rewrite (tell_in_order _ _ _ h c Hd Hs); (destruct (play h c) as [[rs|e] c1]; [eexists; reflexivity|exists (fun _ _ _ => wraise TypeError); reflexivity]).
  Qed.
  Lemma own_known s b : own_settings s base b -> known_base b.
  Proof. intros (a & g & _ & _ & ->). split; discriminate. Qed.
  Lemma own_canonical s b : canonical_base base -> own_settings s base b -> canonical_base b.
  Proof. intros H (a & g & _ & _ & ->). exact H. Qed.
  Lemma unchanged_quiet rs e local h c : Forall (fun r => or_changed r = false) rs -> tell (exec h) sha512 search date set_order isdir args local (complain e rs) c = (Ok tt, c).
  Proof. intros H. unfold complain. assert (existsb or_changed rs = false) as -> by (induction H as [|r rs Hr _ IH]; [reflexivity|]; cbn; rewrite Hr; exact IH). reflexivity. Qed.

  (** One host. *)
  Lemma host_again code code2 e p h fl c fl' c' : n_dry args = false -> canonical_base base -> hash_ok sha512 -> opens h = Ok Up -> suits h (fl h) ->
    code h (realpath (c_cwd c) p) = Some (fun _ => Bind (in_order (calls h)) silent) -> code2 h (realpath (c_cwd c) p) = Some (fun _ => Bind (in_order (calls h)) (complain e)) ->
    run_host code args (Some p) h (fl, c) = (Ok tt, (fl', c')) ->
    c_cwd c' = c_cwd c /\ c_gone c' = c_gone c /\
    (apart step about (fl' h) (steps h) -> (forall st p pl n, st ∈ steps h -> about st p -> sees (fl' h) p pl n -> N.land (n_mode n) 3072 = 0%N) ->
     forall fl2 c2, fl2 h = fl' h -> c_cwd c2 = c_cwd c -> c_gone c2 = c_gone c ->
     exists fl3 c3, run_host code2 args (Some p) h (fl2, c2) = (Ok tt, (fl3, c3)) /\ (forall x, fl3 x = fl2 x) /\ c_cwd c3 = c_cwd c2 /\ c_gone c3 = c_gone c2).
  Proof.
    intros Hdry Hcan Hha Hop (Hhost & Hcalls & Hsuits) Hc1 Hc2 E. unfold Fleet.run_host in E. rewrite Hop in E. cbn [fst snd] in E.
    destruct (Fleet.session _ _ _ _ _ _ _ _ _ _ _ _ _ _) as [x cx] eqn:Es. injection E as Ex <- <-.
    destruct (closes h) as [[]|] eqn:Ecl; [|discriminate]. subst x.
    destruct (identity (exec h) sha512 (fl h) Hhost) as (mk & Hmk). destruct (Hmk base) as [Hown Hid]. set (b := mk base) in *. clearbody b.
    destruct (Hsuits b Hown) as (Hfe & Hwf & Hin). destruct Hhost as (Hfl & Hu0 & Hac & Hos & Hun & _ & _).
    set (c0 := set_base base (set_remote (Remote (fl h) Up) c)) in *. unfold Fleet.session in Es.
    rewrite (bind_works _ _ c0 tt (set_base b c0)) in Es by (apply (Hid (fl h)); auto). set (ca := set_base b c0) in *.
    unfold run_cmdline in Es. set (load := load_tale _ _ _) in Es.
    destruct (dir_ok realpath isdir p ca) eqn:Edir; [|destruct (no_dir (exec h) sha512 realpath isdir load p ca Edir) as (e' & He); rewrite Es in He; discriminate].
    destruct (turn (exec h) sha512 realpath isdir load p ca (fl h) eq_refl Hos Hha Hfl Hac (own_known _ _ Hown) Hfe Edir) as (cl & L1 & L2 & L3 & L4 & L5).
    assert (Hload : load (realpath (c_cwd ca) p) cl = narrate (exec h) sha512 search date set_order realpath isdir inode (code h) args depth unit (Bind (in_order (calls h)) silent) cl).
    { unfold load, load_tale. change (c_cwd ca) with (c_cwd c). rewrite Hc1. reflexivity. }
    destruct (narrate_in_order (code h) h silent cl Hdry Hcalls) as (local & Hnar). rewrite Hload, Hnar in L5.
    assert (Hscl : sysof cl = fl h) by (unfold sysof; rewrite L1; reflexivity).
    destruct (play h cl) as [[rs|e1] c2] eqn:Ep; [|destruct L5 as (e' & He); rewrite Es in He; discriminate].
    cbn [silent tell mret W_ret] in L5.
    assert (Hb2 : c_base cl = b) by (rewrite L2; reflexivity).
    destruct (steps_again (rest h) sha512 (n_diff args) search date (steps h) cl rs c2 [no_settings]) as (S1 & S2 & S3 & S4 & Sg & S5).
    { exact L4. } { rewrite Hscl. exact Hfl. } { rewrite Hscl. exact Hu0. } { exact Hha. } { rewrite Hscl. exact Hun. } { rewrite Hb2. eapply own_canonical; eassumption. }
    { rewrite Hscl, Hb2. exact Hwf. } { apply Hin; assumption. } { exact Ep. }
    assert (Hg2 : c_gone c2 = c_gone ca) by (rewrite S1; exact L3). specialize (L5 Hg2).
    destruct (back_ok isdir ca) eqn:Eback; [|destruct L5 as (e' & He); rewrite Es in He; discriminate].
    destruct L5 as (cy & Ey & Y1 & Y2 & Y3). rewrite Es in Ey. injection Ey as <-. split; [exact Y2|]. split; [exact Y3|].
    rewrite put_same, Y1. intros Hap Hbits flb cb Hflb Hcwd Hgone.
    (* the second run *)
    assert (Hos2 : os_ok (sysof c2)) by apply S4.
    assert (Hac2 : accounts_ok (sysof c2)) by apply S4.
    assert (Hfe2 : feasible (sysof c2) b [no_settings]).
    { rewrite Hscl in S2, Sg. eapply feasible_grows; eassumption. }
    unfold Fleet.run_host. rewrite Hop. cbn [fst snd]. rewrite Hflb. change (r_os (c_remote c2)) with (sysof c2). set (d0 := set_base base (set_remote (Remote (sysof c2) Up) cb)).
    unfold Fleet.session. rewrite Hscl in S2.
    rewrite (bind_works _ _ d0 tt (set_base b d0)) by (apply (Hid (sysof c2)); [rewrite S2; reflexivity..|exact Hos2|reflexivity|reflexivity]). set (da := set_base b d0).
    unfold run_cmdline. set (load2 := load_tale _ _ _).
    assert (Edir2 : dir_ok realpath isdir p da = true) by (rewrite <- Edir; unfold dir_ok; change (c_cwd da) with (c_cwd cb); change (c_gone da) with (c_gone cb); rewrite Hcwd, Hgone; reflexivity).
    assert (Eback2 : back_ok isdir da = true) by (rewrite <- Eback; unfold back_ok; change (c_cwd da) with (c_cwd cb); change (c_gone da) with (c_gone cb); rewrite Hcwd, Hgone; reflexivity).
    destruct (turn (exec h) sha512 realpath isdir load2 p da (sysof c2) eq_refl Hos2 Hha S3 Hac2 (own_known _ _ Hown) Hfe2 Edir2) as (dl & M1 & M2 & M3 & M4 & M5).
    assert (Hload2 : load2 (realpath (c_cwd da) p) dl = narrate (exec h) sha512 search date set_order realpath isdir inode (code2 h) args depth unit (Bind (in_order (calls h)) (complain e)) dl).
    { unfold load2, load_tale. change (c_cwd da) with (c_cwd cb). rewrite Hcwd, Hc2. reflexivity. }
    destruct (narrate_in_order (code2 h) h (complain e) dl Hdry Hcalls) as (local2 & Hnar2). rewrite Hload2, Hnar2 in M5.
    destruct (S5 Hap Hbits dl M4) as (rs2 & Ep2 & _ & Hun2); [rewrite M2, Hb2; reflexivity|exact M1|].
    rewrite Ep2, unchanged_quiet in M5 by exact Hun2. specialize (M5 M3). rewrite Eback2 in M5. destruct M5 as (cz & Ez & Z1 & Z2 & Z3).
    rewrite Ez, Ecl. eexists _, cz. split; [reflexivity|]. split; [|split; [exact Z2|exact Z3]].
    intros x. unfold put. destruct (str_eqb_spec x h) as [-> |]; [|reflexivity]. rewrite Z1, M1. symmetry. exact Hflb.
  Qed.

  Lemma hosts_again code code2 e p c0 : n_dry args = false -> canonical_base base -> hash_ok sha512 -> forall sel, NoDup sel ->
    (forall h, h ∈ sel -> opens h = Ok Up /\ code h (realpath (c_cwd c0) p) = Some (fun _ => Bind (in_order (calls h)) silent) /\ code2 h (realpath (c_cwd c0) p) = Some (fun _ => Bind (in_order (calls h)) (complain e))) ->
    forall fl c fl' c', c_cwd c = c_cwd c0 -> c_gone c = c_gone c0 -> (forall h, h ∈ sel -> suits h (fl h)) -> run_hosts code args (Some p) sel (fl, c) = (Ok tt, (fl', c')) ->
    (forall h, h ∈ sel -> apart step about (fl' h) (steps h) /\ (forall st p pl n, st ∈ steps h -> about st p -> sees (fl' h) p pl n -> N.land (n_mode n) 3072 = 0%N)) ->
    forall fl2 c2, (forall h, h ∈ sel -> fl2 h = fl' h) -> c_cwd c2 = c_cwd c0 -> c_gone c2 = c_gone c0 ->
    exists fl3 c3, run_hosts code2 args (Some p) sel (fl2, c2) = (Ok tt, (fl3, c3)) /\ forall x, fl3 x = fl2 x.
  Proof.
    intros Hdry Hcan Hha sel. induction sel as [|h sel IH]; intros Hnd Hcode fl c fl' c' W1 W2 Hsuit E Hend fl2 c2 Hfl2 V1 V2.
    - eexists fl2, c2. split; reflexivity.
    - apply NoDup_cons in Hnd as [Hh Hnd]. cbn [Fleet.run_hosts] in E |- *.
      destruct (Fleet.run_host _ _ _ _ _ _ _ _ _ _ _ _ _ _ _ _ (fl, c)) as [[[]|ex] [fl1 c1]] eqn:E1; [|discriminate].
      destruct (Hcode h (elem_of_list_here _ _)) as (H1 & H2 & H3). rewrite <- W1 in H2, H3.
      destruct (host_again code code2 e p h fl c fl1 c1 Hdry Hcan Hha H1 (Hsuit h (elem_of_list_here _ _)) H2 H3 E1) as (K1 & K2 & K3).
      assert (Hkeep : fl' h = fl1 h).
      { destruct (run_hosts_spec _ _ _ _ _ _ _ _ _ _ _ _ _ _ _ _ _ _ _ _ _ Hnd E) as (done & r & Hs & D1 & _). apply D1. intros Hd. apply Hh. rewrite Hs. apply elem_of_app. auto. }
      assert (Hother : forall x, x <> h -> fl1 x = fl x) by (apply run_host_spec in E1 as [O1 _]; exact O1).
      destruct (Hend h (elem_of_list_here _ _)) as [A1 A2]. rewrite Hkeep in A1, A2.
      destruct (K3 A1 A2 fl2 c2) as (fl3 & c3 & R1 & R2 & R3 & R4); [rewrite Hfl2 by left; exact Hkeep|congruence|congruence|]. rewrite R1.
      destruct (IH Hnd (fun x Hx => Hcode x (elem_of_list_further _ _ _ Hx)) fl1 c1 fl' c') with (fl2 := fl3) (c2 := c3) as (fl4 & c4 & T1 & T2); [congruence|congruence| |exact E| | |congruence|congruence|].
      + intros x Hx. rewrite Hother; [apply Hsuit; right; exact Hx|]. intros ->. contradiction.
      + intros x Hx. apply Hend. right. exact Hx.
      + intros x Hx. rewrite R2. apply Hfl2. right. exact Hx.
      + exists fl4, c4. split; [exact T1|]. intros x. rewrite T2. apply R2.
  Qed.

  (** Full statement: a command line that has been carried out can be given again, in a new process that starts like the first: it is carried out again, no
      operation reports a change, and nothing is changed on any host.
      Here the scripts are lists of operations on files as in C73 (the missing cases are listed there), for every host its own; the second time they end with an
      exception if an operation reported a change. *)
  Theorem C94_again_partial code code2 e argv p fl c fl' c' :
    parse_args digit argv = Runs args -> n_dry args = false -> n_words args !! 1 = Some (Some p) -> canonical_base base -> hash_ok sha512 ->
    (forall h, asked_for h -> opens h = Ok Up /\ suits h (fl h) /\
      code h (realpath (c_cwd c) p) = Some (fun _ => Bind (in_order (calls h)) silent) /\ code2 h (realpath (c_cwd c) p) = Some (fun _ => Bind (in_order (calls h)) (complain e))) ->
    fora code argv (fl, c) = (Ok tt, (fl', c')) ->
    (forall h, asked_for h -> apart step about (fl' h) (steps h) /\ (forall st p pl n, st ∈ steps h -> about st p -> sees (fl' h) p pl n -> N.land (n_mode n) 3072 = 0%N)) ->
    exists fl2 c2, fora code2 argv (fl', c) = (Ok tt, (fl2, c2)) /\ forall h, fl2 h = fl' h.
  Proof.
    intros Hparse Hdry Hp Hcan Hha Hall E Hend. unfold Fleet.fora in E |- *. rewrite Hparse in E |- *. unfold Fleet.main_run in E |- *. rewrite Hp in E |- *. cbn [default] in E |- *.
    destruct (inventory _) as [loaded|ex] eqn:Ei; [|destruct ex; discriminate].
    pose proof (Prop_Main.select_spec loaded (match n_hosts args with Some s => split_char 44 s | None => loaded end) [] [] Prop_Main.once_nil) as H. destruct (Main.select _ _ _) as [sel|ex] eqn:Es; [|discriminate].
    destruct H as ((N1 & N2 & _) & _).
    assert (Hsel : forall h, h ∈ sel -> asked_for h).
    { intros h Hh. exists loaded, (match n_hosts args with Some s => split_char 44 s | None => loaded end). split; [exact Ei|]. split; [apply Prop_Main.asked_iff|]. apply N2. exact Hh. }
    eapply (hosts_again code code2 e p c Hdry Hcan Hha sel N1); [|reflexivity|reflexivity| |exact E| |reflexivity|reflexivity|reflexivity].
    - intros h Hh. destruct (Hall h (Hsel h Hh)) as (H1 & _ & H2 & H3). auto.
    - intros h Hh. apply Hall, Hsel, Hh.
    - intros h Hh. apply Hend, Hsel, Hh.
  Qed.
End again.
Print Assumptions C94_again_partial.

(** ** A case: two hosts with different scripts, and the words --diff, inventory and script. *)
Definition h_a : pystr := lit "a". Definition h_b : pystr := lit "b".
Definition two_calls (h : pystr) : list call :=
  if str_eqb h h_a then [OnFile (CDirectory p_web true false m755 alice None); OnFile (CUploadContent (inl (blit "hello")) p_page m755 alice None)]
  else [OnFile (CLink p_lnk p_etc true false alice None); OnFile (CFile p_run true false m755 alice None)].
Definition two_steps (h : pystr) : list step :=
  if str_eqb h h_a then [Directory p_web m755 alice None; ex_put (blit "hello") p_page] else [Link p_lnk p_etc alice None; File p_run m755 alice None].
Definition two_codes (k : list opres -> tale unit) (h f : pystr) : option (params -> tale unit) := if str_eqb f (lit "/d/deploy.py") then Some (fun _ => Bind (in_order (two_calls h)) k) else None.
Definition two_inventory (w : option pystr) : result (list pystr) := match w with Some f => if str_eqb f (lit "inv.py") then Ok [h_a; h_b] else Err (FatalError []) | None => Err TypeError end.
Definition two_path (cwd p : pystr) : pystr := if isabs p then p else cwd ++ lit "/" ++ p.
Definition two_argv : list pystr := List.map lit ["--diff"; "inv.py"; "deploy.py"]%string.
Definition two_args : opts := Opts None false 0 true true false false [Some (lit "inv.py"); Some (lit "deploy.py")].
Definition started : ctl := Ctl (Remote site Down) no_settings [] None [] (lit "/d") [] 0.
Definition two_run (code : pystr -> pystr -> option (params -> tale unit)) (fl : fleet) : result unit * (fleet * ctl) :=
  fora (fun _ => coreutils echo) fake_hash literally today (fun l => l) two_path (fun _ => true) (fun _ => None) code 5 (fun _ => false) two_inventory ex_base (fun _ => Ok Up) (fun _ => Ok tt) two_argv (fl, started).
Definition first_run := two_run (two_codes silent) (fun _ => site).
Definition after (h : pystr) : os := fst (snd first_run) h.
Definition complaint : exn := RuntimeError (lit "something changed").

Lemma own_root b : own_settings site ex_base b -> b = ex_base.
Proof.
  intros (a & g & [A1 A2] & [G1 G2] & ->).
  assert (pw_name a = lit "root") as ->.
  { cbn [site site_with o_passwd app] in A1. repeat (apply elem_of_cons in A1 as [-> |A1]); [reflexivity| |inversion A1]. exfalso. destruct A2 as [A2|[_ A2]]; vm_compute in A2; discriminate. }
  assert (gr_name g = lit "root") as ->.
  { cbn [site site_with o_group] in G1. repeat (apply elem_of_cons in G1 as [-> |G1]); [reflexivity| |inversion G1]. exfalso. destruct G2 as [G2|[_ G2]]; vm_compute in G2; discriminate. }
  reflexivity.
Qed.
Lemma site_in_order : in_order_host site.
Proof.
  split; [reflexivity|]. split; [reflexivity|]. split; [apply site_accounts|]. split; [apply site_ok|]. split; [apply site_accounts|]. split.
  - exists (Account (lit "root") 0 0 [] (lit "/root") (lit "/bin/sh")). split; [left|]. right. split; [|vm_compute; reflexivity].
    intros a' Ha. cbn [site site_with o_passwd app] in Ha. repeat (apply elem_of_cons in Ha as [-> |Ha]); [vm_compute; discriminate|vm_compute; discriminate|inversion Ha].
  - exists (Grent (lit "root") 0 []). split; [left|]. right. split; [|vm_compute; reflexivity].
    intros a' Ha. cbn [site site_with o_group] in Ha. repeat (apply elem_of_cons in Ha as [-> |Ha]); [vm_compute; discriminate|vm_compute; discriminate|inversion Ha].
Qed.
Lemma two_dir : asks_dir site ex_base [no_settings] m755 alice None.
Proof. split; [exact (site_feasible alice None m755 (or_intror eq_refl) I ex_c755)|apply (octal_below_dec _ _ 493); vm_compute; reflexivity]. Qed.
Lemma two_file : asks_file site ex_base [no_settings] m755 alice None.
Proof. split; [exact (site_feasible alice m755 None (or_intror eq_refl) ex_c755 I)|apply (octal_below_dec _ _ 493); vm_compute; reflexivity]. Qed.
Lemma two_suits h : suits (fun _ => echo) fake_hash literally today (fun l => l) ex_base two_args two_calls two_steps h site.
Proof.
  split; [exact site_in_order|]. split.
  { unfold two_calls, two_steps. destruct (str_eqb h h_a); (constructor; [reflexivity|constructor; [reflexivity|constructor]]). }
  intros b Hb. apply own_root in Hb as ->. split; [exact (site_feasible None None None (or_introl eq_refl) I I)|]. split.
  - unfold two_steps. destruct (str_eqb h h_a); each.
    + split; [split; [text|dec]|]. split; [eexists; reflexivity|exact two_dir].
    + split; [left; eexists; split; [reflexivity|left; reflexivity]|]. split; [unfold small; vm_compute; reflexivity|]. split; [split; [text|dec]|]. split; [eexists; reflexivity|exact two_file].
    + split; [split; [text|dec]|]. split; [eexists; reflexivity|]. split; [split; [text|dec]|]. split; [discriminate|]. exact (site_feasible alice None None (or_intror eq_refl) I I).
    + split; [split; [text|dec]|]. split; [eexists; reflexivity|exact two_file].
  - intros c Hs _ _. unfold two_steps. destruct (str_eqb h h_a).
    + split; [exact I|]. intros. split; [exact I|]. intros. exact I.
    + split; [rewrite Hs; left; split; [vm_compute; reflexivity|exact site_tree]|]. intros. split; [exact I|]. intros. exact I.
Qed.
Lemma two_apart s st1 st2 p1 p2 q1 q2 : (forall p, about st1 p -> p = p1) -> (forall p, about st2 p -> p = p2) -> spot_at s p1 = Some (q1, 0%N) -> spot_at s p2 = Some (q2, 0%N) -> q1 <> q2 ->
  apart step about s [st1; st2] /\ forall st p pl n, st ∈ [st1; st2] -> about st p -> sees s p pl n -> N.land (n_mode n) 3072 = 0%N.
Proof.
  intros A1 A2 S1 S2 Hne. split.
  - split; [|split; [|exact I]].
    + intros st' p q pl n m Hi Hp Hq H1 H2. apply elem_of_list_singleton in Hi as ->. apply A1 in Hp as ->. apply A2 in Hq as ->. apply spot_seen in H1, H2. congruence.
    + intros st' p q pl n m Hi. inversion Hi.
  - intros st p pl n Hi Hp H. apply spot_seen in H. apply elem_of_cons in Hi as [-> |Hi]; [apply A1 in Hp as ->; congruence|]. apply elem_of_list_singleton in Hi as ->. apply A2 in Hp as ->. congruence.
Qed.
Example C94_case :
  parse_args (fun _ => false) two_argv = Runs two_args /\ canonical_base ex_base /\ hash_ok fake_hash /\
  (forall h, asked_for two_inventory two_args h -> suits (fun _ => echo) fake_hash literally today (fun l => l) ex_base two_args two_calls two_steps h site /\
    two_codes silent h (two_path (c_cwd started) (lit "deploy.py")) = Some (fun _ => Bind (in_order (two_calls h)) silent) /\
    two_codes (complain complaint) h (two_path (c_cwd started) (lit "deploy.py")) = Some (fun _ => Bind (in_order (two_calls h)) (complain complaint))) /\
  asked_for two_inventory two_args h_a /\ asked_for two_inventory two_args h_b /\ fst first_run = Ok tt /\
  (forall h, asked_for two_inventory two_args h -> apart step about (after h) (two_steps h) /\ (forall st p pl n, st ∈ two_steps h -> about st p -> sees (after h) p pl n -> N.land (n_mode n) 3072 = 0%N)) /\
  spot_at site p_page = None /\ spot_at (after h_a) p_page = Some ([lit "page"; lit "web"; lit "old"; lit "srv"], 0%N) /\ spot_at (after h_b) p_page = None /\
  spot_at (after h_b) p_lnk = Some ([lit "lnk"; lit "old"; lit "srv"], 0%N) /\
  (* the second script would complain if something changed *)
  fst (two_run (two_codes (complain complaint)) (fun _ => site)) = Err complaint /\ fst (two_run (two_codes (complain complaint)) (fst (snd first_run))) = Ok tt.
Proof.
  assert (Hask : forall h, asked_for two_inventory two_args h -> h = h_a \/ h = h_b).
  { intros h (loaded & names & E1 & E2 & E3). vm_compute in E1. injection E1 as <-. cbn in E2. subst names. repeat (apply elem_of_cons in E3 as [-> |E3]); auto. inversion E3. }
  split; [vm_compute; reflexivity|]. split; [exact ex_canonical|]. split; [exact ex_hash|]. split; [intros h _; split; [apply two_suits|split; reflexivity]|].
  split; [exists [h_a; h_b], [h_a; h_b]; split; [reflexivity|]; split; [reflexivity|left]|]. split; [exists [h_a; h_b], [h_a; h_b]; split; [reflexivity|]; split; [reflexivity|right; left]|].
  split; [vm_compute; reflexivity|]. split.
  { intros h Hh. destruct (Hask h Hh) as [-> | ->].
    - apply (two_apart _ _ _ p_web p_page [lit "web"; lit "old"; lit "srv"] [lit "page"; lit "web"; lit "old"; lit "srv"]); [intros p Hp; exact Hp|intros p Hp; exact Hp|vm_compute; reflexivity|vm_compute; reflexivity|vm_compute; discriminate].
    - apply (two_apart _ _ _ p_lnk p_run [lit "lnk"; lit "old"; lit "srv"] [lit "run"; lit "srv"]); [intros p Hp; exact Hp|intros p Hp; exact Hp|vm_compute; reflexivity|vm_compute; reflexivity|vm_compute; discriminate]. }
  split; [vm_compute; reflexivity|]. split; [vm_compute; reflexivity|]. split; [vm_compute; reflexivity|]. split; [vm_compute; reflexivity|]. split; vm_compute; reflexivity.
Qed.

(** Full statement (false): a command line that has been carried out can be given again, and changes nothing.  The script puts two contents at the same path. *)
Definition quarrel_calls : list call := [OnFile (CUploadContent (inl (blit "one")) p_run m755 alice None); OnFile (CUploadContent (inl (blit "two")) p_run m755 alice None)].
Definition quarrels (k : list opres -> tale unit) (h f : pystr) : option (params -> tale unit) := Some (fun _ => Bind (in_order quarrel_calls) k).
Theorem C94_again_refuted : exists e code code2 ks fl fl' c', in_order_host (fl h_a) /\ in_order_host (fl h_b) /\
  (forall h f, code h f = Some (fun _ => Bind (in_order ks) silent)) /\ (forall h f, code2 h f = Some (fun _ => Bind (in_order ks) (complain e))) /\
  two_run code fl = (Ok tt, (fl', c')) /\ fst (two_run code2 fl') = Err e.
Proof.
  exists complaint, (quarrels silent), (quarrels (complain complaint)), quarrel_calls, (fun _ => site).
  set (x := two_run (quarrels silent) (fun _ => site)). exists (fst (snd x)), (snd (snd x)).
  split; [exact site_in_order|]. split; [exact site_in_order|]. split; [reflexivity|]. split; [reflexivity|]. split; [|vm_compute; reflexivity].
  assert (H : fst x = Ok tt) by (vm_compute; reflexivity). destruct x as [r [f c]]. cbn in *. subst. reflexivity.
Qed.
Print Assumptions C94_again_refuted.
