(** C58: which package or service manager is used. *)
From Coq Require Import Lia ZifyBool ZifyN ZifyNat.
From stdpp Require Import gmap.
From Verif Require Import Base Utf8 Utf8_proofs Dict_proofs Codec Spec_Codec Paths Sys Spec_Sys Sys_proofs Dispatcher Client Spec_Session Spec_Remote Remote_run Control Spec_Control Control_proofs
  Walk_proofs Quiet Digits Prop_Control Op Op_proofs Files Files_plain Spec_Files Shell_proofs Steps Remote_examples Files_examples Prop_Files System Spec_Commands Commands_proofs Package_proofs Bash Prop_Package.
Local Open Scope nat_scope.

(** ** The script *)
Lemma word_char_facts c : word_char c = true -> (c < 128)%N /\ c <> 32%N /\ is_space c = false.
Proof. unfold word_char, is_space. lia. Qed.
Lemma plain_word_facts w : plain_word w = true -> Forall (fun c => (c < 128)%N /\ c <> 32%N /\ is_space c = false) w /\ w <> [].
Proof.
  destruct w as [|c w]; [discriminate|]. unfold plain_word. rewrite andb_true_iff. intros [_ H]. split; [|discriminate].
  apply Forall_forall. intros x Hx. apply word_char_facts. rewrite forallb_forall in H. apply H. apply elem_of_list_In. exact Hx.
Qed.
Lemma split_word w r : (32%N ∉ w) -> split_char 32 (w ++ 32%N :: r) = w :: split_char 32 r.
Proof. intros H. rewrite split_char_app, split_no_char by exact H. reflexivity. Qed.
Lemma no_space w : plain_word w = true -> 32%N ∉ w.
Proof. intros H Hin. apply plain_word_facts in H as [H _]. rewrite Forall_forall in H. destruct (H _ Hin) as (_ & H1 & _). contradiction. Qed.
Definition tokens (c : pystr) : list pystr := [lit "{"; lit "type"; lit "&>/dev/null"; c; lit "&&"; lit "echo"; c; lit ";"; lit "}"].
Lemma probe_tokens c r : plain_word c = true -> split_char 32 (probe c ++ lit " || " ++ r) = tokens c ++ lit "||" :: split_char 32 r.
Proof.
  intros Hc. apply no_space in Hc. unfold probe.
  replace ((lit "{ type &>/dev/null " ++ c ++ lit " && echo " ++ c ++ lit " ; }") ++ lit " || " ++ r)
    with (lit "{" ++ 32%N :: lit "type" ++ 32%N :: lit "&>/dev/null" ++ 32%N :: c ++ 32%N :: lit "&&" ++ 32%N :: lit "echo" ++ 32%N :: c ++ 32%N :: lit ";" ++ 32%N :: lit "}" ++ 32%N :: lit "||" ++ 32%N :: r).
  2:{ rewrite <- !app_assoc. change (lit "{ type &>/dev/null ") with (lit "{" ++ 32%N :: lit "type" ++ 32%N :: lit "&>/dev/null" ++ [32%N]).
      change (lit " && echo ") with (32%N :: lit "&&" ++ 32%N :: lit "echo" ++ [32%N]). change (lit " ; }") with (32%N :: lit ";" ++ 32%N :: lit "}").
      change (lit " || ") with (32%N :: lit "||" ++ [32%N]). rewrite <- !app_assoc. cbn [app]. rewrite <- !app_assoc. cbn [app]. rewrite <- !app_assoc. cbn [app]. reflexivity. }
  repeat (rewrite split_word; [|first [exact Hc|dec]]). reflexivity.
Qed.
Lemma split_tokens_app sep a b : sep ∉ a -> split_tokens sep (a ++ sep :: b) = a :: split_tokens sep b.
Proof.
  induction a as [|t a IH]; intros H; cbn.
  - rewrite str_eqb_refl. reflexivity.
  - apply not_elem_of_cons in H as [H1 H2]. destruct (str_eqb_spec t sep) as [<- |_]; [contradiction|]. rewrite (IH H2). reflexivity.
Qed.
Lemma not_bars c : plain_word c = true -> lit "||" <> c.
Proof. intros H <-. vm_compute in H. discriminate. Qed.
Lemma parse_probe cmds : cmds <> [] -> Forall (fun c => plain_word c = true) cmds ->
  parse_script (probe_script cmds) = Some (List.map (fun c => TryEcho c c) cmds ++ [Echo (lit "__unknown__")]).
Proof.
  intros Hne H. unfold parse_script, probe_script. 
  assert (Hs : split_char 32 (join_str (lit " || ") (List.map probe cmds) ++ lit " || echo __unknown__") =
    List.concat (List.map (fun c => tokens c ++ [lit "||"]) cmds) ++ [lit "echo"; lit "__unknown__"]).
  { change (lit " || echo __unknown__") with (lit " || " ++ lit "echo __unknown__"). induction H as [|c cmds Hc H IH]; [contradiction|].
    destruct cmds as [|c2 cmds].
    - cbn [List.map join_str List.concat]. rewrite probe_tokens by exact Hc. rewrite app_nil_r, <- app_assoc. reflexivity.
    - change (join_str (lit " || ") (List.map probe (c :: c2 :: cmds))) with (probe c ++ lit " || " ++ join_str (lit " || ") (List.map probe (c2 :: cmds))).
      rewrite <- !app_assoc. rewrite probe_tokens by exact Hc. rewrite IH by discriminate. cbn [List.map List.concat]. rewrite <- !app_assoc. reflexivity. }
  rewrite Hs. clear Hs Hne. induction H as [|c cmds Hc H IH]; [reflexivity|].
  cbn [List.map List.concat]. rewrite <- !app_assoc. cbn [app]. rewrite (split_tokens_app (lit "||") (tokens c)).
  2:{ unfold tokens. apply not_bars in Hc. rewrite !not_elem_of_cons. split_and!; try exact Hc; try (intros E; vm_compute in E; discriminate). apply not_elem_of_nil. }
  cbn [mapM]. replace (parse_alternative (tokens c)) with (Some (TryEcho c c)) by (unfold tokens, parse_alternative; rewrite !str_eqb_refl, Hc; reflexivity).
  cbn [mbind option_bind]. change (mapM parse_alternative) with (mapM (M := option) parse_alternative) in IH. cbv beta. etransitivity; [apply (f_equal (fun o => o ≫= (fun k => mret (TryEcho c c :: k)))); exact IH|]. reflexivity.
Qed.
(** the first of the commands that exists *)
Inductive first_of (P : pystr -> bool) : list pystr -> pystr -> Prop :=
| first_here x l : P x = true -> first_of P (x :: l) x
| first_later x y l : P x = false -> first_of P l y -> first_of P (x :: l) y.
Lemma perform_probe av cmds : exists w, perform av (List.map (fun c => TryEcho c c) cmds ++ [Echo (lit "__unknown__")]) = Some w /\
  ((first_of av cmds w) \/ (w = lit "__unknown__" /\ forall c, c ∈ cmds -> av c = false)).
Proof.
  induction cmds as [|c cmds IH]; cbn.
  - eexists. split; [reflexivity|]. right. split; [reflexivity|]. intros c H. inversion H.
  - destruct (av c) eqn:E; [eexists; split; [reflexivity|]; left; constructor; exact E|].
    destruct IH as (w & -> & [H|[-> H]]); (eexists; split; [reflexivity|]); [left; constructor; assumption|]. right. split; [reflexivity|].
    intros x [-> |Hx]%elem_of_cons; auto.
Qed.
Lemma decode_ascii bad l : Forall (fun c => (c < 128)%N) l -> utf8_dec bad (List.map n2b l) = Some l.
Proof.
  induction 1 as [|c l H _ IH]; [reflexivity|]. cbn [List.map utf8_dec]. rewrite b2n_n2b by lia. apply N.ltb_lt in H. rewrite H, IH. reflexivity.
Qed.
Lemma strip_last w : Forall (fun c => is_space c = false) w -> w <> [] -> strip (w ++ [10%N]) = w.
Proof.
  intros H Hw. destruct w as [|c w]; [contradiction|]. unfold strip. inversion H as [|? ? H1 H2]; subst. cbn [app]. rewrite lstrip_id by exact H1.
  unfold rstrip. change (c :: w ++ [10%N]) with ((c :: w) ++ [10%N]). rewrite rev_app_distr. cbn [rev app lstrip]. 
  change (is_space 10) with true. cbn iota. fold (rev (c :: w)).
  assert (Hr : rev (c :: w) <> []) by (intros E; apply (f_equal length) in E; rewrite rev_length in E; discriminate).
  change (rev w ++ [c]) with (rev (c :: w)).
  destruct (rev (c :: w)) as [|d r] eqn:E; [contradiction|]. rewrite lstrip_id.
  - rewrite <- E. apply rev_involutive.
  - rewrite Forall_forall in H. apply H. rewrite elem_of_list_In, in_rev, E. left. reflexivity.
Qed.
Lemma printed_word w z : plain_word w = true -> cr_stdout z = Some (printed w) -> out_ignore z = w.
Proof.
  intros H E. apply plain_word_facts in H as [H Hne]. unfold out_ignore. rewrite E. unfold printed, utf8_decode_ignore. cbn [default from_option]. unfold id.
  change [n2b 10] with (List.map n2b [10%N]). rewrite <- map_app, decode_ascii.
  - apply strip_last; [|exact Hne]. eapply Forall_impl; [exact H|]. cbn. intros c Hc. apply Hc.
  - apply Forall_app. split; [|constructor; [lia|constructor]]. eapply Forall_impl; [exact H|]. cbn. intros c Hc. apply Hc.
Qed.

Section detect.
  (** commands that exist on the remote *)
  Variable available : os -> pystr -> bool.
  Variable rest : proc -> M xres.
  Variable sha512 : bytes -> bytes.
  Hypothesis Hstable : forall s s' x, unaffected s s' -> available s' x = available s x.
  Notation exec := (bash available rest).

  (** names of commands that can be registered *)
  Definition registrable (cmds : list pystr) : Prop := cmds <> [] /\ Forall (fun c => plain_word c = true) cmds /\ (lit "__unknown__" ∉ cmds) /\
    (N.of_nat (length (List.concat cmds)) + N.of_nat (length cmds) < 2 ^ 32)%N.
  Lemma first_in P l x : first_of P l x -> x ∈ l /\ P x = true.
  Proof. induction 1 as [x l H|x y l H _ [IH1 IH2]]; [split; [left|exact H]|split; [right; exact IH1|exact IH2]]. Qed.
  Lemma dget_first {A} P (ms : list (pystr * A)) x : first_of P ms.*1 x -> exists i m, ms !! i = Some (x, m) /\ dget x ms = Some m /\ forall j y, j < i -> ms !! j = Some y -> P y.1 = false.
  Proof.
    induction ms as [|[k m] ms IH]; intros H; [inversion H|]. cbn in H. inversion H as [? ? Hp|? ? ? Hp H']; subst.
    - exists 0, m. split; [reflexivity|]. split; [cbn; rewrite str_eqb_refl; reflexivity|]. intros j y Hj. lia.
    - destruct (IH H') as (i & m' & H1 & H2 & H3). exists (S i), m'. split; [exact H1|]. split.
      + cbn. destruct (str_eqb_spec x k) as [-> |_]; [|exact H2]. apply first_in in H' as [_ H']. congruence.
      + intros [|j] y Hj Hy; [injection Hy as <-; exact Hp|]. apply (H3 j); [lia|exact Hy].
  Qed.

  Lemma bash_runs p s cmds : registrable cmds -> p_argv p = [lit "bash"; lit "-c"; probe_script cmds] ->
    exists w, exec p s = (Ok (XExit 0 (printed w) []), s) /\ (first_of (available s) cmds w \/ (w = lit "__unknown__" /\ forall c, c ∈ cmds -> available s c = false)).
  Proof.
    intros (H1 & H2 & _) Hp. destruct (perform_probe (available s) cmds) as (w & Hw & Hc). exists w. split; [|exact Hc].
    unfold bash. rewrite Hp. rewrite !str_eqb_refl. cbn [andb]. rewrite parse_probe by assumption. rewrite Hw. reflexivity.
  Qed.
  Lemma word_of cmds av w : registrable cmds -> (first_of av cmds w \/ (w = lit "__unknown__" /\ forall c, c ∈ cmds -> av c = false)) -> plain_word w = true /\ small (printed w).
  Proof.
    intros (_ & H2 & _ & H3) [H|[-> _]]; [|split; [reflexivity|]; vm_compute; reflexivity]. apply first_in in H as [H _].
    rewrite Forall_forall in H2. split; [apply H2; exact H|]. assert (Hl : length w <= length (List.concat cmds)).
    { clear -H. induction cmds as [|x cmds IH]; [inversion H|]. cbn [List.concat]. rewrite app_length. apply elem_of_cons in H as [-> |H]; [lia|specialize (IH H); lia]. }
    unfold small, printed. rewrite app_length, map_length. cbn [length]. lia.
  Qed.
  Lemma probe_length cmds : (length (probe_script cmds) <= 2 * length (List.concat cmds) + 50 * length cmds + 50)%nat.
  Proof.
    unfold probe_script. rewrite app_length. change (length (lit " || echo __unknown__")) with 20. induction cmds as [|c cmds IH]; [cbn; lia|].
    assert (Hp : length (probe c) = 2 * length c + 32) by (unfold probe; rewrite !app_length; change (length (lit "{ type &>/dev/null ")) with 19; change (length (lit " && echo ")) with 9; change (length (lit " ; }")) with 4; lia).
    cbn [List.concat length]. rewrite app_length. destruct cmds as [|c2 cmds].
    - cbn [List.map join_str]. rewrite Hp. lia.
    - change (join_str (lit " || ") (List.map probe (c :: c2 :: cmds))) with (probe c ++ lit " || " ++ join_str (lit " || ") (List.map probe (c2 :: cmds))).
      rewrite !app_length, Hp. change (length (lit " || ")) with 4. lia.
  Qed.
  Lemma command_ok cmds : registrable cmds -> Forall c_string [lit "bash"; lit "-c"; probe_script cmds].
  Proof.
    intros (H1 & H2 & _ & H3). do 2 (apply Forall_cons; split; [split; [text|dec]|]). apply Forall_cons; split; [|constructor].
    assert (Hall : Forall (fun c => (0 < c < 128)%N) (probe_script cmds)).
    { unfold probe_script. apply Forall_app. split; [|dec]. clear H1 H3. induction H2 as [|c cmds Hc H2 IH]; [constructor|].
      assert (Hp : Forall (fun c => (0 < c < 128)%N) (probe c)).
      { destruct c as [|x c]; [discriminate|]. assert (Hw : Forall (fun c => (0 < c < 128)%N) (x :: c)).
        { unfold plain_word in Hc. apply andb_true_iff in Hc as [_ Hc]. rewrite forallb_forall in Hc. apply Forall_forall. intros y Hy. apply elem_of_list_In in Hy.
          specialize (Hc y Hy). unfold word_char in Hc. lia. }
        unfold probe. rewrite !Forall_app. split_and!; try exact Hw; dec. }
      destruct cmds as [|c2 cmds]; [exact Hp|].
      change (join_str (lit " || ") (List.map probe (c :: c2 :: cmds))) with (probe c ++ lit " || " ++ join_str (lit " || ") (List.map probe (c2 :: cmds))).
      rewrite !Forall_app. split_and!; [exact Hp|dec|exact IH]. }
    pose proof (probe_length cmds) as Hl. split; [split|].
    - unfold text_ok. eapply Forall_impl; [exact Hall|]. cbn. intros c Hc. lia.
    - lia.
    - intros Hin. rewrite Forall_forall in Hall. specialize (Hall _ Hin). cbn in Hall. unfold nul in Hall. lia.
  Qed.

  (** The first registered manager whose command exists is run, on the system as it was.  If there is none, an error is raised. *)
  Theorem C58 (managers : list (pystr * W opres)) error c r c' : registrable managers.*1 ->
    with_manager exec sha512 managers error c = (r, c') ->
    ((exists e, r = Err e) /\ unaffected (sysof c) (sysof c') /\ ~ fine c) \/
    (exists i name manager c1, managers !! i = Some (name, manager) /\ available (sysof c) name = true /\
       (forall j y, j < i -> managers !! j = Some y -> available (sysof c) y.1 = false) /\
       c1 = set_remote (c_remote c1) c /\ unaffected (sysof c) (sysof c1) /\ manager c1 = (r, c')) \/
    ((forall y, y ∈ managers -> available (sysof c) y.1 = false) /\ r = Err (OperationError error) /\ unaffected (sysof c) (sysof c')).
  Proof.
    intros Hreg E. unfold with_manager in E. 
    assert (Hq : forall z c1, crun exec sha512 [lit "bash"; lit "-c"; probe_script managers.*1] c = (z, c1) ->
      c1 = set_remote (c_remote c1) c /\ unaffected (sysof c) (sysof c1) /\
      match z with
      | Ok z => exists w, out_ignore z = w /\ (first_of (available (sysof c)) managers.*1 w \/ (w = lit "__unknown__" /\ forall c0, c0 ∈ managers.*1 -> available (sysof c) c0 = false))
      | Err _ => ~ fine c
      end).
    { intros z c1 Ez. assert (Ez' := Ez). apply crun_any in Ez as [H1 H2]. split; [exact H1|]. destruct H2 as [[H2 (e & ->)]|(p & s1 & x & H2 & H3 & H4 & H5)].
      - split; [exact H2|]. intros Hf. destruct (crun_fine exec sha512 _ _ _ _ Ez' Hf) as (p & x & F1 & F2 & F3 & _).
        + discriminate.
        + small_nat.
        + apply (command_ok _ Hreg).
        + destruct (bash_runs p (sysof c) _ Hreg F2) as (w & Hw & Hc). rewrite Hw in F1. injection F1 as <- _. apply word_of in Hc as [_ Hsm]; [|exact Hreg].
          cbn in F3. discriminate F3; [unfold in_i32; lia|exact Hsm|small_nat].
      - destruct (bash_runs p s1 _ Hreg H4) as (w & Hw & Hc). rewrite Hw in H3. injection H3 as <- <-. split; [exact H2|].
        assert (Hc' : first_of (available (sysof c)) managers.*1 w \/ (w = lit "__unknown__" /\ forall c0, c0 ∈ managers.*1 -> available (sysof c) c0 = false)).
        { destruct Hc as [Hc|[-> Hc]].
          - left. clear -Hc Hstable H2. induction Hc; constructor; auto; rewrite <- (Hstable _ _ _ H2); assumption.
          - right. split; [reflexivity|]. intros c0 H0. rewrite <- (Hstable _ _ _ H2). auto. }
        destruct (word_of _ _ _ Hreg Hc') as [Hpw Hsm]. destruct z as [z|e].
        + exists w. split; [|exact Hc']. apply printed_word; [exact Hpw|]. destruct H5 as [H5|[e [=]]]. cbn in H5. 
          assert (H6 : Ok z = Ok (Completed (Some (printed w)) (Some []) 0)) by (apply H5; [unfold in_i32; lia|exact Hsm|small_nat]). injection H6 as ->. reflexivity.
        + intros Hf. destruct (crun_fine exec sha512 _ _ _ _ Ez' Hf) as (p' & x & F1 & F2 & F3 & _).
          * discriminate.
          * small_nat.
          * apply (command_ok _ Hreg).
          * destruct (bash_runs p' (sysof c) _ Hreg F2) as (w' & Hw' & Hc2). rewrite Hw' in F1. injection F1 as <- _. apply word_of in Hc2 as [_ Hsm2]; [|exact Hreg].
            cbn in F3. discriminate F3; [unfold in_i32; lia|exact Hsm2|small_nat]. }
    assert (Hw : forall fn c1, find_command exec sha512 managers c = (fn, c1) -> match fn with
       | Ok f => exists z, crun exec sha512 [lit "bash"; lit "-c"; probe_script managers.*1] c = (Ok z, c1) /\ f = dget (out_ignore z) managers
       | Err e => crun exec sha512 [lit "bash"; lit "-c"; probe_script managers.*1] c = (Err e, c1) end).
    { intros fn c1 Ef. unfold find_command in Ef. apply bind_spec in Ef as [(z & c2 & E1 & [= <- <-])|(e & E1 & ->)]; [eauto|exact E1]. }
    apply bind_spec in E as [(fn & c1 & E1 & E2)|(e & E1 & ->)].
    - apply Hw in E1 as (z & E1 & ->). apply Hq in E1 as (H1 & H2 & w & Hz & H3). rewrite Hz in E2. destruct H3 as [H3|[-> H3]].
      + right. left. destruct (dget_first _ _ _ H3) as (i & m & G1 & G2 & G3). rewrite G2 in E2. exists i, w, m, c1. split_and!; auto. apply first_in in H3. apply H3.
      + right. right. destruct Hreg as (_ & _ & Hun & _). rewrite (proj2 (dget_None _ _) Hun) in E2. injection E2 as <- <-. split_and!; auto.
        intros y Hy. apply H3. apply elem_of_list_fmap. eauto.
    - left. apply Hw in E1. apply Hq in E1 as (H1 & H2 & H3). eauto.
  Qed.
End detect.
Print Assumptions C58.

(** The registry of the package managers, on a system with pacman and emerge: pacman is used.  On one without, there is an error. *)
Definition only (l : list pystr) (s : os) (x : pystr) : bool := str_in x l.
Example C58_case :
  registrable [lit "apt-get"; lit "pacman"; lit "emerge"] /\ fine (arch_site [nano]) /\
  (let x := package (bash (only [lit "emerge"; lit "pacman"]) arch) fake_hash false (fun l => l) [vim] true NotGiven (arch_site [nano]) in
   or_success (result_of x) = true /\ (o_env (sysof (snd x))).*1 = [nano; vim]) /\
  fst (package (bash (only [lit "ls"]) arch) fake_hash false (fun l => l) [vim] true NotGiven (arch_site [nano])) =
    Err (OperationError (lit "No supported package manager was found on the remote system.")).
Proof.
  split. { split_and!; [discriminate|dec|dec|vm_compute; reflexivity]. }
  split; [apply arch_fine|]. split; [split; vm_compute; reflexivity|vm_compute; reflexivity].
Qed.
