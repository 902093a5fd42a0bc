(** * What system.user and system.group make of an account *)
From Coq Require Import Lia ZifyBool ZifyN ZifyNat.
From stdpp Require Import gmap.
From Verif Require Import Base Utf8 Dict_proofs Codec Spec_Codec Paths Sys Spec_Sys Sys_proofs Dispatcher Client Spec_Session Spec_Remote Remote_run Digits Control Spec_Control Control_proofs
  Walk_proofs Op Op_proofs Files Files_plain Spec_Files Shell_proofs Steps Dir_proofs System Spec_Commands Commands_proofs Package_proofs Spec_Account Query_proofs Account_proofs.
Local Open Scope nat_scope.

Lemma others_refl u s : others u s s. Proof. split; [intros; split; reflexivity|intros; reflexivity]. Qed.
Lemma others_trans u s s1 s2 : others u s s1 -> others u s1 s2 -> others u s s2.
Proof.
  intros [A1 A2] [B1 B2]. split.
  - intros v Hv. destruct (B1 v Hv) as [E1 E2], (A1 v Hv) as [E3 E4]. split; congruence.
  - intros g v Hv. rewrite B2, A2 by assumption. reflexivity.
Qed.
Lemma others_unaffected u s s1 s2 : unaffected s s1 -> others u s1 s2 -> others u s s2.
Proof. intros H. rewrite H. intros H2. exact H2. Qed.
Lemma others_after u s s2 : unaffected s s2 -> others u s s2.
Proof. intros H. rewrite H. exact (others_refl u s). Qed.

Section run.
  Variable exec : proc -> M xres.
  Variable sha512 : bytes -> bytes.
  Hypothesis Hb : bounded exec.
  Hypothesis Hsu : shadow_utils exec.
  Notation sh := (sh exec sha512).

  (** ** Commands *)
  (** [T] holds after success, and other accounts are never touched *)
  Definition acts (u : pystr) (T : os -> os -> Prop) (s : os) (l : list (list pystr)) (s' : os) (r : result unit) : Prop :=
    others u s s' /\ (r = Ok tt -> T s s').
  Definition andthen (T1 T2 : os -> os -> Prop) (s s' : os) : Prop := exists s1, T1 s s1 /\ T2 s1 s'.
  Lemma acts_bind u T1 T2 (m : W unit) (n : W unit) : does exec m (acts u T1) -> does exec n (acts u T2) -> does exec (_ ← m; n) (acts u (andthen T1 T2)).
  Proof.
    intros H1 H2. refine (does_bind exec _ _ _ (fun _ => _) _ H1 (fun _ => H2) _ _).
    - intros s l s' e [A _]. split; [exact A|discriminate].
    - intros s l1 s1 [] l2 s2 r [A1 A2] [B1 B2]. split; [eapply others_trans; eassumption|]. intros ->. exists s1. auto.
  Qed.
  Lemma acts_ret u (T : os -> os -> Prop) : (forall s, T s s) -> does exec (mret tt) (acts u T).
  Proof. intros H. eapply does_mono; [apply does_ret|]. intros s l s' r (-> & -> & ->). split; [apply others_refl|auto]. Qed.
  Lemma acts_sh cmd keep done args opts u : promised exec cmd keep done -> getopt args = (opts, [u]) ->
    (forall s s1 s2, unaffected s s1 -> keep u s1 s2 -> keep u s s2) -> (forall s s2, unaffected s s2 -> keep u s s2) -> (forall s s1 s2, unaffected s s1 -> done opts u s1 s2 -> done opts u s s2) ->
    does exec (sh (cmd :: args)) (fun s l s' r => keep u s s' /\ (r = Ok tt -> done opts u s s')).
  Proof.
    clear Hsu. intros P G K1 K2 K3. eapply does_mono; [exact (sh_does exec sha512 _ Hb)|]. intros s l s' r [(-> & H & e & ->)|(-> & p & s1 & x & H1 & H2 & H3 & H4)].
    - split; [auto|discriminate].
    - destruct (P p s1 x s' args opts u H3 G H2) as (A1 & _ & A3). split; [eapply K1; eassumption|]. intros Hr. destruct (H4 Hr) as (out & err & ->). eapply K3; [exact H1|]. eapply A3. reflexivity.
  Qed.
  Lemma usermod_does opt v u : opt <> lit "--" -> opt ∉ switches -> does exec (sh (usermod opt v u)) (acts u (user_modified [(opt, v)] u)).
  Proof.
    intros H1 H2. apply (acts_sh (lit "usermod") others user_modified); [apply Hsu| | | |].
    - cbn [getopt]. rewrite bool_decide_eq_false_2 by exact H1. rewrite bool_decide_eq_false_2 by exact H2. reflexivity.
    - intros s s1 s2. apply others_unaffected.
    - intros s s2. apply others_after.
    - intros s s1 s2 H. rewrite H. intros D. exact D.
  Qed.
  Lemma userdel_does u : does exec (sh [lit "userdel"; lit "--"; u]) (acts u (user_deleted u)).
  Proof.
    apply (acts_sh (lit "userdel") others (fun _ => user_deleted) [lit "--"; u] [] u); [apply Hsu|reflexivity| | |].
    - intros s s1 s2. apply others_unaffected.
    - intros s s2. apply others_after.
    - intros s s1 s2 H. rewrite H. intros D. exact D.
  Qed.

  (** ** Changing an account *)
  Definition maybe (b : bool) (T : os -> os -> Prop) (s s' : os) : Prop := if b then T s s' else s' = s.
  Lemma acts_wif u b T m : does exec m (acts u T) -> does exec (wif b m) (acts u (maybe b T)).
  Proof. intros H. destruct b; [exact H|]. apply acts_ret. intros s. reflexivity. Qed.

  Ltac step b a :=
    intros H E; destruct b; cbn [maybe] in H;
    [destruct H as (G & (a0 & a' & E1 & E2 & D1 & D2 & D3 & D4 & D5) & D6 & D7); assert (a0 = a) as -> by congruence; exists a'; split_and!;
     [exact E2|exact G|first [exact D1|symmetry; exact D1]|first [exact D2|symmetry; exact D2]|first [exact D3|symmetry; exact D3]|first [exact D4|symmetry; exact D4]|first [exact D5|symmetry; exact D5]|first [exact D6|symmetry; exact D6]|exact D7]
    |subst; exists a; split_and!; try reflexivity; assumption].
  (** what one step does, to each of the values *)
  Lemma step_uid u (b : bool) v s s' a : maybe b (user_modified [(lit "--uid", v)] u) s s' -> entry s u = Some a ->
    exists a', entry s' u = Some a' /\ gids s' = gids s /\ (if b then number v (pw_uid a') else pw_uid a' = pw_uid a) /\ (pw_gid a' = pw_gid a) /\ (pw_gecos a' = pw_gecos a) /\ (pw_dir a' = pw_dir a) /\ (pw_shell a' = pw_shell a) /\ (secret s' u = secret s u) /\ (forall g, member s' g u <-> member s g u).
  Proof. clear; step b a. Qed.
  Lemma step_gid u (b : bool) v s s' a : maybe b (user_modified [(lit "--gid", v)] u) s s' -> entry s u = Some a ->
    exists a', entry s' u = Some a' /\ gids s' = gids s /\ (pw_uid a' = pw_uid a) /\ (if b then group_id s v (pw_gid a') else pw_gid a' = pw_gid a) /\ (pw_gecos a' = pw_gecos a) /\ (pw_dir a' = pw_dir a) /\ (pw_shell a' = pw_shell a) /\ (secret s' u = secret s u) /\ (forall g, member s' g u <-> member s g u).
  Proof. clear; step b a. Qed.
  Lemma step_comment u (b : bool) v s s' a : maybe b (user_modified [(lit "--comment", v)] u) s s' -> entry s u = Some a ->
    exists a', entry s' u = Some a' /\ gids s' = gids s /\ (pw_uid a' = pw_uid a) /\ (pw_gid a' = pw_gid a) /\ (if b then v = pw_gecos a' else pw_gecos a' = pw_gecos a) /\ (pw_dir a' = pw_dir a) /\ (pw_shell a' = pw_shell a) /\ (secret s' u = secret s u) /\ (forall g, member s' g u <-> member s g u).
  Proof. clear; step b a. Qed.
  Lemma step_home u (b : bool) v s s' a : maybe b (user_modified [(lit "--home", v)] u) s s' -> entry s u = Some a ->
    exists a', entry s' u = Some a' /\ gids s' = gids s /\ (pw_uid a' = pw_uid a) /\ (pw_gid a' = pw_gid a) /\ (pw_gecos a' = pw_gecos a) /\ (if b then v = pw_dir a' else pw_dir a' = pw_dir a) /\ (pw_shell a' = pw_shell a) /\ (secret s' u = secret s u) /\ (forall g, member s' g u <-> member s g u).
  Proof. clear; step b a. Qed.
  Lemma step_shell u (b : bool) v s s' a : maybe b (user_modified [(lit "--shell", v)] u) s s' -> entry s u = Some a ->
    exists a', entry s' u = Some a' /\ gids s' = gids s /\ (pw_uid a' = pw_uid a) /\ (pw_gid a' = pw_gid a) /\ (pw_gecos a' = pw_gecos a) /\ (pw_dir a' = pw_dir a) /\ (if b then v = pw_shell a' else pw_shell a' = pw_shell a) /\ (secret s' u = secret s u) /\ (forall g, member s' g u <-> member s g u).
  Proof. clear; step b a. Qed.
  Lemma step_password u (b : bool) v s s' a : maybe b (user_modified [(lit "--password", v)] u) s s' -> entry s u = Some a ->
    exists a', entry s' u = Some a' /\ gids s' = gids s /\ (pw_uid a' = pw_uid a) /\ (pw_gid a' = pw_gid a) /\ (pw_gecos a' = pw_gecos a) /\ (pw_dir a' = pw_dir a) /\ (pw_shell a' = pw_shell a) /\ (if b then secret s' u = Some v else secret s' u = secret s u) /\ (forall g, member s' g u <-> member s g u).
  Proof. clear; step b a. Qed.
  Lemma step_groups u (b : bool) v s s' a : maybe b (user_modified [(lit "--groups", v)] u) s s' -> entry s u = Some a ->
    exists a', entry s' u = Some a' /\ gids s' = gids s /\ (pw_uid a' = pw_uid a) /\ (pw_gid a' = pw_gid a) /\ (pw_gecos a' = pw_gecos a) /\ (pw_dir a' = pw_dir a) /\ (pw_shell a' = pw_shell a) /\ (secret s' u = secret s u) /\ (if b then members_are v (fun g => member s' g u) else forall g, member s' g u <-> member s g u).
  Proof. clear; step b a. Qed.

  Section edit.
  Variable (u : pystr) (uid : option Z) (group : option pystr) (groups : option (list pystr)) (append : bool) (hash home shell comment : option pystr).
  Notation want_groups := (want_groups groups append).
  Definition set_to (x : user_entry) : os -> os -> Prop :=
    let md opt v := user_modified [(opt, v)] u in
    andthen (maybe (differ (VInt (ue_uid x)) (VInt (pick_int uid (ue_uid x)))) (md (lit "--uid") (str_of_Z (pick_int uid (ue_uid x))))) $
    andthen (maybe (differ (VStr (ue_group x)) (VStr (pick_text group (ue_group x)))) (md (lit "--gid") (pick_text group (ue_group x)))) $
    andthen (maybe (match want_groups (ue_groups x) with [] => false | l => differ (vstrs (py_sorted (ue_groups x))) (vstrs l) end) (md (lit "--groups") (join_str (lit ",") (want_groups (ue_groups x))))) $
    andthen (maybe (differ (VStr (ue_gecos x)) (VStr (pick_text comment (ue_gecos x)))) (md (lit "--comment") (pick_text comment (ue_gecos x)))) $
    andthen (maybe (differ (VStr (ue_home x)) (VStr (pick_text home (ue_home x)))) (md (lit "--home") (pick_text home (ue_home x)))) $
    andthen (maybe (differ (VStr (ue_shell x)) (VStr (pick_text shell (ue_shell x)))) (md (lit "--shell") (pick_text shell (ue_shell x)))) $
    match or_str hash (ue_hash x) with None => fun s s' => s' = s | Some h => maybe (differ (vopt (ue_hash x)) (VStr h)) (md (lit "--password") h) end.
  Lemma edit_does x : does exec (edit_user exec sha512 u uid group groups append hash home shell comment x) (acts u (set_to x)).
  Proof.
    assert (M : forall opt v, opt <> lit "--" -> opt ∉ switches -> does exec (sh (usermod opt v u)) (acts u (user_modified [(opt, v)] u))) by (intros; apply usermod_does; assumption).
    unfold edit_user, set_to. cbv zeta.
    repeat (apply acts_bind; [try (apply acts_wif, M; [discriminate|apply (bool_decide_unpack _); vm_compute; exact I])|]).
    - destruct (want_groups (ue_groups x)) as [|g l]; [apply acts_ret; reflexivity|]. apply acts_wif, M; [discriminate|apply (bool_decide_unpack _); vm_compute; exact I].
    - destruct (or_str hash (ue_hash x)) as [h|]; [|apply acts_ret; reflexivity]. apply acts_wif, M; [discriminate|apply (bool_decide_unpack _); vm_compute; exact I].
  Qed.

  Lemma differ_int a b : differ (VInt a) (VInt b) = bool_decide (a <> b).
  Proof. unfold differ. rewrite py_eq_int. destruct (decide (a = b)); [rewrite bool_decide_eq_true_2, bool_decide_eq_false_2|rewrite bool_decide_eq_false_2, bool_decide_eq_true_2]; tauto. Qed.
  Lemma differ_str a b : differ (VStr a) (VStr b) = bool_decide (a <> b).
  Proof. unfold differ. rewrite py_eq_str. destruct (decide (a = b)); [rewrite bool_decide_eq_true_2, bool_decide_eq_false_2|rewrite bool_decide_eq_false_2, bool_decide_eq_true_2]; tauto. Qed.
  Lemma differ_strs a b : differ (vstrs a) (vstrs b) = bool_decide (a <> b).
  Proof. unfold differ. rewrite py_eq_vstrs. destruct (decide (a = b)); [rewrite bool_decide_eq_true_2, bool_decide_eq_false_2|rewrite bool_decide_eq_false_2, bool_decide_eq_true_2]; tauto. Qed.

  Lemma want_groups_elem l g : g ∈ want_groups l <-> (exists r, asks_list groups r /\ g ∈ r) \/ (((forall r, ~ asks_list groups r) \/ append = true) /\ g ∈ l).
  Proof.
    unfold Account_proofs.want_groups. rewrite py_sorted_elem. destruct (asks_list_cases groups) as [(r & H1 & H2 & H3)|[H1 H2]].
    - assert (A : (exists r', asks_list groups r' /\ g ∈ r') <-> g ∈ r).
      { split; [|eauto]. intros (r' & B1 & B2). rewrite (asks_list_unique _ _ _ H1 B1). exact B2. }
      assert (B : ~ (forall r, ~ asks_list groups r)) by (intros B; exact (B r H1)). rewrite A. destruct append.
      + rewrite (proj1 (dedup_spec _)), elem_of_app, H2. tauto.
      + rewrite H3. split; [tauto|]. intros [C|[[C|[=]] _]]; tauto.
    - assert (A : ~ exists r', asks_list groups r' /\ g ∈ r') by (intros (r' & B1 & _); exact (H1 r' B1)). destruct append.
      + rewrite (proj1 (dedup_spec _)), elem_of_app, H2. rewrite elem_of_nil. tauto.
      + rewrite H2. tauto.
  Qed.

  Lemma set_to_granted s a e h s' : plain_request s u group groups -> complete s u a -> getgrgid s (Z.of_N (pw_gid a)) = Ok e -> secret s u = Some h ->
    others u s s' -> set_to (entry_of s u a (gr_name e) h) s s' ->
    user_granted u uid group groups append hash home shell comment s s'.
  Proof.
    intros (_ & P2 & P3 & P4 & _) (C1 & _ & C3) He Hh Ho. apply getgrgid_found in C3 as (e' & He' & Hn). assert (e' = e) as -> by congruence. clear He'.
    assert (Hname : pw_name a = u) by (apply entry_some in C1; tauto).
    unfold set_to. cbv zeta. cbn [ue_uid ue_group ue_groups ue_gecos ue_home ue_shell ue_hash entry_of]. rewrite Hname.
    intros (s1 & T1 & s2 & T2 & s3 & T3 & s4 & T4 & s5 & T5 & s6 & T6 & T7).
    destruct (step_uid _ _ _ _ _ _ T1 C1) as (a1 & E1 & G1 & A1 & A2 & A3 & A4 & A5 & A6 & A7). clear T1.
    destruct (step_gid _ _ _ _ _ _ T2 E1) as (a2 & E2 & G2 & B1 & B2 & B3 & B4 & B5 & B6 & B7). clear T2.
    destruct (step_groups _ _ _ _ _ _ T3 E2) as (a3 & E3 & G3 & D1 & D2 & D3 & D4 & D5 & D6 & D7). clear T3.
    destruct (step_comment _ _ _ _ _ _ T4 E3) as (a4 & E4 & G4 & F1 & F2 & F3 & F4 & F5 & F6 & F7). clear T4.
    destruct (step_home _ _ _ _ _ _ T5 E4) as (a5 & E5 & G5 & I1 & I2 & I3 & I4 & I5 & I6 & I7). clear T5.
    destruct (step_shell _ _ _ _ _ _ T6 E5) as (a6 & E6 & G6 & J1 & J2 & J3 & J4 & J5 & J6 & J7). clear T6.
    rewrite or_str_some in T7. destruct (step_password _ _ _ _ _ _ T7 E6) as (a7 & E7 & G7 & K1 & K2 & K3 & K4 & K5 & K6 & K7). clear T7.
    rewrite differ_int in A1. rewrite differ_str in B2. rewrite differ_str in F3. rewrite differ_str in I4. rewrite differ_str in J5. cbn [vopt] in K6. rewrite differ_str in K6.
    (* what became of each value *)
    assert (Vu : Z.of_N (pw_uid a7) = pick_int uid (Z.of_N (pw_uid a))).
    { assert (Z.of_N (pw_uid a1) = pick_int uid (Z.of_N (pw_uid a))); [|congruence]. destruct (bool_decide_reflect (Z.of_N (pw_uid a) <> pick_int uid (Z.of_N (pw_uid a)))) as [n|n].
      - apply str_of_Z_number in A1. congruence.
      - rewrite A1. apply dec_stable. exact n. }
    assert (Vg : (pick_text group (gr_name e), pw_gid a7) ∈ gids s /\ (pick_text group (gr_name e) = gr_name e -> pw_gid a7 = pw_gid a)).
    { assert (pw_gid a7 = pw_gid a2) as -> by congruence. destruct (bool_decide_reflect (gr_name e <> pick_text group (gr_name e))) as [n|n].
      - assert (Hq : asks_text group (pick_text group (gr_name e))).
        { destruct group as [[|c r]|]; [destruct n; reflexivity| |destruct n; reflexivity]. split; [reflexivity|discriminate]. }
        split; [|congruence]. rewrite <- G1. apply B2. apply P2. exact Hq.
      - apply dec_stable in n. rewrite <- n. split; [|congruence]. rewrite B2, A2. exact Hn. }
    assert (Vc : pw_gecos a7 = pick_text comment (pw_gecos a)).
    { destruct (bool_decide_reflect (pw_gecos a <> pick_text comment (pw_gecos a))) as [n|n]; [congruence|]. apply dec_stable in n. congruence. }
    assert (Vh : pw_dir a7 = pick_text home (pw_dir a)).
    { destruct (bool_decide_reflect (pw_dir a <> pick_text home (pw_dir a))) as [n|n]; [congruence|]. apply dec_stable in n. congruence. }
    assert (Vs : pw_shell a7 = pick_text shell (pw_shell a)).
    { destruct (bool_decide_reflect (pw_shell a <> pick_text shell (pw_shell a))) as [n|n]; [congruence|]. apply dec_stable in n. congruence. }
    assert (Vp : secret s' u = Some (pick_text hash h)).
    { destruct (bool_decide_reflect (h <> pick_text hash h)) as [n|n]; [congruence|]. apply dec_stable in n. congruence. }
    assert (Vm : forall g, member s' g u <-> g ∈ want_groups (groups_of s u)).
    { intros g. assert (member s' g u <-> member s3 g u) as -> by (rewrite K7, J7, I7, F7; reflexivity).
      assert (S2 : forall g, member s2 g u <-> member s g u) by (intros g'; rewrite B7, A7; reflexivity).
      destruct (want_groups (groups_of s u)) as [|w ws] eqn:Ew.
      - rewrite D7, S2, <- groups_of_spec. pose proof (want_groups_elem (groups_of s u) g) as Hw. rewrite Ew in Hw.
        destruct (asks_list_cases groups) as [(r & H1 & _)|[H1 _]].
        + exfalso. assert (exists y, y ∈ r) as [y Hy] by (destruct H1 as [_ H1]; destruct r as [|y r]; [congruence|exists y; constructor]).
          pose proof (want_groups_elem (groups_of s u) y) as Hy2. rewrite Ew, elem_of_nil in Hy2. apply Hy2. left. eauto.
        + rewrite Hw. split; [auto|]. intros [(r & H2 & _)|[_ H2]]; [destruct (H1 r H2)|exact H2].
      - rewrite differ_strs in D7. destruct (bool_decide_reflect (py_sorted (groups_of s u) <> w :: ws)) as [n|n].
        + apply D7; [discriminate| |reflexivity]. rewrite <- Ew. apply Forall_forall. intros y Hy. apply want_groups_elem in Hy as [(r & H1 & H2)|[_ H2]].
          * pose proof (P3 r H1) as Hr. rewrite Forall_forall in Hr. auto.
          * apply groups_of_spec in H2. apply P4. exact H2.
        + apply dec_stable in n. rewrite D7, S2, <- n, py_sorted_elem, groups_of_spec. reflexivity. }
    assert (Gall : gids s' = gids s) by congruence.
    split; [exact Ho|]. split; [rewrite Gall; auto|]. exists a7. split.
    { split; [exact E7|]. split; [eauto|]. exists (pick_text group (gr_name e)). rewrite Gall. apply Vg. }
    rewrite C1. cbn [fmap option_fmap option_map default from_option]. unfold id.
    split_and!.
    - intros z Hz. rewrite Vu. apply pick_int_spec. exact Hz.
    - intros Hz a0 [= <-]. apply N2Z.inj. rewrite Vu. apply pick_int_spec. exact Hz.
    - split.
      + intros v Hv. rewrite <- (proj1 (pick_text_spec group (gr_name e)) v Hv). rewrite Gall. apply Vg.
      + intros Hv. apply Vg. apply pick_text_spec. exact Hv.
    - split; intros; rewrite Vc; [symmetry|symmetry]; apply pick_text_spec; assumption.
    - split; intros; rewrite Vh; [symmetry|symmetry]; apply pick_text_spec; assumption.
    - split; intros; rewrite Vs; [symmetry|symmetry]; apply pick_text_spec; assumption.
    - split; intros; rewrite Vp; [|rewrite Hh]; f_equal; apply pick_text_spec; assumption.
    - intros g. rewrite Vm, want_groups_elem, groups_of_spec. reflexivity.
  Qed.

  (** ** A new account *)
  Definition add_opts (system : bool) (gs : list pystr) : list (pystr * pystr) :=
    (if system then [(lit "--system", [])] else []) ++
    (match or_int uid None with Some z => [(lit "--uid", str_of_Z z)] | None => [] end) ++
    (match or_str group None with None => [(lit "--user-group", [])] | Some g => [(lit "--no-user-group", []); (lit "--gid", g)] end) ++
    (match gs with [] => [] | _ => [(lit "--groups", join_str (lit ",") gs)] end) ++
    (match or_str comment None with Some t => [(lit "--comment", t)] | None => [] end) ++
    [(lit "--no-create-home", []); (lit "--home-dir", pick_text home (lit "/dev/null")); (lit "--shell", pick_text shell (lit "/sbin/nologin"))] ++
    (match or_str hash None with Some h => [(lit "--password", h)] | None => [] end).
  Lemma add_args system gs : exists args, getopt args = (add_opts system gs, [u]) /\
    useradd_cmd u system (or_int uid None) (or_str group None) gs (or_str comment None) (pick_text home (lit "/dev/null")) (pick_text shell (lit "/sbin/nologin")) (or_str hash None) = lit "useradd" :: args.
  Proof.
    clear. eexists. split; [|reflexivity]. unfold add_opts.
    assert (Hh : match or_str hash None with Some ((_ :: _) as h) => [lit "--password"; h] | _ => [] end = match or_str hash None with Some h => [lit "--password"; h] | None => [] end) by (destruct hash as [[|c r]|]; reflexivity).
    rewrite Hh. generalize (pick_text home (lit "/dev/null")) (pick_text shell (lit "/sbin/nologin")). intros ho sl.
    assert (K : forall b r, getopt ((if b : bool then [lit "--system"] else []) ++ r) = (fun y => ((if b then [(lit "--system", [])] else []) ++ y.1, y.2)) (getopt r)).
    { intros [|] r; cbn [app]; [reflexivity|]. destruct (getopt r); reflexivity. }
    rewrite K. clear K. destruct (or_int uid None) as [z|], (or_str group None) as [g|], gs as [|g0 gs], (or_str comment None) as [t|], (or_str hash None) as [h|]; reflexivity.
  Qed.
  Lemma add_uid system gs : dget (lit "--uid") (add_opts system gs) = str_of_Z <$> or_int uid None.
  Proof. clear. unfold add_opts. destruct system, (or_int uid None), (or_str group None), gs, (or_str comment None), (or_str hash None); reflexivity. Qed.
  Lemma add_gid system gs : dget (lit "--gid") (add_opts system gs) = or_str group None.
  Proof. clear. unfold add_opts. destruct system, (or_int uid None), (or_str group None), gs, (or_str comment None), (or_str hash None); reflexivity. Qed.
  Lemma add_groups system gs : dget (lit "--groups") (add_opts system gs) = match gs with [] => None | _ => Some (join_str (lit ",") gs) end.
  Proof. clear. unfold add_opts. destruct system, (or_int uid None), (or_str group None), gs, (or_str comment None), (or_str hash None); reflexivity. Qed.
  Lemma add_comment system gs : dget (lit "--comment") (add_opts system gs) = or_str comment None.
  Proof. clear. unfold add_opts. destruct system, (or_int uid None), (or_str group None), gs, (or_str comment None), (or_str hash None); reflexivity. Qed.
  Lemma add_home system gs : dget (lit "--home-dir") (add_opts system gs) = Some (pick_text home (lit "/dev/null")).
  Proof. clear. unfold add_opts. destruct system, (or_int uid None), (or_str group None), gs, (or_str comment None), (or_str hash None); reflexivity. Qed.
  Lemma add_shell system gs : dget (lit "--shell") (add_opts system gs) = Some (pick_text shell (lit "/sbin/nologin")).
  Proof. clear. unfold add_opts. destruct system, (or_int uid None), (or_str group None), gs, (or_str comment None), (or_str hash None); reflexivity. Qed.
  Lemma add_hash system gs : dget (lit "--password") (add_opts system gs) = or_str hash None.
  Proof. clear. unfold add_opts. destruct system, (or_int uid None), (or_str group None), gs, (or_str comment None), (or_str hash None); reflexivity. Qed.

  Lemma useradd_does system gs : does exec (sh (useradd_cmd u system (or_int uid None) (or_str group None) gs (or_str comment None) (pick_text home (lit "/dev/null")) (pick_text shell (lit "/sbin/nologin")) (or_str hash None)))
    (acts u (user_added (add_opts system gs) u)).
  Proof.
    destruct (add_args system gs) as (args & H1 & H2). rewrite H2. apply (acts_sh (lit "useradd") others user_added); [apply Hsu|exact H1| | |].
    - intros s s1 s2. apply others_unaffected.
    - intros s s2. apply others_after.
    - intros s s1 s2 H. rewrite H. intros D. exact D.
  Qed.
  Lemma or_str_asks o : match or_str o None with Some v => asks_text o v | None => forall v, ~ asks_text o v end.
  Proof. destruct o as [[|c r]|]; cbn; [intros v [[= <-] H]; auto|split; [reflexivity|discriminate]|intros v [[=] _]]. Qed.
  Lemma or_int_asks o : match or_int o None with Some v => asks_int o v | None => forall v, ~ asks_int o v end.
  Proof. destruct o as [z|]; cbn; [|intros v [[=] _]]. destruct (Z.eqb_spec z 0) as [-> |H]; [intros v [[= <-] H]; auto|split; auto]. Qed.
  Lemma granted_none {A} o v (d : A -> Prop) (P : pystr -> A -> Prop) x : asks_text o v -> P v x -> granted o d P x.
  Proof. intros H1 H2. split; [|intros H; destruct (H v H1)]. intros w [H3 _]. destruct H1 as [H1 _]. assert (w = v) as -> by congruence. exact H2. Qed.
  Lemma granted_not {A} o (d : A -> Prop) (P : pystr -> A -> Prop) x : (forall v, ~ asks_text o v) -> d x -> granted o d P x.
  Proof. intros H1 H2. split; [intros v H; destruct (H1 v H)|auto]. Qed.
  Lemma granted_decides {A} o (d : Prop) (P : pystr -> Prop) (d' : A -> Prop) (P' : pystr -> A -> Prop) x : match or_str o None with Some v => P v | None => d end ->
    (d -> d' x) -> (forall v, asks_text o v -> P v -> P' v x) -> granted o d' P' x.
  Proof.
    intros H H1 H2. pose proof (or_str_asks o) as Ho. destruct (or_str o None) as [v|]; [eapply granted_none; eauto|apply granted_not; auto].
  Qed.
  Lemma granted_pick o dflt v : v = pick_text o dflt -> granted o (eq dflt) eq v.
  Proof. intros ->. destruct (pick_text_spec o dflt) as [H1 H2]. split; intros; symmetry; auto. Qed.
  Lemma added_granted system s s' : plain_request s u group groups -> others u s s' -> user_added (add_opts system (want_groups [])) u s s' ->
    user_granted u uid group groups append hash home shell comment s s'.
  Proof.
    intros (_ & P2 & P3 & P4 & _) Ho (N & (a & Ea & D1 & D2 & D3 & D4 & D5) & (h & Eh & D6) & D7).
    unfold decides in *. rewrite add_uid in D1. rewrite add_gid in D2. rewrite add_comment in D3. rewrite add_home in D4. rewrite add_shell in D5. rewrite add_hash in D6. rewrite add_groups in D7.
    assert (Hg : granted group (fun n => (u, n) ∈ gids s') (fun g n => (g, n) ∈ gids s') (pw_gid a)).
    { eapply granted_decides; [exact D2| |].
      - intros ->. constructor.
      - cbn. intros g Hq [H1 ->]. apply H1. apply P2. exact Hq. }
    split; [exact Ho|]. split.
    { intros x Hx. destruct (or_str group None) as [g|]; [destruct D2 as [_ ->]; exact Hx|rewrite D2; constructor; exact Hx]. }
    exists a. split.
    { split; [exact Ea|]. split; [eauto|]. destruct Hg as [G1 G2]. pose proof (or_str_asks group) as Hq. destruct (or_str group None) as [g|]; [exists g|exists u]; auto. }
    rewrite N. cbn [fmap option_fmap option_map default from_option].
    split_and!; try exact Hg.
    - intros z Hz. pose proof (or_int_asks uid) as Hq. destruct (or_int uid None) as [z'|]; [|destruct (Hq z Hz)]. cbn in D1. apply str_of_Z_number in D1. destruct Hz as [Hz _], Hq as [Hq _]. congruence.
    - intros _ a0 [=].
    - eapply granted_decides; [exact D3|auto|auto].
    - apply granted_pick. auto.
    - apply granted_pick. auto.
    - rewrite Eh. eapply granted_decides; [exact D6|intros <-; reflexivity|intros v _ ->; reflexivity].
    - intros g. assert (Hn : ~ member s g u) by (intros H; destruct (P4 g H) as [_ H2]; contradiction).
      pose proof (want_groups_elem [] g) as Hw. rewrite elem_of_nil in Hw.
      destruct (want_groups []) as [|w ws] eqn:Ew.
      + rewrite D7. rewrite elem_of_nil in Hw. tauto.
      + rewrite (D7 (w :: ws)); [tauto|discriminate| |reflexivity]. rewrite <- Ew. apply Forall_forall. intros y Hy.
        apply want_groups_elem in Hy as [(r & H1 & H2)|[_ H2]]; [|inversion H2]. pose proof (P3 r H1) as Hr. rewrite Forall_forall in Hr. auto.
  Qed.
  End edit.

  (** ** The whole operation *)
  Definition user_spec (dry : bool) (u : pystr) (T : os -> os -> Prop) (s : os) (l : list (list pystr)) (s' : os) (r : result opres) : Prop :=
    others u s s' /\ (dry = true -> l = []) /\ forall x, r = Ok x -> or_success x = true /\ (or_changed x = false -> l = []) /\ (dry = false -> T s s').
  Lemma conclude_does (dry : bool) u T (i f : state) (m : W unit) : does exec m (acts u T) -> (py_eq (VDict i) (VDict f) = true -> forall s, T s s) ->
    does exec (conclude i f (if dry then mret tt else m)) (user_spec dry u T).
  Proof.
    clear Hb Hsu. intros Hm He. unfold conclude. destruct (py_eq (VDict i) (VDict f)) eqn:E.
    - eapply does_mono; [apply does_ret|]. intros s l s' r (-> & -> & ->). split; [apply others_refl|]. split; [reflexivity|]. intros x [= <-]. cbn. auto.
    - destruct dry.
      + eapply does_mono; [apply does_ret|]. intros s l s' r (-> & -> & ->). split; [apply others_refl|]. split; [reflexivity|]. intros x [= <-]. cbn. auto.
      + refine (does_bind exec _ _ _ (fun _ => _) _ Hm (fun _ => does_ret exec _) _ _).
        * intros s l s' e [H _]. split; [exact H|]. split; [discriminate|]. intros x [=].
        * intros s l1 s1 [] l2 s2 r [A1 A2] (-> & -> & ->). split; [exact A1|]. split; [discriminate|]. intros x [= <-]. cbn. split; [reflexivity|]. split; [discriminate|]. auto.
  Qed.

  Section operation.
  Variable (u : pystr) (uid : option Z) (group : option pystr) (groups : option (list pystr)) (append system : bool) (hash home shell comment : option pystr).
  Lemma now_is_want x : py_eq (VDict (now_user x)) (VDict (want_user uid group groups append hash home shell comment x)) = true -> ue_hash x <> None ->
    forall s, set_to u uid group groups append hash home shell comment x s s.
  Proof.
    clear Hb Hsu. intros H Hx s.
    change (true && (py_eq (VInt (ue_uid x)) (VInt (pick_int uid (ue_uid x))) && (py_eq (VStr (ue_group x)) (VStr (pick_text group (ue_group x))) && (py_eq (vstrs (py_sorted (ue_groups x))) (vstrs (want_groups groups append (ue_groups x))) &&
      (py_eq (VStr (ue_gecos x)) (VStr (pick_text comment (ue_gecos x))) && (py_eq (VStr (ue_home x)) (VStr (pick_text home (ue_home x))) && (py_eq (VStr (ue_shell x)) (VStr (pick_text shell (ue_shell x))) && (py_eq (vopt (ue_hash x)) (vopt (or_str hash (ue_hash x))) && true))))))) = true) in H.
    rewrite !andb_true_iff in H. destruct H as (_ & H1 & H2 & H3 & H4 & H5 & H6 & H7 & _).
    unfold set_to, differ. cbv zeta. rewrite H1, H2, H4, H5, H6. cbn [negb].
    do 6 (exists s; split; [first [reflexivity|destruct (want_groups groups append (ue_groups x)); [reflexivity|rewrite H3; reflexivity]]|]).
    destruct (or_str hash (ue_hash x)) as [h|]; [|reflexivity]. cbn [vopt] in H7. rewrite H7. reflexivity.
  Qed.
  Lemma present_does dry c r c' : c_string u -> plain_request (sysof c) u group groups ->
    user_body exec sha512 dry u true uid group groups append system hash home shell comment c = (r, c') ->
    c' = set_remote (c_remote c') c /\ exists l, history exec (sysof c) l (sysof c') /\
      user_spec dry u (user_granted u uid group groups append hash home shell comment) (sysof c) l (sysof c') r.
  Proof.
    intros Hu Hp E. unfold user_body in E. apply bind_spec in E as [(cur & c1 & E1 & E)|(e & E & ->)].
    2:{ apply query_user_any in E as (H1 & H2 & _); [|exact Hu|exact (proj1 Hp)]. rewrite H2. split; [exact H1|]. exists []. split; [constructor; apply unaffected_refl|].
        split; [apply others_refl|]. split; [reflexivity|]. intros x [=]. }
    apply query_user_any in E1 as (H1 & H2 & H3); [|exact Hu|exact (proj1 Hp)]. destruct cur as [x|].
    - destruct H3 as (a & e & h & C1 & C2 & C3 & ->).
      assert (Hx : ue_hash (entry_of (sysof c) u a (gr_name e) h) <> None) by discriminate.
      destruct (conclude_does dry u _ _ _ _ (edit_does u uid group groups append hash home shell comment (entry_of (sysof c) u a (gr_name e) h)) (fun He => now_is_want _ He Hx) _ _ _ E) as (K1 & l & K2 & K3 & K4 & K5).
      rewrite H2 in K2, K3, K5. split; [rewrite K1, H1; reflexivity|]. exists l. split; [exact K2|]. split; [exact K3|]. split; [exact K4|]. intros x Hy. destruct (K5 x Hy) as (L1 & L2 & L3).
      split; [exact L1|]. split; [exact L2|]. intros Hd. eapply set_to_granted; eauto.
    - assert (N : entry (sysof c) u = None).
      { destruct (entry (sysof c) u) as [a|] eqn:Ea; [|reflexivity]. destruct (H3 a eq_refl). apply Hp. exact Ea. }
      destruct (conclude_does dry u _ nobody (new_user uid group groups append hash home shell comment) _ (useradd_does u uid group hash home shell comment system (want_groups groups append [])) (fun H : false = true => match diff_false_true H with end) _ _ _ E) as (K1 & l & K2 & K3 & K4 & K5).
      rewrite H2 in K2, K3, K5. split; [rewrite K1, H1; reflexivity|]. exists l. split; [exact K2|]. split; [exact K3|]. split; [exact K4|]. intros x Hy. destruct (K5 x Hy) as (L1 & L2 & L3).
      split; [exact L1|]. split; [exact L2|]. intros Hd. eapply added_granted; eauto.
  Qed.
  Lemma absent_does dry c r c' : c_string u -> py_int 10 u = None -> (forall a, entry (sysof c) u = Some a -> complete (sysof c) u a) ->
    user_body exec sha512 dry u false uid group groups append system hash home shell comment c = (r, c') ->
    c' = set_remote (c_remote c') c /\ exists l, history exec (sysof c) l (sysof c') /\
      user_spec dry u (fun s s' => entry s' u = None /\ (entry s u <> None -> user_deleted u s s')) (sysof c) l (sysof c') r /\
      (entry (sysof c) u = None -> sysof c' = sysof c /\ l = [] /\ forall x, r = Ok x -> or_changed x = false).
  Proof.
    intros Hu Hp Hc E. unfold user_body in E. apply bind_spec in E as [(cur & c1 & E1 & E)|(e & E & ->)].
    2:{ apply query_user_any in E as (H1 & H2 & _); [|exact Hu|apply Hp]. rewrite H2. split; [exact H1|]. exists []. split; [constructor; apply unaffected_refl|].
        split; [split; [apply others_refl|]; split; [reflexivity|]; intros x [=]|]. intros _. split; [reflexivity|]. split; [reflexivity|]. intros x [=]. }
    apply query_user_any in E1 as (H1 & H2 & H3); [|exact Hu|apply Hp]. destruct cur as [x|].
    - destruct H3 as (a & e & h & C1 & C2 & C3 & ->). rewrite <- H2 in C1.
      destruct (conclude_does dry u _ (now_user (entry_of (sysof c) u a (gr_name e) h)) nobody _ (userdel_does u) (fun H : false = true => match diff_false_true H with end) _ _ _ E) as (K1 & l & K2 & K3 & K4 & K5).
      rewrite H2 in K2, K3, K5, C1. split; [rewrite K1, H1; reflexivity|]. exists l. split; [exact K2|]. split; [|intros Hn; destruct C1 as [C1 _]; congruence].
      split; [exact K3|]. split; [exact K4|]. intros x Hy. destruct (K5 x Hy) as (L1 & L2 & L3).
      split; [exact L1|]. split; [exact L2|]. intros Hd. specialize (L3 Hd). split; [apply L3|auto].
    - assert (N : entry (sysof c) u = None).
      { destruct (entry (sysof c) u) as [a|] eqn:Ea; [|reflexivity]. destruct (H3 a eq_refl). apply Hc. reflexivity. }
      injection E as <- <-. rewrite H2. split; [exact H1|]. exists []. split; [constructor; apply unaffected_refl|].
      split; [split; [apply others_refl|]; split; [reflexivity|]; intros x [= <-]; split; [reflexivity|]; split; [reflexivity|]; intros _; split; [exact N|contradiction]|].
      intros _. split; [reflexivity|]. split; [reflexivity|]. intros x [= <-]. reflexivity.
  Qed.
  End operation.

  (** ** Running it again *)
  Section again.
  Variable (u : pystr) (uid : option Z) (group : option pystr) (groups : option (list pystr)) (append system : bool) (hash home shell comment : option pystr).
  Lemma pick_text_kept o (d : pystr) : (forall v, asks_text o v -> v = d) -> pick_text o d = d.
  Proof. intros H. pose proof (or_str_asks o) as Ho. destruct (pick_text_spec o d) as [H1 H2]. destruct (or_str o None) as [v|]; [rewrite (H1 v Ho); auto|auto]. Qed.
  Lemma pick_int_kept o d : (forall v, asks_int o v -> d = v) -> pick_int o d = d.
  Proof. intros H. pose proof (or_int_asks o) as Ho. destruct (pick_int_spec o d) as [H1 H2]. destruct (or_int o None) as [v|]; [rewrite (H1 v Ho); symmetry; auto|auto]. Qed.
  Lemma now_refl x : ue_hash x <> None -> py_eq (VDict (now_user x)) (VDict (now_user x)) = true.
  Proof.
    clear. intros H. change (true && (py_eq (VInt (ue_uid x)) (VInt (ue_uid x)) && (py_eq (VStr (ue_group x)) (VStr (ue_group x)) && (py_eq (vstrs (py_sorted (ue_groups x))) (vstrs (py_sorted (ue_groups x))) &&
      (py_eq (VStr (ue_gecos x)) (VStr (ue_gecos x)) && (py_eq (VStr (ue_home x)) (VStr (ue_home x)) && (py_eq (VStr (ue_shell x)) (VStr (ue_shell x)) && (py_eq (vopt (ue_hash x)) (vopt (ue_hash x)) && true))))))) = true).
    destruct (ue_hash x) as [h|]; [|contradiction]. cbn [vopt]. rewrite py_eq_int, !py_eq_str, py_eq_vstrs. rewrite !bool_decide_eq_true_2 by reflexivity. reflexivity.
  Qed.
  Lemma again_does dry s0 c r c' : c_string u -> py_int 10 u = None -> (forall l, asks_list groups l -> NoDup l) -> NoDup (gids (sysof c)).*1 ->
    (forall g g' n, asks_text group g -> (g, n) ∈ gids (sysof c) -> (g', n) ∈ gids (sysof c) -> g' = g) ->
    user_granted u uid group groups append hash home shell comment s0 (sysof c) ->
    user_body exec sha512 dry u true uid group groups append system hash home shell comment c = (r, c') ->
    c' = set_remote (c_remote c') c /\ sysof c' = sysof c /\ forall x, r = Ok x -> or_success x = true /\ or_changed x = false.
  Proof.
    clear Hb Hsu. intros Hu Hnum Hnd Hgids Hone (_ & _ & b & Cb & [Q1 _] & Q2 & Q3 & Q4 & Q5 & Q6 & Q7) E. unfold user_body in E. apply bind_spec in E as [(cur & c1 & E1 & E)|(e & E & ->)].
    2:{ apply query_user_any in E as (H1 & H2 & _); [|exact Hu|exact Hnum]. split; [exact H1|]. split; [exact H2|]. intros x [=]. }
    apply query_user_any in E1 as (H1 & H2 & H3); [|exact Hu|exact Hnum]. destruct cur as [x|].
    2:{ destruct (H3 b); [apply Cb|exact Cb]. }
    destruct H3 as (a & e & h & C1 & C2 & C3 & ->). assert (a = b) as -> by (destruct C1 as [C1 _], Cb as [Cb _]; congruence).
    assert (Hname : pw_name b = u) by (destruct C1 as [C1 _]; apply entry_some in C1; tauto).
    assert (Hin : (gr_name e, pw_gid b) ∈ gids (sysof c)).
    { destruct C1 as (_ & _ & C1). apply getgrgid_found in C1 as (e' & He' & Hn). assert (e' = e) as -> by congruence. exact Hn. }
    assert (Heq : want_user uid group groups append hash home shell comment (entry_of (sysof c) u b (gr_name e) h) = now_user (entry_of (sysof c) u b (gr_name e) h)).
    { unfold want_user, now_user. cbn [ue_uid ue_group ue_groups ue_gecos ue_home ue_shell ue_hash entry_of]. rewrite Hname, or_str_some. f_equal.
      - f_equal. apply pick_int_kept. auto.
      - f_equal. apply pick_text_kept. intros v Hv. symmetry. eapply Hone; [exact Hv|apply Q2; exact Hv|exact Hin].
      - unfold want_groups. apply py_sorted_eq. assert (Hgo : NoDup (groups_of (sysof c) u)) by (apply groups_of_nodup; exact Hgids).
        destruct (asks_list_cases groups) as [(l & A1 & A2 & A3)|[A1 A2]].
        + destruct append.
          * apply NoDup_Permutation; [apply dedup_spec|exact Hgo|]. intros g. rewrite (proj1 (dedup_spec _)), elem_of_app, A2, !groups_of_spec. split; [|auto]. intros [Hg|Hg]; [|exact Hg]. apply Q7. left. eauto.
          * rewrite A3. apply NoDup_Permutation; [apply Hnd; exact A1|exact Hgo|]. intros g. rewrite groups_of_spec, Q7. split; [eauto|].
            intros [(l' & B1 & B2)|[[B|[=]] _]]; [rewrite (asks_list_unique _ _ _ A1 B1); exact B2|destruct (B l A1)].
        + destruct append; [|rewrite A2; reflexivity]. rewrite A2. cbn [app]. apply NoDup_Permutation; [apply dedup_spec|exact Hgo|]. apply dedup_spec.
      - f_equal. apply pick_text_kept. apply Q3.
      - f_equal. apply pick_text_kept. apply Q4.
      - f_equal. apply pick_text_kept. apply Q5.
      - f_equal. apply pick_text_kept. intros v Hv. apply Q6 in Hv. congruence. }
    unfold conclude in E. rewrite Heq in E. rewrite now_refl in E by discriminate. injection E as <- <-.
    split; [exact H1|]. split; [exact H2|]. intros x [= <-]. auto.
  Qed.
  End again.

  (** ** Groups *)
  Lemma other_groups_refl g s : other_groups g s s. Proof. intros g' _. split; [reflexivity|]. intros v. reflexivity. Qed.
  Definition group_spec (dry : bool) (g : pystr) (T : os -> os -> Prop) (s : os) (l : list (list pystr)) (s' : os) (r : result opres) : Prop :=
    other_groups g s s' /\ (dry = true -> l = []) /\ forall x, r = Ok x -> or_success x = true /\ (or_changed x = false -> l = []) /\ (dry = false -> T s s').
  Lemma conclude_group (dry : bool) g (T : os -> os -> Prop) (i f : state) (m : W unit) : does exec m (fun s l s' r => other_groups g s s' /\ (r = Ok tt -> T s s')) ->
    (py_eq (VDict i) (VDict f) = true -> forall s, T s s) -> does exec (conclude i f (if dry then mret tt else m)) (group_spec dry g T).
  Proof.
    clear Hb Hsu. intros Hm He. unfold conclude. destruct (py_eq (VDict i) (VDict f)) eqn:E.
    - eapply does_mono; [apply does_ret|]. intros s l s' r (-> & -> & ->). split; [apply other_groups_refl|]. split; [reflexivity|]. intros x [= <-]. cbn. auto.
    - destruct dry.
      + eapply does_mono; [apply does_ret|]. intros s l s' r (-> & -> & ->). split; [apply other_groups_refl|]. split; [reflexivity|]. intros x [= <-]. cbn. auto.
      + refine (does_bind exec _ _ _ (fun _ => _) _ Hm (fun _ => does_ret exec _) _ _).
        * intros s l s' e [H _]. split; [exact H|]. split; [discriminate|]. intros x [=].
        * intros s l1 s1 [] l2 s2 r [A1 A2] (-> & -> & ->). split; [exact A1|]. split; [discriminate|]. intros x [= <-]. cbn. split; [reflexivity|]. split; [discriminate|]. auto.
  Qed.
  Lemma group_sh cmd done args opts g : promised exec cmd other_groups done -> getopt args = (opts, [g]) -> (forall s s1 s2, unaffected s s1 -> done opts g s1 s2 -> done opts g s s2) ->
    does exec (sh (cmd :: args)) (fun s l s' r => other_groups g s s' /\ (r = Ok tt -> done opts g s s')).
  Proof.
    clear Hsu. intros H1 H2 H3. apply (acts_sh cmd other_groups done args opts g H1 H2).
    - intros s s1 s2 H. rewrite H. intros D. exact D.
    - intros s s2 H. rewrite H. exact (other_groups_refl g s).
    - exact H3.
  Qed.
  Section group.
  Variable (g : pystr) (gid : option Z) (system : bool).
  Lemma groupadd_does : does exec (sh (groupadd_cmd g system (or_int gid None))) (fun s l s' r => other_groups g s s' /\ (r = Ok tt -> group_granted g gid s s')).
  Proof.
    set (opts := (if system then [(lit "--system", [])] else []) ++ (match or_int gid None with Some z => [(lit "--gid", str_of_Z z)] | None => [] end) : list (pystr * pystr)).
    eapply does_mono.
    - apply (group_sh (lit "groupadd") group_added ((if system then [lit "--system"] else []) ++ (match or_int gid None with Some z => [lit "--gid"; str_of_Z z] | None => [] end) ++ [lit "--"; g]) opts g).
      + apply Hsu.
      + unfold opts. destruct system, (or_int gid None); reflexivity.
      + intros s s1 s2 H. rewrite H. intros D. exact D.
    - cbn. intros s l s' r [H1 H2]. split; [exact H1|]. intros Hr. destruct (H2 Hr) as (N & n & N1 & N2). exists n. split; [exact N1|].
      assert (Hd : dget (lit "--gid") opts = str_of_Z <$> or_int gid None) by (unfold opts; destruct system, (or_int gid None); reflexivity).
      unfold decides in N2. rewrite Hd in N2. pose proof (or_int_asks gid) as Hq. split.
      + intros z Hz. destruct (or_int gid None) as [z'|]; [|destruct (Hq z Hz)]. cbn in N2. apply str_of_Z_number in N2. destruct Hz as [Hz _], Hq as [Hq _]. congruence.
      + split; congruence.
  Qed.
  Lemma groupmod_does z : z <> 0%Z -> gid = Some z -> does exec (sh [lit "groupmod"; lit "--gid"; str_of_Z z; lit "--"; g]) (fun s l s' r => other_groups g s s' /\ (r = Ok tt -> group_granted g gid s s')).
  Proof.
    intros Hz Hg. eapply does_mono.
    - apply (group_sh (lit "groupmod") group_modified [lit "--gid"; str_of_Z z; lit "--"; g] [(lit "--gid", str_of_Z z)] g).
      + apply Hsu.
      + reflexivity.
      + intros s s1 s2 H. rewrite H. intros D. exact D.
    - cbn. intros s l s' r [H1 H2]. split; [exact H1|]. intros Hr. destruct (H2 Hr) as (M & m & n & N1 & N2 & N3). exists n. split; [exact N2|].
      change (number (str_of_Z z) n) in N3. apply str_of_Z_number in N3. split; [intros z' [Hz' _]; congruence|]. split; [|auto].
      intros Hno. destruct (Hno z). split; assumption.
  Qed.
  Lemma groupdel_does : does exec (sh [lit "groupdel"; lit "--"; g]) (fun s l s' r => other_groups g s s' /\ (r = Ok tt -> group_deleted g s s')).
  Proof.
    apply (group_sh (lit "groupdel") (fun _ => group_deleted) [lit "--"; g] [] g).
    - apply Hsu.
    - reflexivity.
    - intros s s1 s2 H. rewrite H. intros D. exact D.
  Qed.
  Lemma group_does dry present c r c' : c_string g -> py_int 10 g = None ->
    group_body exec sha512 dry g present gid system c = (r, c') ->
    c' = set_remote (c_remote c') c /\ exists l, history exec (sysof c) l (sysof c') /\
      group_spec dry g (if present : bool then group_granted g gid else group_deleted g) (sysof c) l (sysof c') r /\
      ((if present then exists n, gid_of (sysof c) g = Some n /\ forall z, asks_int gid z -> Z.of_N n = z else gid_of (sysof c) g = None) ->
         sysof c' = sysof c /\ l = [] /\ forall x, r = Ok x -> or_changed x = false).
  Proof.
    intros Hg Hnum E. unfold group_body in E. apply bind_spec in E as [(cur & c1 & E1 & E)|(e & E & ->)].
    2:{ apply query_group_any in E as (H1 & H2 & _); [|exact Hg|exact Hnum]. rewrite H2. split; [exact H1|]. exists []. split; [constructor; apply unaffected_refl|].
        split; [split; [apply other_groups_refl|]; split; [reflexivity|]; intros x [=]|]. intros _. split; [reflexivity|]. split; [reflexivity|]. intros x [=]. }
    apply query_group_any in E1 as (H1 & H2 & H3); [|exact Hg|exact Hnum].
    assert (Hfin : forall (m : W unit) i f (T : os -> os -> Prop), does exec m (fun s l s' r => other_groups g s s' /\ (r = Ok tt -> T s s')) ->
      (py_eq (VDict i) (VDict f) = true -> T (sysof c) (sysof c)) -> conclude i f (if dry then mret tt else m) c1 = (r, c') ->
      c' = set_remote (c_remote c') c /\ exists l, history exec (sysof c) l (sysof c') /\ group_spec dry g T (sysof c) l (sysof c') r).
    { intros m i f T Hm He Ec. destruct (py_eq (VDict i) (VDict f)) eqn:Eq.
      - unfold conclude in Ec. rewrite Eq in Ec. injection Ec as <- <-. rewrite H2. split; [exact H1|]. exists []. split; [constructor; apply unaffected_refl|].
        split; [apply other_groups_refl|]. split; [reflexivity|]. intros x [= <-]. cbn. auto.
      - destruct (conclude_group dry g T i f m Hm ltac:(rewrite Eq; discriminate) _ _ _ Ec) as (K1 & l & K2 & K3). rewrite H2 in K2, K3. split; [rewrite K1, H1; reflexivity|]. eauto. }
    destruct cur as [x|].
    - destruct H3 as (e & He & ->). cbn [ge_gid] in E. assert (Hn : gid_of (sysof c) g = Some (gr_gid e)) by (rewrite gid_of_entry, He; reflexivity). destruct present.
      + set (z := pick_int gid (Z.of_N (gr_gid e))) in *.
        assert (Hgr : Z.of_N (gr_gid e) = z -> group_granted g gid (sysof c) (sysof c)).
        { intros Hz. exists (gr_gid e). split; [exact Hn|]. split; [intros w Hw; rewrite Hz; apply pick_int_spec; exact Hw|]. split; [auto|]. reflexivity. }
        assert (Heq : forall y, py_eq (VDict (group_state true (Some (Z.of_N (gr_gid e))))) (VDict (group_state true (Some y))) = bool_decide (Z.of_N (gr_gid e) = y)).
        { intros y. change (py_eq (VInt (Z.of_N (gr_gid e))) (VInt y) && true = bool_decide (Z.of_N (gr_gid e) = y)). rewrite andb_true_r. apply py_eq_int. }
        assert (Hm : does exec (wif (differ (VInt (Z.of_N (gr_gid e))) (VInt z)) (sh [lit "groupmod"; lit "--gid"; str_of_Z z; lit "--"; g])) (fun s l s' r => other_groups g s s' /\ (r = Ok tt -> (Z.of_N (gr_gid e) <> z -> group_granted g gid s s')))).
        { rewrite differ_int. destruct (bool_decide_reflect (Z.of_N (gr_gid e) <> z)) as [n|n]; cbn [wif].
          - assert (Hz : asks_int gid z).
            { unfold z. pose proof (or_int_asks gid) as Hq. destruct (or_int gid None) as [w|].
              - rewrite (proj1 (pick_int_spec gid _) w Hq). exact Hq.
              - destruct n. symmetry. apply pick_int_spec. exact Hq. }
            destruct Hz as [Hz1 Hz2]. eapply does_mono; [apply (groupmod_does z); [exact Hz2|exact Hz1]|]. cbn. tauto.
          - eapply does_mono; [apply does_ret|]. intros s l s' r0 (-> & -> & ->). split; [apply other_groups_refl|]. intros _ H. contradiction. }
        assert (Hq : py_eq (VDict (group_state true (Some (Z.of_N (gr_gid e))))) (VDict (group_state true (Some z))) = true -> Z.of_N (gr_gid e) <> z -> group_granted g gid (sysof c) (sysof c)).
        { rewrite Heq, bool_decide_eq_true. contradiction. }
        destruct (Hfin _ _ _ (fun s s' => Z.of_N (gr_gid e) <> z -> group_granted g gid s s') Hm Hq E) as (K1 & l & K2 & K3 & K4 & K5). split; [exact K1|]. exists l. split; [exact K2|].
        assert (Hsame : Z.of_N (gr_gid e) = z -> sysof c' = sysof c /\ l = [] /\ forall x, r = Ok x -> or_changed x = false).
        { intros Hz. unfold conclude in E. rewrite Heq, bool_decide_eq_true_2 in E by exact Hz. injection E as <- <-. split; [exact H2|]. split; [|intros x [= <-]; reflexivity]. destruct (K5 _ eq_refl) as (_ & L & _). apply L. reflexivity. }
        split.
        * split; [exact K3|]. split; [exact K4|]. intros x Hx. destruct (K5 x Hx) as (L1 & L2 & L3). split; [exact L1|]. split; [exact L2|]. intros Hd.
          destruct (decide (Z.of_N (gr_gid e) = z)) as [Hz|Hz]; [|apply L3; assumption]. destruct (Hsame Hz) as [-> _]. apply Hgr. exact Hz.
        * intros (n & Hn1 & Hn2). apply Hsame. assert (n = gr_gid e) as -> by congruence. symmetry. apply pick_int_kept. exact Hn2.
      + destruct (Hfin _ (group_state true (Some (Z.of_N (gr_gid e)))) (group_state false None) _ groupdel_does (fun H : false = true => match diff_false_true H with end) E) as (K1 & l & K2 & K3). split; [exact K1|]. exists l. split; [exact K2|]. split; [exact K3|]. congruence.
    - assert (Hn : gid_of (sysof c) g = None) by (rewrite gid_of_entry, H3; reflexivity). destruct present.
      + destruct (Hfin _ (group_state false None) (group_state true (or_int gid None)) _ groupadd_does (fun H : false = true => match diff_false_true H with end) E) as (K1 & l & K2 & K3). split; [exact K1|]. exists l. split; [exact K2|]. split; [exact K3|]. intros (n & Hn1 & _). congruence.
      + injection E as <- <-. rewrite H2. split; [exact H1|]. exists []. split; [constructor; apply unaffected_refl|].
        split; [split; [apply other_groups_refl|]; split; [reflexivity|]; intros x [= <-]; split; [reflexivity|]; split; [reflexivity|]; intros _; exact Hn|].
        intros _. split; [reflexivity|]. split; [reflexivity|]. intros x [= <-]. reflexivity.
  Qed.
  End group.
End run.
