(** * system.user and system.group *)
From Coq Require Import Lia ZifyBool ZifyN ZifyNat.
From stdpp Require Import gmap.
From Verif Require Import Base Utf8 Dict_proofs Codec Spec_Codec Paths Sys Spec_Sys Sys_proofs Dispatcher Client Spec_Session Spec_Remote Remote_run Digits Control Spec_Control Control_proofs
  Walk_proofs Op Op_proofs Files Files_plain Spec_Files Shell_proofs Steps Dir_proofs System Spec_Commands Commands_proofs Package_proofs Spec_Account Query_proofs.
Local Open Scope nat_scope.

(** ** Values *)
Definition pick_text (o : option pystr) (d : pystr) : pystr := match o with Some (x :: r) => x :: r | _ => d end.
Definition pick_int (o : option Z) (d : Z) : Z := match o with Some z => if (z =? 0)%Z then d else z | None => d end.
Definition pick_list (o : option (list pystr)) (d : list pystr) : list pystr := match o with Some (x :: r) => x :: r | _ => d end.
Lemma or_str_some o d : or_str o (Some d) = Some (pick_text o d). Proof. destruct o as [[|x r]|]; reflexivity. Qed.
Lemma or_int_some o d : or_int o (Some d) = Some (pick_int o d). Proof. destruct o as [z|]; [|reflexivity]. cbn. destruct (z =? 0)%Z; reflexivity. Qed.
Lemma or_str_default o d : default d (or_str o None) = pick_text o d. Proof. destruct o as [[|x r]|]; reflexivity. Qed.
Lemma pick_text_spec o d : (forall v, asks_text o v -> pick_text o d = v) /\ ((forall v, ~ asks_text o v) -> pick_text o d = d).
Proof.
  split.
  - intros v [-> Hv]. destruct v; [contradiction|reflexivity].
  - intros H. destruct o as [[|x r]|]; try reflexivity. destruct (H (x :: r)). split; [reflexivity|discriminate].
Qed.
Lemma pick_int_spec o d : (forall v, asks_int o v -> pick_int o d = v) /\ ((forall v, ~ asks_int o v) -> pick_int o d = d).
Proof.
  split.
  - intros v [-> Hv]. cbn. destruct (Z.eqb_spec v 0); [contradiction|reflexivity].
  - intros H. destruct o as [z|]; [|reflexivity]. cbn. destruct (Z.eqb_spec z 0) as [|Hz]; [reflexivity|]. destruct (H z). split; [reflexivity|exact Hz].
Qed.
Lemma asks_list_cases o : (exists l, asks_list o l /\ or_list o [] = l /\ forall d, or_list o d = l) \/ ((forall l, ~ asks_list o l) /\ forall d, or_list o d = d).
Proof.
  destruct o as [[|x r]|]; [right|left|right]; try (split; [intros l [H1 H2]; congruence|reflexivity]).
  exists (x :: r). split; [split; [reflexivity|discriminate]|split; reflexivity].
Qed.
Lemma asks_list_unique o l l' : asks_list o l -> asks_list o l' -> l = l'. Proof. intros [H1 _] [H2 _]. congruence. Qed.
Lemma py_eq_int a b : py_eq (VInt a) (VInt b) = bool_decide (a = b).
Proof. cbn. destruct (Z.eqb_spec a b); symmetry; [apply bool_decide_eq_true_2|apply bool_decide_eq_false_2]; assumption. Qed.
Lemma py_eq_str a b : py_eq (VStr a) (VStr b) = bool_decide (a = b).
Proof. cbn. apply str_eqb_decide. Qed.
Lemma py_int_minus n : py_int 10 (45%N :: show_N 10 n) = Some (- Z.of_N n)%Z.
Proof.
  destruct (show_spec 10 n ltac:(lia)) as (H1 & H2 & H3 & _). unfold py_int.
  assert (Hs : strip (45%N :: show_N 10 n) = 45%N :: show_N 10 n).
  { unfold strip, rstrip. rewrite lstrip_id by reflexivity.
    cbn [rev]. assert (Hr : Forall (is_digit 10) (rev (show_N 10 n))) by (apply Forall_rev; assumption).
    destruct (rev (show_N 10 n)) as [|d r] eqn:E; [apply (f_equal length) in E; rewrite rev_length in E; destruct (show_N 10 n); [congruence|discriminate]|].
    cbn [app]. inversion Hr; subst. rewrite lstrip_id by (eapply digit_not_space; [|eassumption]; lia).
    change (d :: r ++ [45%N]) with ((d :: r) ++ [45%N]). rewrite <- E, rev_app_distr, rev_involutive. reflexivity. }
  rewrite Hs. cbn [N.eqb]. change (45 =? 45)%N with true. cbn iota.
  assert (Hp : strip_oct_prefix 10 (show_N 10 n) = show_N 10 n) by (unfold strip_oct_prefix; destruct (show_N 10 n) as [|c [|d l]]; reflexivity).
  rewrite Hp, parse_value by auto. rewrite H3. reflexivity.
Qed.
Lemma str_of_Z_number z n : number (str_of_Z z) n -> z = Z.of_N n.
Proof.
  unfold number. intros H. destruct z as [|p|p]; cbn [str_of_Z] in H.
  - rewrite py_int_show in H by auto. injection H. lia.
  - rewrite py_int_show in H by auto. injection H. lia.
  - change (lit "-" ++ show_N 10 (N.pos p)) with (45%N :: show_N 10 (N.pos p)) in H. rewrite py_int_minus in H. injection H. lia.
Qed.

(** ** The operation without its bookkeeping *)
Section plain.
  Variable exec : proc -> M xres.
  Variable sha512 : bytes -> bytes.
  Variable dry : bool.
  Notation sh := (sh exec sha512).
  Lemma keeps_when_some {A} b x (a : A) (m : A -> W unit) n o : keeps b o (mret x) -> m a = n -> keeps (when_some b (Some a) m) o (wif x n).
  Proof. intros H <-. eapply keeps_pure; [exact H|]. destruct x; [apply keeps_lift|apply keeps_ret]. Qed.
  Lemma keeps_when_none {A} b x (m : A -> W unit) o : keeps b o (mret x) -> keeps (when_some b None m) o (mret tt).
  Proof. intros H. eapply keeps_pure; [exact H|]. apply keeps_ret. Qed.

  Section user.
  Variable (u : pystr) (present : bool) (uid : option Z) (group : option pystr) (groups : option (list pystr)) (append system : bool).
  Variable (hash home shell comment : option pystr).
  Definition nobody : state := user_state false None None [] None None None None.
  Definition now_user (x : user_entry) : state :=
    user_state true (Some (ue_uid x)) (Some (ue_group x)) (py_sorted (ue_groups x)) (Some (ue_gecos x)) (Some (ue_home x)) (Some (ue_shell x)) (ue_hash x).
  (** the wanted groups of a user that is in those of [l] *)
  Definition want_groups (l : list pystr) : list pystr := py_sorted (if append then dedup (or_list groups [] ++ l) else or_list groups l).
  Definition want_user (x : user_entry) : state :=
    user_state true (Some (pick_int uid (ue_uid x))) (Some (pick_text group (ue_group x))) (want_groups (ue_groups x)) (Some (pick_text comment (ue_gecos x)))
      (Some (pick_text home (ue_home x))) (Some (pick_text shell (ue_shell x))) (or_str hash (ue_hash x)).
  Definition new_user : state :=
    user_state true (or_int uid None) (or_str group None) (want_groups []) (or_str comment None) (Some (pick_text home (lit "/dev/null"))) (Some (pick_text shell (lit "/sbin/nologin"))) (or_str hash None).
  Definition differ (a b : pv) : bool := negb (py_eq a b).
  Definition edit_user (x : user_entry) : W unit :=
    _ ← wif (differ (VInt (ue_uid x)) (VInt (pick_int uid (ue_uid x)))) (sh (usermod (lit "--uid") (str_of_Z (pick_int uid (ue_uid x))) u));
    _ ← wif (differ (VStr (ue_group x)) (VStr (pick_text group (ue_group x)))) (sh (usermod (lit "--gid") (pick_text group (ue_group x)) u));
    _ ← match want_groups (ue_groups x) with [] => mret tt | l => wif (differ (vstrs (py_sorted (ue_groups x))) (vstrs l)) (sh (usermod (lit "--groups") (join_str (lit ",") l) u)) end;
    _ ← wif (differ (VStr (ue_gecos x)) (VStr (pick_text comment (ue_gecos x)))) (sh (usermod (lit "--comment") (pick_text comment (ue_gecos x)) u));
    _ ← wif (differ (VStr (ue_home x)) (VStr (pick_text home (ue_home x)))) (sh (usermod (lit "--home") (pick_text home (ue_home x)) u));
    _ ← wif (differ (VStr (ue_shell x)) (VStr (pick_text shell (ue_shell x)))) (sh (usermod (lit "--shell") (pick_text shell (ue_shell x)) u));
    match or_str hash (ue_hash x) with None => mret tt | Some h => wif (differ (vopt (ue_hash x)) (VStr h)) (sh (usermod (lit "--password") h u)) end.
  Definition user_body : W opres :=
    cur ← query_user exec sha512 u true None;
    match cur, present with
    | None, true => conclude nobody new_user (if dry then mret tt else sh (useradd_cmd u system (or_int uid None) (or_str group None) (want_groups []) (or_str comment None) (pick_text home (lit "/dev/null")) (pick_text shell (lit "/sbin/nologin")) (or_str hash None)))
    | None, false => mret (OpRes true false nobody nobody None)
    | Some x, true => conclude (now_user x) (want_user x) (if dry then mret tt else edit_user x)
    | Some x, false => conclude (now_user x) nobody (if dry then mret tt else sh [lit "userdel"; lit "--"; u])
    end.
  Lemma user_plain : yields (user exec sha512 dry u present uid group groups append system hash home shell comment) new_op user_body.
  Proof.
    unfold user, new_op, user_body. eapply yields_bind; [apply keeps_lift|]. intros [x|]; cbn zeta; cbn [fmap option_fmap option_map default from_option mbind option_bind]; unfold id.
    - rewrite !or_str_some, !or_int_some, !or_str_default. apply yields_initial. apply yields_final. fold (now_user x). fold (want_groups (ue_groups x)).
      destruct present; [fold (want_user x)|fold nobody]; apply yields_conclude; (destruct dry; [apply keeps_ret|]).
      + set (o := Op false (Some (now_user x)) (Some (want_user x)) []).
        assert (K : forall k a b, dget k (now_user x) = Some a -> dget k (want_user x) = Some b -> keeps (changed k) o (mret (differ a b))) by (intros; apply keeps_changed; assumption).
        eapply keeps_pure; [apply (K s_exists); reflexivity|]. change (differ (VBool true) (VBool true)) with false. cbv iota. unfold edit_user.
        eapply keeps_bind; [eapply keeps_when_some; [|reflexivity]; apply (K k_uid); reflexivity|intros []].
        eapply keeps_bind; [eapply keeps_when_some; [|reflexivity]; apply (K k_group); reflexivity|intros []].
        eapply keeps_bind.
        { assert (Kg : keeps (changed k_groups) o (mret (differ (vstrs (py_sorted (ue_groups x))) (vstrs (want_groups (ue_groups x)))))) by (apply (K k_groups); reflexivity).
          destruct (want_groups (ue_groups x)) as [|g l]; [eapply keeps_when_none; exact Kg|]. eapply keeps_when_some; [exact Kg|reflexivity]. }
        intros []. eapply keeps_bind; [eapply keeps_when_some; [|reflexivity]; apply (K k_comment); reflexivity|intros []].
        eapply keeps_bind; [apply keeps_when; apply (K k_home); reflexivity|intros []].
        eapply keeps_bind; [apply keeps_when; apply (K k_shell); reflexivity|intros []].
        assert (Kh : keeps (changed k_hash) o (mret (differ (vopt (ue_hash x)) (vopt (or_str hash (ue_hash x)))))) by (apply (K k_hash); reflexivity).
        destruct (or_str hash (ue_hash x)) as [h|]; [|eapply keeps_when_none; exact Kh]. eapply keeps_when_some; [exact Kh|reflexivity].
      + eapply keeps_pure; [apply keeps_changed; reflexivity|]. change (negb (py_eq (VBool true) (VBool false))) with true. cbv iota. apply keeps_lift.
    - rewrite !or_str_default. cbn [from_option]. apply yields_initial. apply yields_final. fold nobody. fold (want_groups []).
      destruct present.
      + fold new_user. apply yields_conclude. destruct dry; [apply keeps_ret|].
        eapply keeps_pure; [apply keeps_changed; reflexivity|]. change (negb (py_eq (VBool false) (VBool true))) with true. cbv iota. apply keeps_lift.
      + eapply yields_pure; [apply keeps_unchanged|]. change (py_eq (VDict nobody) (VDict nobody)) with true. cbv iota. eapply yields_ext; [apply keeps_yields, keeps_success|]. reflexivity.
  Qed.
  End user.

  Section group.
  Variable (g : pystr) (present : bool) (gid : option Z) (system : bool).
  Definition group_body : W opres :=
    cur ← query_group exec sha512 g None;
    match cur, present with
    | None, true => conclude (group_state false None) (group_state true (or_int gid None)) (if dry then mret tt else sh (groupadd_cmd g system (or_int gid None)))
    | None, false => mret (OpRes true false (group_state false None) (group_state false None) None)
    | Some x, true => conclude (group_state true (Some (ge_gid x))) (group_state true (Some (pick_int gid (ge_gid x))))
        (if dry then mret tt else wif (differ (VInt (ge_gid x)) (VInt (pick_int gid (ge_gid x)))) (sh [lit "groupmod"; lit "--gid"; str_of_Z (pick_int gid (ge_gid x)); lit "--"; g]))
    | Some x, false => conclude (group_state true (Some (ge_gid x))) (group_state false None) (if dry then mret tt else sh [lit "groupdel"; lit "--"; g])
    end.
  Lemma group_plain : yields (System.group exec sha512 dry g present gid system) new_op group_body.
  Proof.
    unfold System.group, new_op, group_body. eapply yields_bind; [apply keeps_lift|]. intros [x|]; cbn zeta; cbn [fmap option_fmap option_map].
    - rewrite !or_int_some. apply yields_initial. apply yields_final. destruct present; apply yields_conclude; (destruct dry; [apply keeps_ret|]).
      + eapply keeps_pure; [apply keeps_changed; reflexivity|]. change (negb (py_eq (VBool true) (VBool true))) with false. cbv iota.
        eapply keeps_when_some; [|reflexivity]. apply keeps_changed; reflexivity.
      + eapply keeps_pure; [apply keeps_changed; reflexivity|]. change (negb (py_eq (VBool true) (VBool false))) with true. cbv iota. apply keeps_lift.
    - apply yields_initial. apply yields_final. destruct present.
      + apply yields_conclude. destruct dry; [apply keeps_ret|].
        eapply keeps_pure; [apply keeps_changed; reflexivity|]. change (negb (py_eq (VBool false) (VBool true))) with true. cbv iota. apply keeps_lift.
      + eapply yields_pure; [apply keeps_unchanged|]. match goal with |- context [py_eq ?a ?b] => change (py_eq a b) with true end. cbv iota. eapply yields_ext; [apply keeps_yields, keeps_success|]. reflexivity.
  Qed.
  End group.
End plain.
