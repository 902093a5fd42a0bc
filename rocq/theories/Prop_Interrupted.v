(** C88: interrupted changes of accounts. *)
From Coq Require Import Lia ZifyBool ZifyN ZifyNat.
From stdpp Require Import gmap.
From Verif Require Import Base Utf8 Dict_proofs Codec Spec_Codec Paths Sys Spec_Sys Sys_proofs Dispatcher Client Spec_Session Spec_Remote Remote_run Digits Control Spec_Control Control_proofs
  Walk_proofs Quiet Prop_Control Op Op_proofs Files Files_plain Spec_Files Shell_proofs Steps Dir_proofs Remote_examples Files_examples Prop_Files System Spec_Commands Commands_proofs Package_proofs Prop_Package
  Spec_Account Query_proofs Account_proofs Account_run Shadow Prop_Account Spec_Interrupted.
Local Open Scope nat_scope.

(** ** Systems with the same accounts *)
Lemma same_refl s : same_accounts s s. Proof. split_and!; reflexivity. Qed.
Lemma same_sym s t : same_accounts s t -> same_accounts t s. Proof. intros (A & B & C). split_and!; congruence. Qed.
Lemma same_trans s t w : same_accounts s t -> same_accounts t w -> same_accounts s w.
Proof. intros (A & B & C) (D & E & F). split_and!; congruence. Qed.
Lemma same_unaffected s t : unaffected s t -> same_accounts s t. Proof. intros ->. split_and!; reflexivity. Qed.
Lemma same_entry s t u : same_accounts s t -> entry t u = entry s u. Proof. intros (A & _). unfold entry. rewrite A. reflexivity. Qed.
Lemma same_secret s t u : same_accounts s t -> secret t u = secret s u. Proof. intros (_ & _ & A). unfold secret. rewrite A. reflexivity. Qed.
Lemma same_gids s t : same_accounts s t -> gids t = gids s. Proof. intros (_ & A & _). unfold gids. rewrite A. reflexivity. Qed.
Lemma same_member s t g u : same_accounts s t -> member t g u <-> member s g u. Proof. intros (_ & A & _). unfold member. rewrite A. reflexivity. Qed.
Lemma same_others u s t : same_accounts s t -> others u s t.
Proof. intros H. split; [intros v _; split; [apply same_entry|apply same_secret]; exact H|intros g v _; apply same_member; exact H]. Qed.
Lemma same_other_groups g s t : same_accounts s t -> other_groups g s t.
Proof. intros H g' _. split; [unfold gid_of; rewrite (same_gids _ _ H); reflexivity|intros v; apply same_member; exact H]. Qed.

Section inv.
  Variable exec : proc -> M xres.
  Variable sha512 : bytes -> bytes.
  Hypothesis Hb : bounded exec.
  Notation sh := (sh exec sha512).
  Definition keeps_inv {A} (Inv : os -> Prop) (m : W A) : Prop := does exec m (fun s l s' r => Inv s -> Inv s').
  Lemma inv_bind {A B} Inv (m : W A) (f : A -> W B) : keeps_inv Inv m -> (forall a, keeps_inv Inv (f a)) -> keeps_inv Inv (m ≫= f).
  Proof. clear Hb. intros H1 H2. refine (does_bind exec _ _ _ (fun _ s l s' r => Inv s -> Inv s') _ H1 H2 _ _); [auto|]. intros s l1 s1 a l2 s2 r A1 A2 A3. auto. Qed.
  Lemma inv_ret {A} Inv (a : A) : keeps_inv Inv (mret a).
  Proof. clear Hb. eapply does_mono; [apply does_ret|]. intros s l s' r (_ & -> & _). auto. Qed.
  Lemma inv_wif Inv b m : keeps_inv Inv m -> keeps_inv Inv (wif b m).
  Proof. intros H. destruct b; [exact H|apply inv_ret]. Qed.
  Lemma inv_sh cmd keep done args opts name (Inv : os -> Prop) : promised exec cmd keep done -> all_or_nothing exec cmd done -> getopt args = (opts, [name]) ->
    (forall s s', same_accounts s s' -> Inv s -> Inv s') -> (forall s s', keep name s s' -> done opts name s s' -> Inv s -> Inv s') -> keeps_inv Inv (sh (cmd :: args)).
  Proof.
    intros P A G H1 H2. eapply does_mono; [exact (sh_does exec sha512 _ Hb)|]. intros s l s' r [(-> & H & _)|(-> & p & s1 & x & K1 & K2 & K3 & _)] Hi.
    - eapply H1; [apply same_unaffected; exact H|exact Hi].
    - apply (H1 s s1) in Hi; [|apply same_unaffected; exact K1]. destruct (P p s1 x s' args opts name K3 G K2) as (B1 & _). destruct (A p s1 x s' args opts name K3 G K2) as [B2|B2]; eauto.
  Qed.
  Lemma inv_conclude (Inv : os -> Prop) (dry : bool) i f (m : W unit) : keeps_inv Inv m -> keeps_inv Inv (conclude i f (if dry then mret tt else m)).
  Proof.
    intros H. unfold conclude. destruct (py_eq (VDict i) (VDict f)); [apply inv_ret|]. apply inv_bind; [|intros; apply inv_ret]. destruct dry; [apply inv_ret|exact H].
  Qed.
End inv.

Section user.
  Variable exec : proc -> M xres.
  Variable sha512 : bytes -> bytes.
  Hypothesis Hb : bounded exec.
  Hypothesis Hsu : shadow_utils exec.
  Hypothesis Hat : shadow_atomic exec.
  Variable (u : pystr) (uid : option Z) (group : option pystr) (groups : option (list pystr)) (append system : bool) (hash home shell comment : option pystr).
  Notation mid := (midway u uid group groups append hash home shell comment).
  Notation granted := (user_granted u uid group groups append hash home shell comment).

  Lemma same_midway s0 s s' : same_accounts s s' -> mid s0 s -> mid s0 s'.
  Proof.
    clear. intros H (A1 & A2 & a & b & A3 & A4 & A5 & A6 & A7 & A8 & A9 & A10 & A11). split; [eapply others_trans; [exact A1|apply same_others; exact H]|].
    split; [rewrite (same_gids _ _ H); exact A2|]. exists a, b. rewrite (same_entry _ _ _ H), (same_secret _ _ _ H). split_and!; try assumption.
    destruct A11 as [K|K]; [left|right]; intros g; rewrite (same_member _ _ _ _ H); apply K.
  Qed.
  Lemma same_granted_r s0 s s' : same_accounts s s' -> granted s0 s -> granted s0 s'.
  Proof.
    clear. intros H (A1 & A2 & b & (C1 & C2 & C3) & A3 & A4 & A5 & A6 & A7 & A8 & A9). split; [eapply others_trans; [exact A1|apply same_others; exact H]|].
    rewrite (same_gids _ _ H). split; [exact A2|]. exists b. unfold complete. rewrite (same_entry _ _ _ H), (same_secret _ _ _ H), (same_gids _ _ H). split_and!; try assumption; try apply A3.
    intros g. rewrite (same_member _ _ _ _ H). apply A9.
  Qed.
  Lemma same_granted_l s s' s2 : same_accounts s s' -> granted s' s2 -> granted s s2.
  Proof.
    clear. intros H (A1 & A2 & b & A3 & A4 & A5 & A6 & A7 & A8 & A9 & A10). split; [eapply others_trans; [apply same_others; exact H|exact A1]|].
    rewrite (same_gids _ _ H) in A2. rewrite (same_entry _ _ _ H) in *. rewrite (same_secret _ _ _ H) in *. split; [exact A2|]. exists b. split_and!; try assumption; try apply A4.
    intros g. rewrite A10, (same_member _ _ _ _ H). reflexivity.
  Qed.

  (** ** The steps of a change *)
  Lemma usermod_inv s0 opt v : opt <> lit "--" -> opt ∉ switches -> (forall s s', others u s s' -> user_modified [(opt, v)] u s s' -> mid s0 s -> mid s0 s') ->
    keeps_inv exec (mid s0) (sh exec sha512 (usermod opt v u)).
  Proof.
    intros H1 H2 H3. apply (inv_sh exec sha512 Hb (lit "usermod") others user_modified _ [(opt, v)] u); [apply Hsu|apply Hat| |intros s s'; apply same_midway|exact H3].
    cbn [getopt]. rewrite bool_decide_eq_false_2 by exact H1. rewrite bool_decide_eq_false_2 by exact H2. reflexivity.
  Qed.
  Ltac one :=
    intros ? ? Ho (G & (a0 & b & E1 & E2 & D1 & D2 & D3 & D4 & D5) & D6 & D7) (A1 & A2 & a & b0 & A3 & A4 & A5 & A6 & A7 & A8 & A9 & A10 & A11);
    assert (b0 = a0) as -> by congruence; clear A4; split; [eapply others_trans; eassumption|split; [congruence|]]; exists a, b; split; [exact A3|]; split; [exact E2|].
  Ltac mem K7 A11 := destruct A11 as [K|K]; [left|right]; intros ?; rewrite K7; apply K.
  Lemma uid_inv s0 z : asks_int uid z -> forall s s', others u s s' -> user_modified [(lit "--uid", str_of_Z z)] u s s' -> mid s0 s -> mid s0 s'.
  Proof.
    clear. intros Hz. one. assert (K1 : number (str_of_Z z) (pw_uid b)) by exact D1. assert (K2 : pw_gid a0 = pw_gid b) by exact D2. assert (K3 : pw_gecos a0 = pw_gecos b) by exact D3. assert (K4 : pw_dir a0 = pw_dir b) by exact D4. assert (K5 : pw_shell a0 = pw_shell b) by exact D5. assert (K6 : secret s u = secret s' u) by exact D6. assert (K7 : forall g, member s' g u <-> member s g u) by exact D7.
    rewrite <- K2, <- K3, <- K4, <- K5, <- K6. apply str_of_Z_number in K1. split_and!; try assumption; [right; rewrite <- K1; exact Hz|mem K7 A11].
  Qed.
  Lemma gid_inv s0 g : asks_text group g -> tame g -> forall s s', others u s s' -> user_modified [(lit "--gid", g)] u s s' -> mid s0 s -> mid s0 s'.
  Proof.
    clear. intros Hz Ht. one. assert (K1 : pw_uid a0 = pw_uid b) by exact D1. assert (K2 : group_id s g (pw_gid b)) by exact D2. assert (K3 : pw_gecos a0 = pw_gecos b) by exact D3. assert (K4 : pw_dir a0 = pw_dir b) by exact D4. assert (K5 : pw_shell a0 = pw_shell b) by exact D5. assert (K6 : secret s u = secret s' u) by exact D6. assert (K7 : forall g, member s' g u <-> member s g u) by exact D7.
    rewrite <- K1, <- K3, <- K4, <- K5, <- K6. split_and!; try assumption; [right; exists g; split; [exact Hz|]; rewrite <- A2; apply K2; exact Ht|mem K7 A11].
  Qed.
  Lemma comment_inv s0 v : asks_text comment v -> forall s s', others u s s' -> user_modified [(lit "--comment", v)] u s s' -> mid s0 s -> mid s0 s'.
  Proof.
    clear. intros Hz. one. assert (K1 : pw_uid a0 = pw_uid b) by exact D1. assert (K2 : pw_gid a0 = pw_gid b) by exact D2. assert (K3 : v = pw_gecos b) by exact D3. assert (K4 : pw_dir a0 = pw_dir b) by exact D4. assert (K5 : pw_shell a0 = pw_shell b) by exact D5. assert (K6 : secret s u = secret s' u) by exact D6. assert (K7 : forall g, member s' g u <-> member s g u) by exact D7.
    rewrite <- K1, <- K2, <- K4, <- K5, <- K6. split_and!; try assumption; [right; rewrite <- K3; exact Hz|mem K7 A11].
  Qed.
  Lemma home_inv s0 v : asks_text home v -> forall s s', others u s s' -> user_modified [(lit "--home", v)] u s s' -> mid s0 s -> mid s0 s'.
  Proof.
    clear. intros Hz. one. assert (K1 : pw_uid a0 = pw_uid b) by exact D1. assert (K2 : pw_gid a0 = pw_gid b) by exact D2. assert (K3 : pw_gecos a0 = pw_gecos b) by exact D3. assert (K4 : v = pw_dir b) by exact D4. assert (K5 : pw_shell a0 = pw_shell b) by exact D5. assert (K6 : secret s u = secret s' u) by exact D6. assert (K7 : forall g, member s' g u <-> member s g u) by exact D7.
    rewrite <- K1, <- K2, <- K3, <- K5, <- K6. split_and!; try assumption; [right; rewrite <- K4; exact Hz|mem K7 A11].
  Qed.
  Lemma shell_inv s0 v : asks_text shell v -> forall s s', others u s s' -> user_modified [(lit "--shell", v)] u s s' -> mid s0 s -> mid s0 s'.
  Proof.
    clear. intros Hz. one. assert (K1 : pw_uid a0 = pw_uid b) by exact D1. assert (K2 : pw_gid a0 = pw_gid b) by exact D2. assert (K3 : pw_gecos a0 = pw_gecos b) by exact D3. assert (K4 : pw_dir a0 = pw_dir b) by exact D4. assert (K5 : v = pw_shell b) by exact D5. assert (K6 : secret s u = secret s' u) by exact D6. assert (K7 : forall g, member s' g u <-> member s g u) by exact D7.
    rewrite <- K1, <- K2, <- K3, <- K4, <- K6. split_and!; try assumption; [right; rewrite <- K5; exact Hz|mem K7 A11].
  Qed.
  Lemma password_inv s0 v : asks_text hash v -> forall s s', others u s s' -> user_modified [(lit "--password", v)] u s s' -> mid s0 s -> mid s0 s'.
  Proof.
    clear. intros Hz. one. assert (K1 : pw_uid a0 = pw_uid b) by exact D1. assert (K2 : pw_gid a0 = pw_gid b) by exact D2. assert (K3 : pw_gecos a0 = pw_gecos b) by exact D3. assert (K4 : pw_dir a0 = pw_dir b) by exact D4. assert (K5 : pw_shell a0 = pw_shell b) by exact D5. assert (K6 : secret s' u = Some v) by exact D6. assert (K7 : forall g, member s' g u <-> member s g u) by exact D7.
    rewrite <- K1, <- K2, <- K3, <- K4, <- K5. split_and!; try assumption; [right; exists v; auto|mem K7 A11].
  Qed.
  Lemma groups_inv s0 l : l <> [] -> Forall tame l -> (forall g, g ∈ l <-> wanted u groups append s0 g) ->
    forall s s', others u s s' -> user_modified [(lit "--groups", join_str (lit ",") l)] u s s' -> mid s0 s -> mid s0 s'.
  Proof.
    clear. intros Hl Ht Hw. one. assert (K1 : pw_uid a0 = pw_uid b) by exact D1. assert (K2 : pw_gid a0 = pw_gid b) by exact D2. assert (K3 : pw_gecos a0 = pw_gecos b) by exact D3.
    assert (K4 : pw_dir a0 = pw_dir b) by exact D4. assert (K5 : pw_shell a0 = pw_shell b) by exact D5. assert (K6 : secret s u = secret s' u) by exact D6.
    assert (K7 : members_are (join_str (lit ",") l) (fun g => member s' g u)) by exact D7.
    rewrite <- K1, <- K2, <- K3, <- K4, <- K5, <- K6. split_and!; try assumption. right. intros g. rewrite <- Hw. apply K7; [exact Hl|exact Ht|reflexivity].
  Qed.

  Lemma asked_text o d : differ (VStr d) (VStr (pick_text o d)) = true -> asks_text o (pick_text o d).
  Proof.
    clear. rewrite differ_str. intros H. apply bool_decide_eq_true in H. destruct o as [[|c r]|]; [destruct H; reflexivity| |destruct H; reflexivity]. split; [reflexivity|discriminate].
  Qed.
  Lemma asked_int o d : differ (VInt d) (VInt (pick_int o d)) = true -> asks_int o (pick_int o d).
  Proof.
    clear. rewrite differ_int. intros H. apply bool_decide_eq_true in H. destruct o as [z|]; [|destruct H; reflexivity]. unfold pick_int in *. destruct (Z.eqb_spec z 0); [destruct H; reflexivity|]. split; [reflexivity|assumption].
  Qed.
  Lemma edit_inv s0 a e h : plain_request s0 u group groups -> complete s0 u a ->
    keeps_inv exec (mid s0) (edit_user exec sha512 u uid group groups append hash home shell comment (entry_of s0 u a (gr_name e) h)).
  Proof.
    intros (_ & P2 & P3 & P4 & _) (C1 & _). assert (Hname : pw_name a = u) by (apply entry_some in C1; tauto).
    unfold edit_user. cbn [ue_uid ue_group ue_groups ue_gecos ue_home ue_shell ue_hash entry_of]. rewrite Hname, or_str_some. cbn [vopt].
    assert (M : forall opt v (b : bool), (b = true -> forall s s', others u s s' -> user_modified [(opt, v)] u s s' -> mid s0 s -> mid s0 s') -> opt <> lit "--" -> opt ∉ switches ->
      keeps_inv exec (mid s0) (wif b (sh exec sha512 (usermod opt v u)))).
    { intros opt v [|] K1 K2 K3; [apply usermod_inv; [exact K2|exact K3|exact (K1 eq_refl)]|apply inv_ret]. }
    apply inv_bind; [apply M; [intros H; apply uid_inv, asked_int, H|discriminate|apply (bool_decide_unpack _); vm_compute; exact I]|intros _].
    apply inv_bind; [apply M; [intros H; apply gid_inv; [apply asked_text, H|apply P2, asked_text, H]|discriminate|apply (bool_decide_unpack _); vm_compute; exact I]|intros _].
    apply inv_bind; [|intros _].
    { destruct (want_groups groups append (groups_of s0 u)) as [|w ws] eqn:Ew; [apply inv_ret|]. rewrite <- Ew. apply M; [|discriminate|apply (bool_decide_unpack _); vm_compute; exact I]. intros _. apply groups_inv.
      - rewrite Ew. discriminate.
      - apply Forall_forall. intros y Hy. apply want_groups_elem in Hy as [(r & H1 & H2)|[_ H2]].
        + pose proof (P3 r H1) as Hr. rewrite Forall_forall in Hr. auto.
        + apply groups_of_spec in H2. apply P4. exact H2.
      - intros g. rewrite want_groups_elem, groups_of_spec. reflexivity. }
    apply inv_bind; [apply M; [intros H; apply comment_inv, asked_text, H|discriminate|apply (bool_decide_unpack _); vm_compute; exact I]|intros _].
    apply inv_bind; [apply M; [intros H; apply home_inv, asked_text, H|discriminate|apply (bool_decide_unpack _); vm_compute; exact I]|intros _].
    apply inv_bind; [apply M; [intros H; apply shell_inv, asked_text, H|discriminate|apply (bool_decide_unpack _); vm_compute; exact I]|intros _].
    apply M; [intros H; apply password_inv, asked_text, H|discriminate|apply (bool_decide_unpack _); vm_compute; exact I].
  Qed.
  Lemma mid_refl s a : entry s u = Some a -> mid s s.
  Proof. clear. intros H. split; [apply others_refl|]. split; [reflexivity|]. exists a, a. split_and!; auto. Qed.

  (** What the first attempt leaves behind, whatever became of it *)
  Lemma attempt c r c' : c_string u -> plain_request (sysof c) u group groups ->
    user_body exec sha512 false u true uid group groups append system hash home shell comment c = (r, c') ->
    left_behind u uid group groups append hash home shell comment (sysof c) (sysof c').
  Proof.
    intros Hu Hp E. unfold user_body in E. apply bind_spec in E as [(cur & c1 & E1 & E)|(e & E & ->)].
    2:{ apply query_user_any in E as (_ & H2 & _); [|exact Hu|exact (proj1 Hp)]. left. rewrite H2. apply same_refl. }
    apply query_user_any in E1 as (_ & H2 & H3); [|exact Hu|exact (proj1 Hp)]. destruct cur as [x|].
    - destruct H3 as (a & e & h & C1 & C2 & C3 & ->). right. left.
      destruct (inv_conclude exec (mid (sysof c)) false _ _ _ (edit_inv (sysof c) a e h Hp C1) _ _ _ E) as (_ & l & _ & K). apply K. rewrite H2. eapply mid_refl. apply C1.
    - assert (N : entry (sysof c) u = None).
      { destruct (entry (sysof c) u) as [a|] eqn:Ea; [|reflexivity]. destruct (H3 a eq_refl). apply Hp. exact Ea. }
      set (Inv := fun s => same_accounts (sysof c) s \/ granted (sysof c) s).
      enough (K : keeps_inv exec Inv (sh exec sha512 (useradd_cmd u system (or_int uid None) (or_str group None) (want_groups groups append []) (or_str comment None)
        (pick_text home (lit "/dev/null")) (pick_text shell (lit "/sbin/nologin")) (or_str hash None)))).
      { destruct (inv_conclude exec Inv false _ _ _ K _ _ _ E) as (_ & l & _ & K'). destruct K' as [K'|K']; [left; rewrite H2; apply same_refl|left; exact K'|right; right; exact K']. }
      destruct (add_args u uid group hash home shell comment system (want_groups groups append [])) as (args & A1 & A2). rewrite A2.
      apply (inv_sh exec sha512 Hb (lit "useradd") others user_added _ _ _ Inv (su_useradd _ Hsu) (sa_useradd _ Hat) A1).
      + intros s s' Hs [H|H]; [left; eapply same_trans; eassumption|right; eapply same_granted_r; eassumption].
      + intros s s' Ho Ha [H|H].
        * right. eapply same_granted_l; [exact H|]. eapply added_granted; [|exact Ho|exact Ha].
          destruct Hp as (P1 & P2 & P3 & P4 & P5). split; [exact P1|]. split; [exact P2|]. split; [exact P3|]. rewrite (same_entry _ _ _ H). split.
          -- intros g. rewrite (same_member _ _ _ _ H). apply P4.
          -- intros b Hb'. congruence.
        * exfalso. destruct H as (_ & _ & b & (H & _) & _). destruct Ha as (Ha & _). congruence.
  Qed.
  (** a request that can be made can be made again *)
  Lemma plain_again s0 s : plain_request s0 u group groups -> left_behind u uid group groups append hash home shell comment s0 s -> plain_request s u group groups.
  Proof.
    clear. intros (P1 & P2 & P3 & P4 & P5) H. split; [exact P1|]. split; [exact P2|]. split; [exact P3|].
    assert (W : forall g, wanted u groups append s0 g -> tame g).
    { intros g [(l & A & B)|[_ A]]; [pose proof (P3 l A) as F; rewrite Forall_forall in F; auto|apply P4; exact A]. }
    destruct H as [H|[H|H]].
    - rewrite (same_entry _ _ _ H). split; [intros g; rewrite (same_member _ _ _ _ H); apply P4|]. intros a Ha. destruct (P5 a Ha) as (A1 & A2 & A3).
      unfold complete. rewrite (same_entry _ _ _ H), (same_secret _ _ _ H), (same_gids _ _ H). auto.
    - destruct H as (_ & G & a & b & A3 & A4 & _ & A6 & _ & _ & _ & A10 & A11). rewrite A4. split.
      + intros g Hg. split; [|discriminate]. destruct A11 as [K|K]; apply K in Hg; [apply P4; exact Hg|apply W; exact Hg].
      + intros b' [= <-]. destruct (P5 a A3) as (_ & (h & B1) & g & B2). split; [exact A4|]. split.
        * destruct A10 as [->|(v & _ & ->)]; eauto.
        * rewrite G. destruct A6 as [->|(g' & _ & A6)]; eauto.
    - destruct H as (_ & _ & b & Cb & _ & _ & _ & _ & _ & _ & A9). assert (Eb : entry s u = Some b) by apply Cb. rewrite Eb. split.
      + intros g Hg. split; [|discriminate]. apply W. apply A9. exact Hg.
      + intros b' [= <-]. exact Cb.
  Qed.
  Lemma granted_text o (x y z : pystr) : (y = x \/ asks_text o y) -> Spec_Account.granted o (eq y) eq z -> Spec_Account.granted o (eq x) eq z.
  Proof. clear. intros H [G1 G2]. split; [exact G1|]. intros Hn. destruct H as [<-|H]; [auto|destruct (Hn _ H)]. Qed.
  (** the second attempt makes up for what the first one left out *)
  Lemma repeated s0 s s2 : left_behind u uid group groups append hash home shell comment s0 s -> granted s s2 -> granted s0 s2.
  Proof.
    clear. intros [H|[H|H]] G; [eapply same_granted_l; eassumption|..].
    - destruct H as (A1 & A2 & a & b & A3 & A4 & A5 & A6 & A7 & A8 & A9 & A10 & A11). destruct G as (G1 & G2 & d & G3 & [G4 G4'] & [G5 G5'] & G6 & G7 & G8 & [G9 G9'] & G10).
      rewrite A4 in *. cbn [fmap option_fmap option_map default from_option] in *. unfold id in *.
      split; [eapply others_trans; eassumption|]. split; [rewrite <- A2; exact G2|]. exists d. rewrite A3. cbn [fmap option_fmap option_map default from_option]. unfold id.
      split; [exact G3|]. split.
      { split; [exact G4|]. intros Hn a' [= <-]. rewrite (G4' Hn b eq_refl). destruct A5 as [A5|A5]; [exact A5|destruct (Hn _ A5)]. }
      split. { split; [exact G5|]. intros Hn. rewrite (G5' Hn). destruct A6 as [A6|(g & A6 & _)]; [exact A6|destruct (Hn _ A6)]. }
      split; [eapply granted_text; eassumption|]. split; [eapply granted_text; eassumption|]. split; [eapply granted_text; eassumption|]. split.
      { split; [exact G9|]. intros Hn. rewrite (G9' Hn). destruct A10 as [A10|(v & A10 & _)]; [exact A10|destruct (Hn _ A10)]. }
      intros g. rewrite G10. destruct A11 as [K|K]; rewrite (K g); [reflexivity|]. unfold wanted. tauto.
    - destruct H as (A1 & A2 & b & Cb & [A3 A3'] & [A4 A4'] & A5 & A6 & A7 & [A8 A8'] & A9). destruct G as (G1 & G2 & d & G3 & [G4 G4'] & [G5 G5'] & G6 & G7 & G8 & [G9 G9'] & G10).
      assert (Eb : entry s u = Some b) by apply Cb. rewrite Eb in *. cbn [fmap option_fmap option_map default from_option] in *. unfold id in *.
      assert (T : forall o x y z, Spec_Account.granted o (eq x) eq y -> Spec_Account.granted o (eq y) eq z -> Spec_Account.granted o (eq x) eq z).
      { intros o x y z [T1 T2] [T3 T4]. split; [exact T3|]. intros Hn. rewrite (T2 Hn). auto. }
      split; [eapply others_trans; eassumption|]. split; [auto|]. exists d. split; [exact G3|]. split.
      { split; [exact G4|]. intros Hn a' Ha. rewrite (G4' Hn b eq_refl). apply A3'; assumption. }
      split. { split; [exact G5|]. intros Hn. rewrite (G5' Hn). specialize (A4' Hn). destruct (entry s0 u); [exact A4'|apply G2; exact A4']. }
      split; [eapply T; eassumption|]. split; [eapply T; eassumption|]. split; [eapply T; eassumption|]. split.
      { split; [exact G9|]. intros Hn. rewrite (G9' Hn). apply A8'. exact Hn. }
      intros g. rewrite G10, A9. tauto.
  Qed.
End user.

Section group.
  Variable exec : proc -> M xres.
  Variable sha512 : bytes -> bytes.
  Hypothesis Hb : bounded exec.
  Hypothesis Hsu : shadow_utils exec.
  Hypothesis Hat : shadow_atomic exec.
  Variable (g : pystr) (gid : option Z) (system : bool).
  Notation granted := (group_granted g gid).
  Lemma same_gid_of s s' : same_accounts s s' -> gid_of s' g = gid_of s g.
  Proof. clear. intros H. unfold gid_of. rewrite (same_gids _ _ H). reflexivity. Qed.
  Lemma same_group_r s0 s s' : same_accounts s s' -> granted s0 s -> granted s0 s'.
  Proof.
    clear. intros H (n & A1 & A2 & A3 & A4). exists n. rewrite (same_gid_of _ _ H). split; [exact A1|]. split; [exact A2|]. split; [exact A3|]. intros Hn v. rewrite (same_member _ _ _ _ H). auto.
  Qed.
  Lemma same_group_l s s' s2 : same_accounts s s' -> granted s' s2 -> granted s s2.
  Proof.
    clear. intros H (n & A1 & A2 & A3 & A4). rewrite (same_gid_of _ _ H) in *. exists n. split; [exact A1|]. split; [exact A2|]. split; [exact A3|]. intros Hn v. rewrite <- (same_member _ _ _ _ H). auto.
  Qed.
  Lemma group_trans s0 s s2 : granted s0 s -> granted s s2 -> granted s0 s2.
  Proof.
    clear. intros (n & A1 & A2 & A3 & A4) (m & B1 & B2 & B3 & B4). assert (N : gid_of s g <> None) by congruence. exists m. split; [exact B1|]. split; [exact B2|]. split.
    - intros Hn Hs. specialize (B3 Hn N). rewrite (A3 Hn Hs). congruence.
    - intros Hs v. rewrite (B4 N), (A4 Hs). reflexivity.
  Qed.
  Lemma group_attempt c r c' : c_string g -> py_int 10 g = None ->
    group_body exec sha512 false g true gid system c = (r, c') -> same_accounts (sysof c) (sysof c') \/ granted (sysof c) (sysof c').
  Proof.
    intros Hg Hn E. unfold group_body in E. set (Inv := fun s => same_accounts (sysof c) s \/ granted (sysof c) s). change (Inv (sysof c')). apply bind_spec in E as [(cur & c1 & E1 & E)|(e & E & ->)].
    2:{ apply query_group_any in E as (_ & H2 & _); [|exact Hg|exact Hn]. left. rewrite H2. apply same_refl. }
    apply query_group_any in E1 as (_ & H2 & H3); [|exact Hg|exact Hn]. assert (I0 : Inv (sysof c1)) by (left; rewrite H2; apply same_refl).
    assert (Is : forall s s', same_accounts s s' -> Inv s -> Inv s') by (intros s s' Hs [H|H]; [left; eapply same_trans; eassumption|right; eapply same_group_r; eassumption]).
    destruct cur as [x|].
    - destruct H3 as (e & He & ->). cbn [ge_gid] in E. set (z := pick_int gid (Z.of_N (gr_gid e))) in *.
      enough (K : keeps_inv exec Inv (wif (differ (VInt (Z.of_N (gr_gid e))) (VInt z)) (sh exec sha512 [lit "groupmod"; lit "--gid"; str_of_Z z; lit "--"; g]))).
      { destruct (inv_conclude exec Inv false _ _ _ K _ _ _ E) as (_ & l & _ & K'). exact (K' I0). }
      destruct (differ _ _) eqn:D; [|apply inv_ret]. apply asked_int in D. fold z in D.
      apply (inv_sh exec sha512 Hb (lit "groupmod") other_groups group_modified [lit "--gid"; str_of_Z z; lit "--"; g] [(lit "--gid", str_of_Z z)] g Inv (su_groupmod _ Hsu) (sa_groupmod _ Hat) eq_refl Is).
      intros s s' _ (M & m & n & N1 & N2 & N3) Hi.
      assert (G : granted s s').
      { exists n. split; [exact N2|]. change (number (str_of_Z z) n) in N3. apply str_of_Z_number in N3. split; [intros z' [Hz' _]; destruct D; congruence|]. split; [intros Hno; destruct (Hno z D)|auto]. }
      right. destruct Hi as [H|H]; [eapply same_group_l; eassumption|eapply group_trans; eassumption].
    - set (opts := (if system then [(lit "--system", [])] else []) ++ (match or_int gid None with Some z => [(lit "--gid", str_of_Z z)] | None => [] end) : list (pystr * pystr)).
      enough (K : keeps_inv exec Inv (sh exec sha512 (groupadd_cmd g system (or_int gid None)))).
      { destruct (inv_conclude exec Inv false _ _ _ K _ _ _ E) as (_ & l & _ & K'). exact (K' I0). }
      apply (inv_sh exec sha512 Hb (lit "groupadd") other_groups group_added
        ((if system then [lit "--system"] else []) ++ (match or_int gid None with Some z => [lit "--gid"; str_of_Z z] | None => [] end) ++ [lit "--"; g]) opts g Inv (su_groupadd _ Hsu) (sa_groupadd _ Hat)).
      + unfold opts. destruct system, (or_int gid None); reflexivity.
      + exact Is.
      + intros s s' _ (N & n & N1 & N2) [H|H]; [|destruct H as (? & H & _); congruence]. right. eapply same_group_l; [exact H|]. exists n. split; [exact N1|].
        assert (Hd : dget (lit "--gid") opts = str_of_Z <$> or_int gid None) by (unfold opts; destruct system, (or_int gid None); reflexivity).
        unfold decides in N2. rewrite Hd in N2. pose proof (or_int_asks gid) as Hq. split.
        * intros z Hz. destruct (or_int gid None) as [z'|]; [|destruct (Hq z Hz)]. cbn in N2. apply str_of_Z_number in N2. destruct Hz as [Hz _], Hq as [Hq _]. congruence.
        * split; congruence.
  Qed.
End group.

Section C88.
  Variable exec : proc -> M xres.
  Variable sha512 : bytes -> bytes.
  Hypothesis Hb : bounded exec.
  Hypothesis Hsu : shadow_utils exec.
  Hypothesis Hat : shadow_atomic exec.

  (** However the first attempt ends: nothing, part, or all of what was asked for was done, and nothing else.  If a second attempt
      succeeds, everything is as if there had been no first one.
      Full statement: for all requests, and however the programs fail.  It is false for the requests of C54-C56, and if a program
      can leave half of its work, see C88_torn_refuted. *)
  Theorem C88_user_partial u uid group groups append system hash home shell comment a c r c1 :
    c_string u -> plain_request (sysof c) u group groups ->
    operation a (user exec sha512 false u true uid group groups append system hash home shell comment) c = (r, c1) ->
    left_behind u uid group groups append hash home shell comment (sysof c) (sysof c1) /\
    forall a2 c2 x c3, sysof c2 = sysof c1 -> operation a2 (user exec sha512 false u true uid group groups append system hash home shell comment) c2 = (Ok x, c3) ->
      or_success x = true /\ user_granted u uid group groups append hash home shell comment (sysof c) (sysof c3).
  Proof.
    intros Hu Hp E. rewrite (operation_plain _ _ _ _ (user_plain exec sha512 false u true uid group groups append system hash home shell comment)) in E. apply verdict_outcome in E as (y & E & _).
    apply (attempt exec sha512 Hb Hsu Hat) in E; [|assumption..]. split; [exact E|]. intros a2 c2 x c3 Hc E2.
    destruct (C54_partial exec sha512 Hb Hsu u uid group groups append system hash home shell comment a2 c2 (Ok x) c3) as (_ & l & _ & _ & H); [exact Hu|rewrite Hc; eapply plain_again; eassumption|exact E2|].
    destruct (H x eq_refl) as (H1 & _ & H2). split; [exact H1|]. rewrite Hc in H2. eapply repeated; eassumption.
  Qed.
  Theorem C88_userdel_partial u uid group groups append system hash home shell comment a c r c1 :
    c_string u -> py_int 10 u = None -> (forall b, entry (sysof c) u = Some b -> complete (sysof c) u b) ->
    operation a (user exec sha512 false u false uid group groups append system hash home shell comment) c = (r, c1) ->
    others u (sysof c) (sysof c1) /\ (same_accounts (sysof c) (sysof c1) \/ user_deleted u (sysof c) (sysof c1)) /\
    forall a2 c2 x c3, sysof c2 = sysof c1 -> operation a2 (user exec sha512 false u false uid group groups append system hash home shell comment) c2 = (Ok x, c3) ->
      or_success x = true /\ others u (sysof c) (sysof c3) /\ entry (sysof c3) u = None /\ (entry (sysof c) u <> None -> user_deleted u (sysof c) (sysof c3)).
  Proof.
    intros Hu Hn Hc E. destruct (C55_partial exec sha512 Hb Hsu _ _ _ _ _ _ _ _ _ _ _ _ _ _ Hu Hn Hc E) as (_ & l & _ & Ho & _). split; [exact Ho|].
    assert (K : same_accounts (sysof c) (sysof c1) \/ user_deleted u (sysof c) (sysof c1)).
    { rewrite (operation_plain _ _ _ _ (user_plain exec sha512 false u false uid group groups append system hash home shell comment)) in E. apply verdict_outcome in E as (y & E & _).
      set (Inv := fun s => same_accounts (sysof c) s \/ user_deleted u (sysof c) s). change (Inv (sysof c1)).
      unfold user_body in E. apply bind_spec in E as [(cur & c' & E1 & E)|(e & E & ->)].
      2:{ apply query_user_any in E as (_ & H2 & _); [|exact Hu|exact Hn]. left. rewrite H2. apply same_refl. }
      apply query_user_any in E1 as (_ & H2 & _); [|exact Hu|exact Hn]. assert (I0 : Inv (sysof c')) by (left; rewrite H2; apply same_refl).
      destruct cur as [x|]; [|injection E as _ <-; exact I0].
      enough (K : keeps_inv exec Inv (sh exec sha512 [lit "userdel"; lit "--"; u])) by (destruct (inv_conclude exec Inv false _ _ _ K _ _ _ E) as (_ & l' & _ & K'); exact (K' I0)).
      apply (inv_sh exec sha512 Hb (lit "userdel") others (fun _ => user_deleted) [lit "--"; u] [] u Inv (su_userdel _ Hsu) (sa_userdel _ Hat) eq_refl).
      - intros s s' Hs [H|(H & H' & H'')]; [left; eapply same_trans; eassumption|right]. split; [rewrite (same_entry _ _ _ Hs); exact H|]. split; [rewrite (same_secret _ _ _ Hs); exact H'|]. intros g. rewrite (same_member _ _ _ _ Hs). apply H''.
      - intros s s' _ D _. right. exact D. }
    split; [exact K|]. intros a2 c2 x c3 E2 Er.
    assert (Hc2 : forall b, entry (sysof c2) u = Some b -> complete (sysof c2) u b).
    { rewrite E2. destruct K as [H|(H & _)]; [|congruence]. intros b. unfold complete. rewrite (same_entry _ _ _ H), (same_secret _ _ _ H), (same_gids _ _ H). apply Hc. }
    destruct (C55_partial exec sha512 Hb Hsu _ _ _ _ _ _ _ _ _ _ _ _ _ _ Hu Hn Hc2 Er) as (_ & l2 & _ & Ho2 & F1 & F2). destruct (F1 x eq_refl) as (G1 & _ & G2 & G3). rewrite E2 in *.
    split; [exact G1|]. split; [eapply others_trans; eassumption|]. split; [exact G2|]. intros Hex. split; [exact G2|].
    destruct K as [H|H]; [rewrite (same_entry _ _ _ H) in G3; exact (G3 Hex)|]. destruct (F2 (proj1 H)) as [-> _]. apply H.
  Qed.
  Theorem C88_group_partial g gid system a c r c1 : c_string g -> py_int 10 g = None ->
    operation a (System.group exec sha512 false g true gid system) c = (r, c1) ->
    other_groups g (sysof c) (sysof c1) /\ (same_accounts (sysof c) (sysof c1) \/ group_granted g gid (sysof c) (sysof c1)) /\
    forall a2 c2 x c3, sysof c2 = sysof c1 -> operation a2 (System.group exec sha512 false g true gid system) c2 = (Ok x, c3) ->
      or_success x = true /\ other_groups g (sysof c) (sysof c3) /\ group_granted g gid (sysof c) (sysof c3).
  Proof.
    intros Hg Hn E. destruct (C56_partial exec sha512 Hb Hsu _ _ _ _ _ _ _ _ Hg Hn E) as (_ & l & _ & Ho & _). split; [exact Ho|].
    rewrite (operation_plain _ _ _ _ (group_plain exec sha512 false g true gid system)) in E. apply verdict_outcome in E as (y & E & _).
    apply (group_attempt exec sha512 Hb Hsu Hat) in E; [|assumption..]. split; [exact E|]. intros a2 c2 x c3 Hc E2.
    destruct (C56_partial exec sha512 Hb Hsu _ _ _ _ _ _ _ _ Hg Hn E2) as (_ & l2 & _ & Ho2 & H). destruct (H x eq_refl) as (H1 & _ & H2). rewrite Hc in *. split; [exact H1|]. split.
    - intros g' Hg'. destruct (Ho g' Hg') as [A1 A2], (Ho2 g' Hg') as [B1 B2]. split; [congruence|]. intros v. rewrite B2, A2. reflexivity.
    - destruct E as [E|E]; [eapply same_group_l; eassumption|eapply group_trans; eassumption].
  Qed.
End C88.
Print Assumptions C88_user_partial.
Print Assumptions C88_userdel_partial.
Print Assumptions C88_group_partial.

(** ** Examples *)
Lemma shadow_either p s x s' : shadow p s = (x, s') -> s' = s \/ x = Ok (XExit 0 [] []).
Proof.
  unfold shadow, useradd_prog, usermod_prog, userdel_prog, groupadd_prog, groupmod_prog, groupdel_prog, exit. intros E.
  repeat match type of E with context [match ?x with _ => _ end] => destruct x end; injection E as <- <-; auto.
Qed.
Lemma shadow_all cmd keep done : promised shadow cmd keep done -> all_or_nothing shadow cmd done.
Proof.
  intros H q s x s' args opts u E1 E2 E3. destruct (shadow_either _ _ _ _ E3) as [-> |Hx]; [left; apply same_refl|right].
  destruct (H q s x s' args opts u E1 E2 E3) as (_ & _ & H'). eapply H'. exact Hx.
Qed.
Lemma shadow_is_atomic : shadow_atomic shadow.
Proof. destruct shadow_ok. constructor; eapply shadow_all; eassumption. Qed.
(** The connection is lost while the third of four commands is carried out (the fourth request); the password is still the old one.  Then all is done again. *)
Definition losing (k : nat) : ctl := set_remote (Remote (sysof office) (Losing k true)) office.
Definition again (c : ctl) : ctl := set_remote (Remote (sysof c) Up) office.
Example C88_case :
  let c1 := snd (operation NotGiven edit_bob (losing 3)) in let y := operation NotGiven edit_bob (again c1) in let c3 := snd y in
  bounded shadow /\ shadow_utils shadow /\ shadow_atomic shadow /\ c_string bob /\ plain_request (sysof (losing 3)) bob (Some (lit "users")) (Some [wheel]) /\
  (exists e, fst (operation NotGiven edit_bob (losing 3)) = Err e) /\
  entry (sysof c1) bob = Some (Account bob 1005 100 (lit "Bob") (lit "/home/bob") (lit "/bin/bash")) /\ secret (sysof c1) bob = Some (lit "$6$x") /\ groups_of (sysof c1) bob = [wheel; audio] /\
  or_success (result_of y) = true /\
  entry (sysof c3) bob = Some (Account bob 1005 100 (lit "Bob") (lit "/home/bob") (lit "/bin/zsh")) /\ secret (sysof c3) bob = Some (lit "$6$y") /\ groups_of (sysof c3) bob = [wheel; audio].
Proof.
  cbv zeta. split; [apply shadow_bounded|]. split; [apply shadow_ok|]. split; [apply shadow_is_atomic|]. split; [apply bob_string|]. split.
  { apply office_plain; [auto|..].
    - intros g [[= <-] _]. apply tame_text. vm_compute. reflexivity.
    - intros l [[= <-] _]. repeat constructor; apply tame_text; vm_compute; reflexivity. }
  split; [eexists; vm_compute; reflexivity|]. split_and!; vm_compute; reflexivity.
Qed.
(** Removing and adding again: the answer to userdel, and to groupadd, is not heard. *)
Example C88_case_others :
  let x := operation NotGiven (drop bob) (losing 1) in let y := operation NotGiven (drop bob) (again (snd x)) in
  let v := operation NotGiven (mkgroup (lit "video") true (Some 77%Z)) (losing 1) in let w := operation NotGiven (mkgroup (lit "video") true (Some 77%Z)) (again (snd v)) in
  complete (sysof (losing 1)) bob bobs /\
  (exists e, fst x = Err e) /\ entry (sysof (snd x)) bob = None /\ or_success (result_of y) = true /\ or_changed (result_of y) = false /\
  (exists e, fst v = Err e) /\ gid_of (sysof (snd v)) (lit "video") = Some 77%N /\ or_success (result_of w) = true /\ or_changed (result_of w) = false.
Proof.
  cbv zeta. split; [exact bob_complete|]. split; [eexists; vm_compute; reflexivity|]. split; [vm_compute; reflexivity|]. split; [vm_compute; reflexivity|]. split; [vm_compute; reflexivity|].
  split; [eexists; vm_compute; reflexivity|]. split_and!; vm_compute; reflexivity.
Qed.
(** ** False without [shadow_atomic].  useradd writes three files one after the other.  If it stops after the first, the account has no
    password entry and counts as absent, and useradd refuses to add it: no later attempt succeeds. *)
Definition torn (p : proc) : M xres := fun s =>
  match p_argv p, o_faults s with
  | cmd :: args, FErr _ _ :: l =>
      match str_eqb cmd (lit "useradd"), getopt args with
      | true, (_, [u]) => match entry s u with
                          | None => exit 1 (set_faults l (set_db (o_passwd s ++ [Account u 1002 100 [] (lit "/") (lit "/bin/sh")]) (o_group s) (o_shadow s) s))
                          | Some _ => shadow p s
                          end
      | _, _ => shadow p s
      end
  | _, _ => shadow p s
  end.
Lemma torn_either p s x s' : torn p s = (x, s') -> shadow p s = (x, s') \/
  (exists args opts u i l, p_argv p = lit "useradd" :: args /\ getopt args = (opts, [u]) /\ x = Ok (XExit 1 [] []) /\ s' = set_faults l (set_db (o_passwd s ++ [i]) (o_group s) (o_shadow s) s) /\ pw_name i = u).
Proof.
  unfold torn. destruct (p_argv p) as [|cmd args] eqn:Ep; [auto|]. destruct (o_faults s) as [|[|] l]; [auto..|]. destruct (str_eqb_spec cmd (lit "useradd")) as [-> |]; [|auto].
  destruct (getopt args) as [opts [|u [|]]] eqn:Eg; [auto| |auto]. destruct (entry s u); [auto|]. intros [= <- <-]. right. eexists args, opts, u, _, l. eauto.
Qed.
Lemma torn_bounded : bounded torn.
Proof.
  intros p s rc out err s' E. apply torn_either in E as [E|(? & ? & ? & ? & ? & _ & _ & [= -> -> ->] & _)]; [eapply shadow_bounded; exact E|]. unfold in_i32, small. cbn. lia.
Qed.
Lemma torn_other cmd keep done : cmd <> lit "useradd" -> promised shadow cmd keep done -> promised torn cmd keep done.
Proof.
  intros Hc H q s x s' args opts u E1 E2 E3. apply torn_either in E3 as [E3|(args' & ? & ? & ? & ? & E & _)]; [exact (H q s x s' args opts u E1 E2 E3)|]. rewrite E in E1. injection E1 as E1 _. congruence.
Qed.
Lemma torn_ok : shadow_utils torn.
Proof.
  destruct shadow_ok. constructor; try (apply torn_other; [vm_compute; discriminate|assumption]).
  intros q s x s' args opts u E1 E2 E3. pose proof E3 as E4. apply torn_either in E3 as [E3|(args' & opts' & u' & i & l & F1 & F2 & -> & -> & F3)]; [exact (su_useradd q s x s' args opts u E1 E2 E3)|].
  rewrite F1 in E1. injection E1 as ->. rewrite F2 in E2. injection E2 as -> ->. split; [|split; [reflexivity|discriminate]]. split.
  - intros v Hv. split; [|reflexivity]. unfold entry. cbn [set_faults set_db o_passwd]. rewrite find_app. destruct (List.find _ (o_passwd s)); [reflexivity|]. cbn. rewrite bool_decide_eq_false_2 by congruence. reflexivity.
  - intros g v _. reflexivity.
Qed.
Definition try_carol := user torn fake_hash false carol true None None None false true None None None None.
Definition full_disk : ctl := set_remote (Remote (set_faults (repeat FOk 5 ++ [FErr 28 0]) (sysof office)) Up) office.
Theorem C88_torn_refuted : exists exec u c r c1 r2, bounded exec /\ shadow_utils exec /\ c_string u /\ plain_request (sysof c) u None None /\ entry (sysof c) u = None /\
  let op := user exec fake_hash false u true None None None false true None None None None in
  operation NotGiven op c = (r, c1) /\ (exists e, r = Err e) /\
  operation NotGiven op c1 = (r2, c1) /\ exists e, r2 = Err e.
Proof.
  exists torn, carol, full_disk, (fst (operation NotGiven try_carol full_disk)), (snd (operation NotGiven try_carol full_disk)), (fst (operation NotGiven try_carol (snd (operation NotGiven try_carol full_disk)))).
  split; [apply torn_bounded|]. split; [apply torn_ok|]. split; [apply carol_string|]. split; [apply (office_plain carol None None); [auto|intros g [[=] _]|intros l [[=] _]]|]. split; [vm_compute; reflexivity|].
  cbv zeta. split; [apply surjective_pairing|]. split; [eexists; vm_compute; reflexivity|].
  split; [vm_compute; reflexivity|]. eexists; vm_compute; reflexivity.
Qed.
Print Assumptions C88_torn_refuted.
