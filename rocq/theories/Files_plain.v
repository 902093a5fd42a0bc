(** What the file operations do, without the bookkeeping of the operation API: each of them is shown to be equal to a plain
    program. *)
From Coq Require Import Lia.
From stdpp Require Import gmap.
From Verif Require Import Base Utf8 Dict_proofs Codec Paths Sys Dispatcher Client Control Control_proofs Op Op_proofs Files.
Local Open Scope nat_scope.

(** [m] behaves like [w] and leaves the state [o] of the operation as it is *)
Definition keeps {A} (m : O A) (o : opst) (w : W A) : Prop := forall c, m o c = (x ← w; mret (x, o)) c.
(** [m] behaves like [w], whatever becomes of the state of the operation *)
Definition yields {A} (m : O A) (o : opst) (w : W A) : Prop := forall c, (x ← m o; mret (fst x)) c = w c.

Lemma keeps_yields {A} (m : O A) o w : keeps m o w -> yields m o w.
Proof. intros H c. unfold mbind, W_bind. rewrite H. unfold mbind, W_bind. destruct (w c) as [[a|e] c1]; reflexivity. Qed.
Lemma keeps_bind {A B} (m : O A) (f : A -> O B) o w w' : keeps m o w -> (forall a, keeps (f a) o (w' a)) -> keeps (m ≫= f) o (w ≫= w').
Proof.
  intros H1 H2 c. unfold mbind at 1, O_bind. unfold mbind, W_bind. rewrite H1. unfold mbind, W_bind. destruct (w c) as [[a|e] c1]; [|reflexivity].
  cbn. rewrite H2. reflexivity.
Qed.
Lemma keeps_pure {A B} (m : O A) (f : A -> O B) o a w : keeps m o (mret a) -> keeps (f a) o w -> keeps (m ≫= f) o w.
Proof. intros H1 H2 c. unfold mbind at 1, O_bind. unfold mbind at 1, W_bind at 1. rewrite H1. cbn. apply H2. Qed.
Lemma keeps_ret {A} (a : A) o : keeps (mret a) o (mret a). Proof. intros c. reflexivity. Qed.
Lemma keeps_lift {A} (w : W A) o : keeps (olift w) o w. Proof. intros c. reflexivity. Qed.
Lemma keeps_raise {A} e o : keeps (oraise e : O A) o (wraise e). Proof. intros c. reflexivity. Qed.
Lemma keeps_ext {A} (m : O A) o w w' : keeps m o w -> (forall c, w c = w' c) -> keeps m o w'.
Proof. intros H1 H2 c. rewrite H1. unfold mbind, W_bind. rewrite H2. reflexivity. Qed.
Lemma yields_bind {A B} (m : O A) (f : A -> O B) o w w' : keeps m o w -> (forall a, yields (f a) o (w' a)) -> yields (m ≫= f) o (w ≫= w').
Proof.
  intros H1 H2 c. unfold mbind at 2, O_bind. unfold mbind, W_bind. rewrite H1. unfold mbind, W_bind. destruct (w c) as [[a|e] c1]; [|reflexivity].
  cbn. specialize (H2 a c1). unfold mbind, W_bind in H2. rewrite <- H2. reflexivity.
Qed.
Lemma yields_pure {A B} (m : O A) (f : A -> O B) o a w : keeps m o (mret a) -> yields (f a) o w -> yields (m ≫= f) o w.
Proof.
  intros H1 H2 c. unfold mbind at 2, O_bind. unfold mbind, W_bind. rewrite H1. cbn. specialize (H2 c). unfold mbind, W_bind in H2. exact H2.
Qed.
Lemma yields_ret {A} (a : A) o : yields (mret a) o (mret a). Proof. intros c. reflexivity. Qed.
Lemma yields_raise {A} e o : yields (oraise e : O A) o (wraise e). Proof. intros c. reflexivity. Qed.
Lemma yields_ext {A} (m : O A) o w w' : yields m o w -> (forall c, w c = w' c) -> yields m o w'.
Proof. intros H1 H2 c. rewrite H1. apply H2. Qed.

(** ** The operation API on known states *)
Lemma keeps_changed k (i f : state) ds a b : dget k i = Some a -> dget k f = Some b ->
  keeps (changed k) (Op false (Some i) (Some f) ds) (mret (negb (py_eq a b))).
Proof. intros Ha Hb c. unfold changed. rewrite getO_bind. cbn. rewrite Ha, Hb. reflexivity. Qed.
Lemma keeps_unchanged (i f : state) ds : keeps (unchanged false) (Op false (Some i) (Some f) ds) (mret (py_eq (VDict i) (VDict f))).
Proof. intros c. reflexivity. Qed.
Lemma keeps_success (i f : state) ds : keeps success (Op false (Some i) (Some f) ds) (mret (OpRes true (negb (py_eq (VDict i) (VDict f))) i f None)).
Proof. intros c. reflexivity. Qed.
Lemma yields_final {B} kw (f : unit -> O B) i ds w : yields (f tt) (Op false i (Some kw) ds) w -> yields (final_state kw ≫= f) (Op false i None ds) w.
Proof. intros H c. exact (H c). Qed.
Lemma yields_initial {B} kw (f : unit -> O B) x ds w : yields (f tt) (Op false (Some kw) x ds) w -> yields (initial_state kw ≫= f) (Op false None x ds) w.
Proof. intros H c. exact (H c). Qed.
Lemma yields_diff {B} p a b (f : unit -> O B) i x ds w : (forall ds, yields (f tt) (Op false i x ds) w) -> yields (diff p a b ≫= f) (Op false i x ds) w.
Proof.
  intros H c. unfold diff. destruct (bool_decide (a = b)) eqn:E.
  - exact (H ds c).
  - exact (H (ds ++ [(p, a, b)]) c).
Qed.
Lemma yields_assoc {A B C} (m : O A) (f : A -> O B) (g : B -> O C) o w : yields (m ≫= fun a => f a ≫= g) o w -> yields ((m ≫= f) ≫= g) o w.
Proof.
  intros H c. rewrite <- H. unfold mbind, O_bind, mbind, W_bind. destruct (m o c) as [[[a o1]|e] c1]; reflexivity.
Qed.
Lemma yields_failure m i x ds : yields (failure m) (Op false i x ds) (mret (OpRes false false (default [] i) (default [] x) (Some m))).
Proof. intros c. reflexivity. Qed.

Definition wif (b : bool) (m : W unit) : W unit := if b then m else mret tt.
Lemma keeps_when b x m o : keeps b o (mret x) -> keeps (when b m) o (wif x m).
Proof. intros H. eapply keeps_pure; [exact H|]. destruct x; [apply keeps_lift|apply keeps_ret]. Qed.
Lemma keeps_either a b x y o : keeps a o (mret x) -> keeps b o (mret y) -> keeps (either a b) o (mret (x || y)).
Proof. intros H1 H2. eapply keeps_pure; [exact H1|]. destruct x; [apply keeps_ret|exact H2]. Qed.
Lemma keeps_both a b x y o : keeps a o (mret x) -> keeps b o (mret y) -> keeps (both a b) o (mret (x && y)).
Proof. intros H1 H2. eapply keeps_pure; [exact H1|]. destruct x; [exact H2|apply keeps_ret]. Qed.
Lemma keeps_nope a x o : keeps a o (mret x) -> keeps (nope a) o (mret (negb x)).
Proof. intros H1. eapply keeps_pure; [exact H1|]. apply keeps_ret. Qed.

(** [if op.unchanged(): return op.success(); work; return op.success()] *)
Definition conclude (i f : state) (work : W unit) : W opres :=
  if py_eq (VDict i) (VDict f) then mret (OpRes true false i f None) else _ ← work; mret (OpRes true true i f None).
Lemma yields_conclude (i f : state) ds (k : O unit) w : keeps k (Op false (Some i) (Some f) ds) w ->
  yields (u ← unchanged false; if u : bool then success else _ ← k; success) (Op false (Some i) (Some f) ds) (conclude i f w).
Proof.
  intros H. eapply yields_pure; [apply keeps_unchanged|]. unfold conclude. destruct (py_eq (VDict i) (VDict f)) eqn:E.
  - eapply yields_ext; [apply keeps_yields, keeps_success|]. rewrite E. reflexivity.
  - eapply yields_bind; [exact H|]. intros []. eapply yields_ext; [apply keeps_yields, keeps_success|]. rewrite E. reflexivity.
Qed.

(** the decorator *)
Definition verdict (a : check_arg) (r : opres) : W opres :=
  if seen_check a && negb (or_success r) then wraise (OperationError (default (lit "None") (or_message r))) else mret r.
Lemma operation_plain a f w c : yields f new_op w -> operation a f c = (w ≫= verdict a) c.
Proof.
  intros H. unfold operation. unfold mbind at 2, W_bind. rewrite <- H. unfold mbind, W_bind. destruct (f new_op c) as [[[r o]|e] c1]; reflexivity.
Qed.

Section plain.
  Variable exec : proc -> M xres.
  Variable sha512 : bytes -> bytes.
  Variable dry want_diff : bool.
  Notation stat := (stat exec sha512).
  Notation sh := (sh exec sha512).
  Notation script_defaults := (script_defaults exec sha512).

  Lemma script_defaults_ext {A} q (b1 b2 : settings -> W A) c : (forall d c, b1 d c = b2 d c) -> script_defaults q b1 c = script_defaults q b2 c.
  Proof.
    intros H. unfold Control.script_defaults. destruct (c_script c) as [i|]; [|reflexivity]. unfold with_defaults, mbind, W_bind.
    destruct (defaults i q c) as [[new|e] c1]; [|reflexivity]. destruct (enter_defaults exec sha512 i new c1) as [[d|e] c2]; [|reflexivity].
    unfold wfinally. rewrite H. reflexivity.
  Qed.
  Lemma script_defaults_map {A B} q (b : settings -> W A) (f : A -> B) c :
    (x ← script_defaults q b; mret (f x)) c = script_defaults q (fun d => x ← b d; mret (f x)) c.
  Proof.
    unfold Control.script_defaults, mbind at 1, W_bind at 1. destruct (c_script c) as [i|]; [|reflexivity]. unfold with_defaults, mbind, W_bind.
    destruct (defaults i q c) as [[new|e] c1]; [|reflexivity]. destruct (enter_defaults exec sha512 i new c1) as [[d|e] c2]; [|reflexivity].
    unfold wfinally. destruct (b d c2) as [[a|e] c3]; cbn; destruct (exit_defaults i c3) as [[?|?] c4]; reflexivity.
  Qed.
  Lemma yields_defaults {A} q (body : settings -> O A) o w : (forall attr, yields (body attr) o (w attr)) ->
    yields (op_defaults exec sha512 q body) o (script_defaults q w).
  Proof.
    intros H c. unfold op_defaults. rewrite script_defaults_map. apply script_defaults_ext. intros d c1. apply H.
  Qed.

  (** optional strings that differ *)
  Definition differ (a b : option pystr) : bool := negb (py_eq (vopt a) (vopt b)).
  Lemma differ_spec a b : reflect (a <> b) (differ a b).
  Proof.
    unfold differ. destruct a as [a|], b as [b|]; cbn; try (constructor; congruence). destruct (str_eqb_spec a b); constructor; congruence.
  Qed.
  Lemma file_state_eq e m o g t e' m' o' g' t' : py_eq (VDict (file_state e m o g t)) (VDict (file_state e' m' o' g' t')) =
    Bool.eqb e e' && negb (differ m m') && negb (differ o o') && negb (differ g g') && Bool.eqb t t'.
  Proof.
    unfold differ. rewrite !negb_involutive. rewrite py_eq_dict. unfold file_state. cbn [length forallb fst snd Nat.eqb].
    change (dget s_exists _) with (Some (VBool e')). change (dget s_mode _) with (Some (vopt m')). change (dget k_owner _) with (Some (vopt o')).
    change (dget k_group _) with (Some (vopt g')). change (dget s_touched _) with (Some (VBool t')). cbn [andb]. change (py_eq (VBool e) (VBool e')) with (Bool.eqb e e').
    change (py_eq (VBool t) (VBool t')) with (Bool.eqb t t'). rewrite andb_true_r, !andb_assoc. reflexivity.
  Qed.
  Lemma fs_changed_exists e m o g t e' m' o' g' t' ds :
    keeps (changed s_exists) (Op false (Some (file_state e m o g t)) (Some (file_state e' m' o' g' t')) ds) (mret (negb (Bool.eqb e e'))).
  Proof. refine (keeps_changed s_exists (file_state e m o g t) (file_state e' m' o' g' t') ds (VBool e) (VBool e') _ _); reflexivity. Qed.
  Lemma fs_changed_mode e m o g t e' m' o' g' t' ds :
    keeps (changed s_mode) (Op false (Some (file_state e m o g t)) (Some (file_state e' m' o' g' t')) ds) (mret (differ m m')).
  Proof. refine (keeps_changed s_mode (file_state e m o g t) (file_state e' m' o' g' t') ds (vopt m) (vopt m') _ _); reflexivity. Qed.
  Lemma fs_changed_owner e m o g t e' m' o' g' t' ds :
    keeps (changed k_owner) (Op false (Some (file_state e m o g t)) (Some (file_state e' m' o' g' t')) ds) (mret (differ o o')).
  Proof. refine (keeps_changed k_owner (file_state e m o g t) (file_state e' m' o' g' t') ds (vopt o) (vopt o') _ _); reflexivity. Qed.
  Lemma fs_changed_group e m o g t e' m' o' g' t' ds :
    keeps (changed k_group) (Op false (Some (file_state e m o g t)) (Some (file_state e' m' o' g' t')) ds) (mret (differ g g')).
  Proof. refine (keeps_changed k_group (file_state e m o g t) (file_state e' m' o' g' t') ds (vopt g) (vopt g') _ _); reflexivity. Qed.
  Lemma fs_changed_touched e m o g t e' m' o' g' t' ds :
    keeps (changed s_touched) (Op false (Some (file_state e m o g t)) (Some (file_state e' m' o' g' t')) ds) (mret (negb (Bool.eqb t t'))).
  Proof. refine (keeps_changed s_touched (file_state e m o g t) (file_state e' m' o' g' t') ds (VBool t) (VBool t') _ _); reflexivity. Qed.

  (** *** directory *)
  Definition want (owner group file_mode dir_mode : option pystr) : settings := Settings None None owner group file_mode dir_mode None None.
  Definition report (st : option statres) : state :=
    match st with
    | None => file_state false None None None false
    | Some st => file_state true (Some (st_mode st)) (Some (st_owner st)) (Some (st_group st)) false
    end.
  Definition goal (present : bool) (mode : option pystr) (attr : settings) (touch : bool) : state :=
    if present then file_state true mode (s_owner attr) (s_group attr) touch else file_state false None None None false.
  (** the values of a state that was found *)
  Definition seen_mode (st : option statres) : option pystr := st_mode <$> st.
  Definition seen_owner (st : option statres) : option pystr := st_owner <$> st.
  Definition seen_group (st : option statres) : option pystr := st_group <$> st.
  Definition there (st : option statres) : bool := match st with Some _ => true | None => false end.
  Lemma report_eq st : report st = file_state (there st) (seen_mode st) (seen_owner st) (seen_group st) false.
  Proof. destruct st; reflexivity. Qed.

  Definition chmod_to (path : pystr) (m : option pystr) : W unit := arg m (fun m => crun exec sha512 [lit "chmod"; m; lit "--"; path]).
  Definition chown_to (path : pystr) (attr : settings) : W unit := sh [lit "chown"; owner_spec attr; lit "--"; path].
  Definition dir_work (path : pystr) (present touch : bool) (attr : settings) (st : option statres) : W unit :=
    if dry then mret tt
    else if present then
      _ ← wif (negb (there st)) (sh [lit "mkdir"; lit "--"; path]);
      _ ← wif (differ (seen_mode st) (s_dir_mode attr)) (chmod_to path (s_dir_mode attr));
      _ ← wif (differ (seen_owner st) (s_owner attr) || differ (seen_group st) (s_group attr)) (chown_to path attr);
      wif (there st && touch) (sh [lit "touch"; lit "--"; path])
    else wif (there st) (sh [lit "rm"; lit "-rf"; lit "--"; path]).
  Definition dir_body (path : pystr) (present touch : bool) (attr : settings) : W opres :=
    st ← stat path false false;
    let f := goal present (s_dir_mode attr) attr touch in
    match st with
    | Some x => if negb (str_eqb (st_type x) (lit "dir"))
                then mret (OpRes false false [] f (Some (lit "path '" ++ path ++ lit "' exists but is not a directory!")))
                else conclude (report st) f (dir_work path present touch attr st)
    | None => conclude (report st) f (dir_work path present touch attr st)
    end.
  Lemma directory_plain path present touch mode owner group :
    yields (directory exec sha512 dry path present touch mode owner group) new_op
      (_ ← check_absolute_path path; script_defaults (want owner group None mode) (dir_body path present touch)).
  Proof.
    eapply yields_bind; [apply keeps_lift|]. intros []. apply yields_defaults. intros attr. unfold new_op. apply yields_final.
    eapply yields_bind; [apply keeps_lift|]. intros st.
    assert (Hwork : forall ds, keeps (if dry then mret tt
               else if present then
                 _ ← when (changed s_exists) (sh [lit "mkdir"; lit "--"; path]);
                 _ ← when (changed s_mode) (arg (s_dir_mode attr) (fun m => crun exec sha512 [lit "chmod"; m; lit "--"; path]));
                 _ ← when (either (changed k_owner) (changed k_group)) (sh [lit "chown"; owner_spec attr; lit "--"; path]);
                 when (both (nope (changed s_exists)) (changed s_touched)) (sh [lit "touch"; lit "--"; path])
               else when (changed s_exists) (sh [lit "rm"; lit "-rf"; lit "--"; path]))
      (Op false (Some (report st)) (Some (goal present (s_dir_mode attr) attr touch)) ds) (dir_work path present touch attr st)).
    { intros ds. unfold dir_work. destruct dry; [apply keeps_ret|]. rewrite report_eq. unfold goal. destruct present.
      - eapply keeps_bind; [|intros []; eapply keeps_bind; [|intros []; eapply keeps_bind; [|intros []]]].
        + eapply keeps_ext; [apply keeps_when, fs_changed_exists|]. destruct (there st); reflexivity.
        + apply keeps_when, fs_changed_mode.
        + apply keeps_when, keeps_either; [apply fs_changed_owner|apply fs_changed_group].
        + eapply keeps_ext; [apply keeps_when, keeps_both; [apply keeps_nope, fs_changed_exists|apply fs_changed_touched]|].
          destruct (there st), touch; reflexivity.
      - eapply keeps_ext; [apply keeps_when, fs_changed_exists|]. destruct (there st); reflexivity. }
    destruct st as [st|].
    - destruct (negb (str_eqb (st_type st) (lit "dir"))); [apply yields_failure|]. apply yields_initial, yields_conclude, Hwork.
    - apply yields_initial, yields_conclude, Hwork.
  Qed.

  (** *** file *)
  Definition file_work (path : pystr) (present touch : bool) (attr : settings) (st : option statres) : W unit :=
    if dry then mret tt
    else if present then
      _ ← wif (negb (there st) || touch) (sh [lit "touch"; lit "--"; path]);
      _ ← wif (differ (seen_mode st) (s_file_mode attr)) (chmod_to path (s_file_mode attr));
      wif (differ (seen_owner st) (s_owner attr) || differ (seen_group st) (s_group attr)) (chown_to path attr)
    else wif (there st) (sh [lit "rm"; lit "--"; path]).
  Definition file_body (path : pystr) (present touch : bool) (attr : settings) : W opres :=
    st ← stat path false false;
    let f := goal present (s_file_mode attr) attr touch in
    match st with
    | Some x => if negb (str_eqb (st_type x) (lit "file"))
                then mret (OpRes false false [] f (Some (lit "path '" ++ path ++ lit "' exists but is not a file!")))
                else conclude (report st) f (file_work path present touch attr st)
    | None => conclude (report st) f (file_work path present touch attr st)
    end.
  Lemma file_plain path present touch mode owner group :
    yields (file exec sha512 dry path present touch mode owner group) new_op
      (_ ← check_absolute_path path; script_defaults (want owner group mode None) (file_body path present touch)).
  Proof.
    eapply yields_bind; [apply keeps_lift|]. intros []. apply yields_defaults. intros attr. unfold new_op. apply yields_final.
    eapply yields_bind; [apply keeps_lift|]. intros st.
    assert (Hwork : forall ds, keeps (if dry then mret tt
               else if present then
                 _ ← when (either (changed s_exists) (changed s_touched)) (sh [lit "touch"; lit "--"; path]);
                 _ ← when (changed s_mode) (arg (s_file_mode attr) (fun m => crun exec sha512 [lit "chmod"; m; lit "--"; path]));
                 when (either (changed k_owner) (changed k_group)) (sh [lit "chown"; owner_spec attr; lit "--"; path])
               else when (changed s_exists) (sh [lit "rm"; lit "--"; path]))
      (Op false (Some (report st)) (Some (goal present (s_file_mode attr) attr touch)) ds) (file_work path present touch attr st)).
    { intros ds. unfold file_work. destruct dry; [apply keeps_ret|]. rewrite report_eq. unfold goal. destruct present.
      - eapply keeps_bind; [|intros []; eapply keeps_bind; [|intros []]].
        + eapply keeps_ext; [apply keeps_when, keeps_either; [apply fs_changed_exists|apply fs_changed_touched]|]. destruct (there st), touch; reflexivity.
        + apply keeps_when, fs_changed_mode.
        + apply keeps_when, keeps_either; [apply fs_changed_owner|apply fs_changed_group].
      - eapply keeps_ext; [apply keeps_when, fs_changed_exists|]. destruct (there st); reflexivity. }
    destruct st as [st|].
    - destruct (negb (str_eqb (st_type st) (lit "file"))); [apply yields_failure|]. apply yields_initial, yields_conclude, Hwork.
    - apply yields_initial, yields_conclude, Hwork.
  Qed.

  (** *** link *)
  Definition ls_state := link_state.
  Lemma ls_exists e m o g t e' m' o' g' t' ds :
    keeps (changed s_exists) (Op false (Some (link_state e m o g t)) (Some (link_state e' m' o' g' t')) ds) (mret (negb (Bool.eqb e e'))).
  Proof. refine (keeps_changed s_exists (link_state e m o g t) (link_state e' m' o' g' t') ds (VBool e) (VBool e') _ _); reflexivity. Qed.
  Lemma ls_target e m o g t e' m' o' g' t' ds :
    keeps (changed s_target) (Op false (Some (link_state e m o g t)) (Some (link_state e' m' o' g' t')) ds) (mret (differ m m')).
  Proof. refine (keeps_changed s_target (link_state e m o g t) (link_state e' m' o' g' t') ds (vopt m) (vopt m') _ _); reflexivity. Qed.
  Lemma ls_owner e m o g t e' m' o' g' t' ds :
    keeps (changed k_owner) (Op false (Some (link_state e m o g t)) (Some (link_state e' m' o' g' t')) ds) (mret (differ o o')).
  Proof. refine (keeps_changed k_owner (link_state e m o g t) (link_state e' m' o' g' t') ds (vopt o) (vopt o') _ _); reflexivity. Qed.
  Lemma ls_group e m o g t e' m' o' g' t' ds :
    keeps (changed k_group) (Op false (Some (link_state e m o g t)) (Some (link_state e' m' o' g' t')) ds) (mret (differ g g')).
  Proof. refine (keeps_changed k_group (link_state e m o g t) (link_state e' m' o' g' t') ds (vopt g) (vopt g') _ _); reflexivity. Qed.
  Lemma ls_touched e m o g t e' m' o' g' t' ds :
    keeps (changed s_touched) (Op false (Some (link_state e m o g t)) (Some (link_state e' m' o' g' t')) ds) (mret (negb (Bool.eqb t t'))).
  Proof. refine (keeps_changed s_touched (link_state e m o g t) (link_state e' m' o' g' t') ds (VBool t) (VBool t') _ _); reflexivity. Qed.
  Lemma link_state_eq e m o g t e' m' o' g' t' : py_eq (VDict (link_state e m o g t)) (VDict (link_state e' m' o' g' t')) =
    Bool.eqb e e' && negb (differ m m') && negb (differ o o') && negb (differ g g') && Bool.eqb t t'.
  Proof.
    unfold differ. rewrite !negb_involutive. rewrite py_eq_dict. unfold link_state. cbn [length forallb fst snd Nat.eqb].
    change (dget s_exists _) with (Some (VBool e')). change (dget s_target _) with (Some (vopt m')). change (dget k_owner _) with (Some (vopt o')).
    change (dget k_group _) with (Some (vopt g')). change (dget s_touched _) with (Some (VBool t')). cbn [andb]. change (py_eq (VBool e) (VBool e')) with (Bool.eqb e e').
    change (py_eq (VBool t) (VBool t')) with (Bool.eqb t t'). rewrite andb_true_r, !andb_assoc. reflexivity.
  Qed.

  (** what was found: the report of stat and the target *)
  Definition found_link : Type := option (statres * pystr).
  Definition link_report (x : found_link) : state :=
    match x with
    | None => link_state false None None None false
    | Some (st, t) => link_state true (Some t) (Some (st_owner st)) (Some (st_group st)) false
    end.
  Definition link_goal (present : bool) (target : pystr) (attr : settings) (touch : bool) : state :=
    if present then link_state true (Some target) (s_owner attr) (s_group attr) touch else link_state false None None None false.
  Definition lthere (x : found_link) : bool := match x with Some _ => true | None => false end.
  Definition l_target (x : found_link) : option pystr := snd <$> x.
  Definition l_owner (x : found_link) : option pystr := (st_owner ∘ fst) <$> x.
  Definition l_group (x : found_link) : option pystr := (st_group ∘ fst) <$> x.
  Lemma link_report_eq x : link_report x = link_state (lthere x) (l_target x) (l_owner x) (l_group x) false.
  Proof. destruct x as [[st t]|]; reflexivity. Qed.
  Definition link_work (path target : pystr) (present touch : bool) (attr : settings) (x : found_link) : W unit :=
    if dry then mret tt
    else if present then
      _ ← wif (differ (l_target x) (Some target)) (sh [lit "ln"; lit "-sf"; lit "--"; target; path]);
      _ ← wif (differ (l_owner x) (s_owner attr) || differ (l_group x) (s_group attr))
            (sh [lit "chown"; lit "--no-dereference"; owner_spec attr; lit "--"; path]);
      wif (lthere x && touch) (sh [lit "touch"; lit "--no-dereference"; lit "--"; path])
    else wif (lthere x) (sh [lit "rm"; lit "--"; path]).
  Definition link_body (path target : pystr) (present touch : bool) (attr : settings) : W opres :=
    st ← stat path false false;
    let f := link_goal present target attr touch in
    match st with
    | Some x => if negb (str_eqb (st_type x) (lit "link"))
                then mret (OpRes false false [] f (Some (lit "path '" ++ path ++ lit "' exists but is not a link!")))
                else
                  r ← crun exec sha512 [lit "readlink"; lit "-n"; path];
                  t ← decoded (cr_stdout r);
                  conclude (link_report (Some (x, t))) f (link_work path target present touch attr (Some (x, t)))
    | None => conclude (link_report None) f (link_work path target present touch attr None)
    end.
  Definition check_target (target : pystr) : W unit :=
    match target with [] => wraise (ValueError (lit "Link target cannot be empty")) | _ => mret tt end.
  Lemma link_plain path target present touch owner group :
    yields (link exec sha512 dry path target present touch owner group) new_op
      (_ ← check_absolute_path path; _ ← check_target target; script_defaults (want owner group None None) (link_body path target present touch)).
  Proof.
    eapply yields_bind; [apply keeps_lift|]. intros [].
    eapply yields_bind. { unfold check_target. destruct target; [apply keeps_raise|apply keeps_ret]. } intros [].
    apply yields_defaults. intros attr. unfold new_op. apply yields_final.
    eapply yields_bind; [apply keeps_lift|]. intros st.
    assert (Hwork : forall x ds, keeps (if dry then mret tt
               else if present then
                 _ ← when (changed s_target) (sh [lit "ln"; lit "-sf"; lit "--"; target; path]);
                 _ ← when (either (changed k_owner) (changed k_group))
                       (sh [lit "chown"; lit "--no-dereference"; owner_spec attr; lit "--"; path]);
                 when (both (nope (changed s_exists)) (changed s_touched)) (sh [lit "touch"; lit "--no-dereference"; lit "--"; path])
               else when (changed s_exists) (sh [lit "rm"; lit "--"; path]))
      (Op false (Some (link_report x)) (Some (link_goal present target attr touch)) ds) (link_work path target present touch attr x)).
    { intros x ds. unfold link_work. destruct dry; [apply keeps_ret|]. rewrite link_report_eq. unfold link_goal. destruct present.
      - eapply keeps_bind; [|intros []; eapply keeps_bind; [|intros []]].
        + apply keeps_when, ls_target.
        + apply keeps_when, keeps_either; [apply ls_owner|apply ls_group].
        + eapply keeps_ext; [apply keeps_when, keeps_both; [apply keeps_nope, ls_exists|apply ls_touched]|].
          destruct (lthere x), touch; reflexivity.
      - eapply keeps_ext; [apply keeps_when, ls_exists|]. destruct (lthere x); reflexivity. }
    destruct st as [st|].
    - destruct (negb (str_eqb (st_type st) (lit "link"))); [apply yields_failure|].
      eapply yields_bind; [apply keeps_lift|]. intros r. eapply yields_bind; [apply keeps_lift|]. intros t.
      apply yields_initial. exact (yields_conclude (link_report (Some (st, t))) _ _ _ _ (Hwork (Some (st, t)) _)).
    - apply yields_initial. exact (yields_conclude (link_report None) _ _ _ _ (Hwork None _)).
  Qed.

  (** *** contents *)
  Lemma cs_exists e m o g (t : option bytes) e' m' o' g' t' ds :
    keeps (changed s_exists) (Op false (Some (content_state e m o g t)) (Some (content_state e' m' o' g' t')) ds) (mret (negb (Bool.eqb e e'))).
  Proof. refine (keeps_changed s_exists (content_state e m o g t) (content_state e' m' o' g' t') ds (VBool e) (VBool e') _ _); reflexivity. Qed.
  Lemma cs_mode e m o g (t : option bytes) e' m' o' g' t' ds :
    keeps (changed s_mode) (Op false (Some (content_state e m o g t)) (Some (content_state e' m' o' g' t')) ds) (mret (differ m m')).
  Proof. refine (keeps_changed s_mode (content_state e m o g t) (content_state e' m' o' g' t') ds (vopt m) (vopt m') _ _); reflexivity. Qed.
  Lemma cs_owner e m o g (t : option bytes) e' m' o' g' t' ds :
    keeps (changed k_owner) (Op false (Some (content_state e m o g t)) (Some (content_state e' m' o' g' t')) ds) (mret (differ o o')).
  Proof. refine (keeps_changed k_owner (content_state e m o g t) (content_state e' m' o' g' t') ds (vopt o) (vopt o') _ _); reflexivity. Qed.
  Lemma cs_group e m o g (t : option bytes) e' m' o' g' t' ds :
    keeps (changed k_group) (Op false (Some (content_state e m o g t)) (Some (content_state e' m' o' g' t')) ds) (mret (differ g g')).
  Proof. refine (keeps_changed k_group (content_state e m o g t) (content_state e' m' o' g' t') ds (vopt g) (vopt g') _ _); reflexivity. Qed.
  Definition bdiffer (a b : option bytes) : bool := negb (py_eq (vbytes a) (vbytes b)).
  Lemma bdiffer_spec a b : reflect (a <> b) (bdiffer a b).
  Proof.
    unfold bdiffer. destruct a as [a|], b as [b|]; cbn; try (constructor; congruence). destruct (bool_decide_reflect (a = b)); constructor; congruence.
  Qed.
  Lemma cs_sha e m o g (t : option bytes) e' m' o' g' t' ds :
    keeps (changed s_sha) (Op false (Some (content_state e m o g t)) (Some (content_state e' m' o' g' t')) ds) (mret (bdiffer t t')).
  Proof. refine (keeps_changed s_sha (content_state e m o g t) (content_state e' m' o' g' t') ds (vbytes t) (vbytes t') _ _); reflexivity. Qed.
  Lemma content_state_eq e m o g (t : option bytes) e' m' o' g' t' : py_eq (VDict (content_state e m o g t)) (VDict (content_state e' m' o' g' t')) =
    Bool.eqb e e' && negb (differ m m') && negb (differ o o') && negb (differ g g') && negb (bdiffer t t').
  Proof.
    unfold differ, bdiffer. rewrite !negb_involutive. rewrite py_eq_dict. unfold content_state. cbn [length forallb fst snd Nat.eqb].
    change (dget s_exists _) with (Some (VBool e')). change (dget s_mode _) with (Some (vopt m')). change (dget k_owner _) with (Some (vopt o')).
    change (dget k_group _) with (Some (vopt g')). change (dget s_sha _) with (Some (vbytes t')). cbn [andb]. change (py_eq (VBool e) (VBool e')) with (Bool.eqb e e').
    rewrite andb_true_r, !andb_assoc. reflexivity.
  Qed.
  Definition seen_sha (st : option statres) : option bytes := st ≫= st_sha.
  Definition content_report (st : option statres) : state := content_state (there st) (seen_mode st) (seen_owner st) (seen_group st) (seen_sha st).
  Definition content_goal (content : bytes) (attr : settings) : state := content_state true (s_file_mode attr) (s_owner attr) (s_group attr) (Some (sha512 content)).
  Definition content_work (content : bytes) (dest : pystr) (attr : settings) (st : option statres) : W unit :=
    _ ← (if want_diff then _ ← download_or exec sha512 dest None; mret tt else mret tt);
    if dry then mret tt
    else if negb (there st) || bdiffer (seen_sha st) (Some (sha512 content))
         then upload exec sha512 dest content (s_file_mode attr) (s_owner attr) (s_group attr)
         else
           _ ← wif (differ (seen_mode st) (s_file_mode attr)) (chmod_to dest (s_file_mode attr));
           wif (differ (seen_owner st) (s_owner attr) || differ (seen_group st) (s_group attr)) (chown_to dest attr).
  Definition content_body (content : bytes) (dest : pystr) (attr : settings) : W opres :=
    st ← stat dest false true;
    let f := content_goal content attr in
    match st with
    | Some x => if negb (str_eqb (st_type x) (lit "file"))
                then mret (OpRes false false [] f (Some (lit "path '" ++ dest ++ lit "' exists but is not a file!")))
                else conclude (content_report st) f (content_work content dest attr st)
    | None => conclude (content_report st) f (content_work content dest attr st)
    end.
  Lemma yields_conclude' (i f : state) ds (k1 : O unit) (k2 : O unit) w :
    yields (_ ← k1; _ ← k2; success) (Op false (Some i) (Some f) ds) (_ ← w; mret (OpRes true (negb (py_eq (VDict i) (VDict f))) i f None)) ->
    yields (u ← unchanged false; if u : bool then success else _ ← k1; _ ← k2; success) (Op false (Some i) (Some f) ds) (conclude i f w).
  Proof.
    intros H. eapply yields_pure; [apply keeps_unchanged|]. unfold conclude. destruct (py_eq (VDict i) (VDict f)) eqn:E.
    - eapply yields_ext; [apply keeps_yields, keeps_success|]. rewrite E. reflexivity.
    - exact H.
  Qed.
  Lemma save_plain content dest mode owner group :
    yields (save_content exec sha512 dry want_diff content dest mode owner group) new_op
      (script_defaults (want owner group mode None) (content_body content dest)).
  Proof.
    apply yields_defaults. intros attr. unfold new_op. apply yields_final.
    eapply yields_bind; [apply keeps_lift|]. intros st.
    assert (Hwork : forall ds, yields (_ ← (if want_diff then d ← olift (download_or exec sha512 dest None); diff dest d (Some content) else mret tt);
          _ ← (if dry then mret tt
               else
                 x ← either (changed s_exists) (changed s_sha);
                 if x : bool then olift (upload exec sha512 dest content (s_file_mode attr) (s_owner attr) (s_group attr))
                 else
                   _ ← when (changed s_mode) (arg (s_file_mode attr) (fun m => crun exec sha512 [lit "chmod"; m; lit "--"; dest]));
                   when (either (changed k_owner) (changed k_group)) (sh [lit "chown"; owner_spec attr; lit "--"; dest]));
          success) (Op false (Some (content_report st)) (Some (content_goal content attr)) ds)
        (_ ← content_work content dest attr st; mret (OpRes true (negb (py_eq (VDict (content_report st)) (VDict (content_goal content attr)))) (content_report st) (content_goal content attr) None))).
    { intros ds.
      set (rest := if dry then mret tt
           else if negb (there st) || bdiffer (seen_sha st) (Some (sha512 content))
                then upload exec sha512 dest content (s_file_mode attr) (s_owner attr) (s_group attr)
                else
                  _ ← wif (differ (seen_mode st) (s_file_mode attr)) (chmod_to dest (s_file_mode attr));
                  wif (differ (seen_owner st) (s_owner attr) || differ (seen_group st) (s_group attr)) (chown_to dest attr)).
      assert (Hrest : forall ds, yields (_ ← (if dry then mret tt
               else
                 x ← either (changed s_exists) (changed s_sha);
                 if x : bool then olift (upload exec sha512 dest content (s_file_mode attr) (s_owner attr) (s_group attr))
                 else
                   _ ← when (changed s_mode) (arg (s_file_mode attr) (fun m => crun exec sha512 [lit "chmod"; m; lit "--"; dest]));
                   when (either (changed k_owner) (changed k_group)) (sh [lit "chown"; owner_spec attr; lit "--"; dest]));
          success) (Op false (Some (content_report st)) (Some (content_goal content attr)) ds)
        (_ ← rest; mret (OpRes true (negb (py_eq (VDict (content_report st)) (VDict (content_goal content attr)))) (content_report st) (content_goal content attr) None))).
      { intros ds'. eapply yields_bind; [|intros []; apply keeps_yields, keeps_success]. subst rest. destruct dry; [apply keeps_ret|].
        unfold content_report, content_goal. eapply keeps_pure; [apply keeps_either; [apply cs_exists|apply cs_sha]|].
        replace (negb (Bool.eqb (there st) true)) with (negb (there st)) by (destruct (there st); reflexivity).
        destruct (negb (there st) || bdiffer (seen_sha st) (Some (sha512 content))); [apply keeps_lift|].
        eapply keeps_bind; [|intros []].
        - apply keeps_when, cs_mode.
        - apply keeps_when, keeps_either; [apply cs_owner|apply cs_group]. }
      unfold content_work. fold rest. destruct want_diff.
      - eapply yields_ext.
        + apply yields_assoc. eapply yields_bind; [apply keeps_lift|]. intros d. apply yields_diff. exact Hrest.
        + intros c. unfold mbind, W_bind. destruct (download_or exec sha512 dest None c) as [[d|e] c1]; reflexivity.
      - intros c. specialize (Hrest ds c). exact Hrest. }
    destruct st as [x|].
    - destruct (negb (str_eqb (st_type x) (lit "file"))); [apply yields_failure|]. apply yields_initial, yields_conclude', Hwork.
    - apply yields_initial, yields_conclude', Hwork.
  Qed.
End plain.
