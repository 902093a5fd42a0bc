(** C41, C42: all operations, tried (--dry). *)
From Coq Require Import Lia ZifyBool ZifyN ZifyNat.
From stdpp Require Import gmap.
From Verif Require Import Base Utf8 Dict_proofs Codec Spec_Codec Paths Sys Spec_Sys Sys_proofs Dispatcher Client Spec_Session Spec_Remote Remote_run Control Spec_Control Control_proofs
  Remote_safe Remote_proofs Walk_proofs Quiet Op Op_proofs Coreutils Files Files_plain Spec_Files Shell_proofs Steps Dry_proofs Dry_files Remote_examples Files_examples Prop_Control Prop_Files Prop_Dry System Spec_Commands Commands_proofs Package_proofs Prop_Package
  Dry_system Spec_Account Spec_Service Spec_Git Git_proofs Git_prog Prop_Git.
Local Open Scope nat_scope.

(** ** Specification *)
(** A call of any operation of fora.operations (except local.script, which runs another script), with its arguments. *)
Inductive call :=
| OnFile (k : file_call)
| UploadDir (tree : option ltree) (src dest : pystr) (dir_mode file_mode owner group : option pystr)
| User (name : pystr) (present : bool) (uid : option Z) (group : option pystr) (groups : option (list pystr)) (append_groups system : bool) (password_hash home shell comment : option pystr)
| Group (name : pystr) (present : bool) (gid : option Z) (system : bool)
| Pacman (packages : list pystr) (present : bool) (opts : option (list pystr))
| Portage (packages : list pystr) (present oneshot : bool) (opts : option (list pystr))
| Apt (packages : list pystr) (present : bool) (opts : option (list pystr))
| Package (packages : list pystr) (present : bool)
| Unit (name : pystr) (state : option pystr) (enabled : option bool) (user_mode : bool)
| Service (name : pystr) (state : option pystr) (enabled : option bool)
| Reload (user_mode : bool)
| Repo (url path : pystr) (branch : option pystr) (update : bool) (depth : option Z) (rebase ff_only submodules recursive shallow : bool).

(** The commands that it may run to find out about the remote. *)
Definition dpkg_ask (p : pystr) : list pystr := [lit "dpgk-query"; lit "--show"; lit "--showformat=${Status}"; lit "--"; p].
Definition which_package_manager : list pystr := [lit "bash"; lit "-c";
  lit "{ type &>/dev/null apt-get && echo apt-get ; } || { type &>/dev/null pacman && echo pacman ; } || { type &>/dev/null emerge && echo emerge ; } || echo __unknown__"].
Definition which_service_manager : list pystr := [lit "bash"; lit "-c"; lit "{ type &>/dev/null systemctl && echo systemctl ; } || echo __unknown__"].
Definition questions (k : call) (cmd : list pystr) : Prop :=
  match k with
  | OnFile k => probes k cmd
  | UploadDir _ _ _ _ _ _ _ | User _ _ _ _ _ _ _ _ _ _ _ | Group _ _ _ _ | Reload _ => False
  | Pacman ps _ _ => exists p, p ∈ ps /\ cmd = pacman_ask p
  | Portage ps _ _ _ => exists p, p ∈ ps /\ cmd = emerge_ask p
  | Apt ps _ _ => exists p, p ∈ ps /\ cmd = dpkg_ask p
  | Package ps _ => cmd = which_package_manager \/ exists p, p ∈ ps /\ (cmd = pacman_ask p \/ cmd = emerge_ask p \/ cmd = dpkg_ask p)
  | Unit name _ _ _ => cmd = show_cmd false (lit "ActiveState") name \/ cmd = show_cmd false (lit "UnitFileState") name
  | Service name _ _ => cmd = which_service_manager \/ cmd = show_cmd false (lit "ActiveState") name \/ cmd = show_cmd false (lit "UnitFileState") name
  | Repo url path branch _ _ _ _ _ _ _ => cmd = git_head path \/ cmd = git_list url (match branch with Some ((_ :: _) as b) => b | _ => lit "HEAD" end)
  end.

Section tried.
  Variable exec : proc -> M xres.
  Variable sha512 : bytes -> bytes.
  Variable want_diff : bool.
  Variable search : bool -> pystr -> pystr -> result bool.
  Variable date : pystr.
  Variable set_order : list pystr -> list pystr.

  Definition call_op (dry : bool) (a : check_arg) (k : call) : W opres :=
    match k with
    | OnFile k => operation a (perform exec sha512 want_diff search date dry k)
    | UploadDir t s d dm fm o g => operation a (upload_dir exec sha512 dry want_diff t s d dm fm o g)
    | User u p i g gs ap sy h ho sh co => operation a (user exec sha512 dry u p i g gs ap sy h ho sh co)
    | Group g p i sy => operation a (System.group exec sha512 dry g p i sy)
    | Pacman ps p o => operation a (pacman_package exec sha512 dry set_order ps p o)
    | Portage ps p one o => operation a (portage_package exec sha512 dry set_order ps p one o)
    | Apt ps p o => operation a (apt_package exec sha512 dry set_order ps p o)
    | Package ps p => package exec sha512 dry set_order ps p a
    | Unit n s e u => operation a (service exec sha512 dry n s e u)
    | Service n s e => system_service exec sha512 dry n s e a
    | Reload u => operation a (daemon_reload exec sha512 dry u)
    | Repo url p b up d r ff s rec sh => operation a (repo exec sha512 dry url p b up d r ff s rec sh)
    end.

  Lemma with_manager_eq ms e c : with_manager exec sha512 ms e c =
    match crun exec sha512 [lit "bash"; lit "-c"; probe_script ms.*1] c with
    | (Ok z, c1) => match dget (out_ignore z) ms with Some m => m c1 | None => (Err (OperationError e), c1) end
    | (Err x, c1) => (Err x, c1)
    end.
  Proof.
    unfold with_manager, find_command, mbind, W_bind. destruct (crun exec sha512 _ c) as [[z|x] c1]; [|reflexivity]. cbn. destruct (dget (out_ignore z) ms); reflexivity.
  Qed.
  Lemma asks_manager (P : list pystr -> Prop) ms e : P [lit "bash"; lit "-c"; probe_script ms.*1] -> Forall (asks exec P) ms.*2 -> asks exec P (with_manager exec sha512 ms e).
  Proof.
    intros H1 H2 c r c' E. rewrite with_manager_eq in E. destruct (crun exec sha512 _ c) as [x c1] eqn:E1.
    destruct (asks_crun exec sha512 P _ H1 _ _ _ E1) as (l1 & L1 & L2). destruct x as [z|x]; [|injection E as <- <-; eauto].
    destruct (dget (out_ignore z) ms) as [m|] eqn:Em; [|injection E as <- <-; eauto]. rewrite Forall_forall in H2.
    assert (Hm : m ∈ ms.*2) by (apply elem_of_list_fmap; exists (out_ignore z, m); split; [reflexivity|apply dget_Some_in; exact Em]).
    destruct (H2 m Hm _ _ _ E) as (l2 & L3 & L4). exists (l1 ++ l2). split; [eapply history_app; eassumption|apply Forall_app; auto].
  Qed.
  Lemma asks_packages packages present opts oneshot P : (forall p, p ∈ packages -> P (pacman_ask p) /\ P (emerge_ask p) /\ P (dpkg_ask p)) ->
    oasks exec P (pacman_package exec sha512 true set_order packages present opts) /\ oasks exec P (portage_package exec sha512 true set_order packages present oneshot opts) /\
    oasks exec P (apt_package exec sha512 true set_order packages present opts).
  Proof.
    intros H. split_and!; apply asks_generic; intros p Hp; destruct (H p Hp) as (H1 & H2 & H3); (apply asks_bind; [apply asks_run; assumption|intros; apply asks_quiet, quiet_ret]).
  Qed.

  (** C41.  Whatever the state, the faults and the outcome: the only commands that a dry run makes the remote run are the listed
      questions.  Apart from what these do, nothing on the remote is touched. *)
  Theorem C41_dry a k c r c' : call_op true a k c = (r, c') -> exists l, history exec (sysof c) l (sysof c') /\ Forall (questions k) l.
  Proof.
    revert c r c'. change (asks exec (questions k) (call_op true a k)). destruct k; cbn [call_op].
    - apply asks_operation. destruct k; cbn [perform].
      + apply oasks_quiet, dry_directory. + apply oasks_quiet, dry_file. + apply asks_link. reflexivity. + apply oasks_quiet, dry_upload_content. + apply oasks_quiet, dry_upload_file.
      + apply oasks_quiet, dry_template_content. + apply oasks_quiet, dry_template. + apply oasks_quiet, dry_line.
    - apply asks_operation, oasks_quiet, dry_upload_dir.
    - apply asks_operation, asks_user.
    - apply asks_operation, asks_group.
    - apply asks_operation, asks_generic. intros p Hp. apply asks_bind; [apply asks_run; exists p; auto|intros; apply asks_quiet, quiet_ret].
    - apply asks_operation, asks_generic. intros p Hp. apply asks_bind; [apply asks_run; exists p; auto|intros; apply asks_quiet, quiet_ret].
    - apply asks_operation, asks_generic. intros p Hp. apply asks_bind; [apply asks_run; exists p; auto|intros; apply asks_quiet, quiet_ret].
    - assert (Hp : forall p, p ∈ packages -> let P := questions (Package packages present) in P (pacman_ask p) /\ P (emerge_ask p) /\ P (dpkg_ask p)) by (intros p Hp; split_and!; right; exists p; auto).
      destruct (asks_packages packages present None false _ Hp) as (H1 & H2 & H3).
      apply asks_manager; [left; vm_compute; reflexivity|]. repeat constructor; apply asks_operation; assumption.
    - apply asks_operation, asks_service; [left; reflexivity|right; reflexivity].
    - apply asks_manager; [left; vm_compute; reflexivity|]. repeat constructor. apply asks_operation, asks_service; right; [left|right]; reflexivity.
    - apply asks_operation, asks_reload.
    - apply asks_operation, asks_repo; [left; reflexivity|right]. destruct branch as [[|]|]; reflexivity.
  Qed.
  (** If asking changes nothing, a dry run changes nothing. *)
  Theorem C41_unaffected a k c r c' : (forall cmd, questions k cmd -> harmless exec cmd) -> call_op true a k c = (r, c') -> unaffected (sysof c) (sysof c').
  Proof. intros Hq E. apply C41_dry in E as (l & H1 & H2). eapply history_harmless; eassumption. Qed.

  (** C42, for all operations but upload_dir.  Full statement: without the last condition.  If the real run succeeds, the dry run from the same state returns the same result. *)
  Definition single (k : call) : Prop := match k with UploadDir _ _ _ _ _ _ _ => False | _ => True end.
  Lemma foresees_manager (ms ms' : list (pystr * W opres)) e c r c' : ms.*1 = ms'.*1 -> (forall x m m', dget x ms = Some m -> dget x ms' = Some m' -> forall c r c', m c = (Ok r, c') -> or_success r = true -> exists c2, m' c = (Ok r, c2)) ->
    with_manager exec sha512 ms e c = (Ok r, c') -> or_success r = true -> exists c2, with_manager exec sha512 ms' e c = (Ok r, c2).
  Proof.
    intros Hk Hm E Hr. rewrite (with_manager_eq ms) in E. rewrite (with_manager_eq ms'). rewrite <- Hk. destruct (crun exec sha512 _ c) as [[z|x] c1]; [|discriminate].
    destruct (dget (out_ignore z) ms) as [m|] eqn:Em; [|discriminate]. destruct (dget (out_ignore z) ms') as [m'|] eqn:Em'; [eapply Hm; eassumption|].
    apply dget_None in Em'. apply dget_Some_in in Em. exfalso. apply Em'. rewrite <- Hk. apply elem_of_list_fmap. exists (out_ignore z, m). auto.
  Qed.
  Lemma foresees_predicts real dry : predicts real dry -> foresees real dry.
  Proof. intros H o c x c' E _. exact (H _ _ _ _ E). Qed.
  Theorem C42_predict_partial a k c r c' : single k -> call_op false a k c = (Ok r, c') -> or_success r = true -> exists c2, call_op true a k c = (Ok r, c2).
  Proof.
    assert (Ho : forall real dry c r c', foresees real dry -> operation a real c = (Ok r, c') -> or_success r = true -> exists c2, operation a dry c = (Ok r, c2))
      by (intros real dry c0 r0 c0' H E Hr; destruct (foresees_operation a real dry _ _ _ H E Hr) as [v Hv]; eauto).
    intros Hs. destruct k; cbn [call_op]; try contradiction.
    - intros E _. exact (C42_files_predict_partial exec sha512 want_diff search date k a c r c' E).
    - apply Ho, foresees_predicts, predicts_user.
    - apply Ho, foresees_predicts, predicts_group.
    - apply Ho, foresees_predicts, (predicts_packages _ _ _ packages present opts false).
    - apply Ho, foresees_predicts, (predicts_packages _ _ _ packages present opts oneshot).
    - apply Ho, foresees_predicts, (predicts_packages _ _ _ packages present opts false).
    - apply foresees_manager; [reflexivity|]. intros x m m' H1 H2. destruct (predicts_packages exec sha512 set_order packages present None false) as (P1 & P2 & P3).
      cbn [dget] in H1, H2. repeat (match type of H1 with (if ?b then _ else _) = _ => destruct b end; [injection H1 as <-; injection H2 as <-; intros c0 r0 c0'; apply Ho, foresees_predicts; assumption|]). discriminate.
    - apply Ho, foresees_predicts, predicts_service.
    - apply foresees_manager; [reflexivity|]. intros x m m' H1 H2. cbn [dget] in H1, H2.
      match type of H1 with (if ?b then _ else _) = _ => destruct b end; [injection H1 as <-; injection H2 as <-; intros c0 r0 c0'; apply Ho, foresees_predicts, predicts_service|discriminate].
    - apply Ho, foresees_predicts, predicts_reload.
    - apply Ho, foresees_repo.
  Qed.
End tried.
Print Assumptions C41_dry.
Print Assumptions C41_unaffected.
Print Assumptions C42_predict_partial.

(** ** Examples *)
Definition on_repo (branch : option pystr) : call := Repo ex_url p_co branch true None false true true true false.
Definition tried (dry : bool) (k : call) : ctl -> result opres * ctl := call_op gitx fake_hash false (fun _ _ _ => Ok false) (lit "d") (fun l => l) dry NotGiven k.
Lemma git_asks cmd : questions (on_repo (Some b_dev)) cmd -> harmless gitx cmd.
Proof.
  intros H p s Hp. destruct (gitx p s) as [x s'] eqn:E. cbn. destruct H as [-> | ->].
  - apply (g_head _ _ _ _ (git_ok ex_server) p s x s' p_co Hp E).
  - apply (g_list _ _ _ _ (git_ok ex_server) p s x s' ex_url b_dev Hp E).
Qed.
(** A repository would be cloned, a checkout updated; and an account added. *)
Example C41_case : (forall cmd, questions (on_repo (Some b_dev)) cmd -> harmless gitx cmd) /\
  or_success (result_of (tried true (on_repo (Some b_dev)) on_site)) = true /\ or_changed (result_of (tried true (on_repo (Some b_dev)) on_site)) = true /\
  srv_checkout (sysof (snd (tried true (on_repo (Some b_dev)) on_site))) p_co = None /\
  result_of (tried false (on_repo (Some b_dev)) on_site) = result_of (tried true (on_repo (Some b_dev)) on_site) /\
  srv_checkout (sysof (snd (tried false (on_repo (Some b_dev)) on_site))) p_co <> None /\
  or_changed (result_of (tried true (on_repo (Some b_dev)) (later co2))) = true /\
  srv_checkout (sysof (snd (tried true (on_repo (Some b_dev)) (later co2)))) p_co = Some (Work ex_url (Some (heads b_dev)) (lit "d1")) /\
  result_of (tried false (on_repo (Some b_dev)) (later co2)) = result_of (tried true (on_repo (Some b_dev)) (later co2)) /\
  or_changed (result_of (tried true (User (lit "new") true None None None false false None None None None) on_site)) = true /\
  (forall cmd, ~ questions (User (lit "new") true None None None false false None None None None) cmd).
Proof.
  split; [exact git_asks|]. split; [vm_compute; reflexivity|]. split; [vm_compute; reflexivity|]. split; [vm_compute; reflexivity|]. split; [vm_compute; reflexivity|].
  split; [vm_compute; discriminate|]. split; [vm_compute; reflexivity|]. split; [vm_compute; reflexivity|]. split; [vm_compute; reflexivity|]. split; [vm_compute; reflexivity|]. intros cmd [].
Qed.
(** Where the real run reports a failure the dry run may report success: git.repo looks at the url of a checkout only in real runs. *)
Definition other_site : os := set_fs (dirs p_co site_fs) (set_env [(k_origin p_co, lit "https://other/repo"); (k_at p_co, lit "x")] site).
Definition on_other : ctl := on other_site ex_base.
Definition other_run (dry : bool) := operation (Keyword false) (repo gitx fake_hash dry ex_url p_co None true None false true true true false) on_other.
Theorem C42_failing_refuted : exists exec up checkout behind url path c x y c1 c2, bounded exec /\ git_program exec up checkout behind /\ fine c /\
  operation (Keyword false) (repo exec fake_hash false url path None true None false true true true false) c = (Ok x, c1) /\ or_success x = false /\
  operation (Keyword false) (repo exec fake_hash true url path None true None false true true true false) c = (Ok y, c2) /\ or_success y = true.
Proof.
  exists gitx, gup, srv_checkout, (fun _ _ => True), ex_url, p_co, on_other, (result_of (other_run false)), (result_of (other_run true)), (snd (other_run false)), (snd (other_run true)).
  split; [apply git_bounded|]. split; [apply git_ok|]. split; [exact co_fine|].
  assert (H : forall y : result opres * ctl, (match fst y with Ok _ => true | Err _ => false end) = true -> y = (Ok (result_of y), snd y)) by (intros [[?|?] ?]; [reflexivity|discriminate]).
  split; [apply (H (other_run false)); vm_compute; reflexivity|]. split; [vm_compute; reflexivity|]. split; [apply (H (other_run true)); vm_compute; reflexivity|]. vm_compute. reflexivity.
Qed.
Print Assumptions C42_failing_refuted.
