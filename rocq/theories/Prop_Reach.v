(** C85, C86: the commands that operations run, for all operations at once (Prop_Footprint.v has them one by one). *)
From stdpp Require Import gmap.
From Verif Require Import Base Dict_proofs Codec Paths Sys Dispatcher Client Control Prop_Control Op Coreutils Files Remote_examples Files_examples Prop_Dry System Prop_Tried
  Spec_Footprint Footprint_proofs Prop_Footprint.

(** ** Specification *)
(** What a call may run: to ask, and, unless it is only tried, to act. *)
Definition file_footprint (dry : bool) (k : file_call) (argv : list pystr) : Prop :=
  match k with
  | CDirectory path present _ mode _ _ => unless dry (directory_runs path present mode) argv
  | CFile path present _ mode _ _ => unless dry (file_runs path present mode) argv
  | CLink path target present _ _ _ => one_or (link_asks path) (unless dry (link_runs path target present)) argv
  | CUploadContent _ dest mode _ _ | CTemplateContent _ _ dest mode _ _ => unless dry (content_runs dest mode) argv
  | CUpload _ _ dest mode _ _ | CTemplate _ _ _ dest mode _ _ => exists d, lands dest d /\ unless dry (content_runs d mode) argv
  | CLine path _ _ _ _ _ => unless dry (line_runs path) argv
  end.
Definition footprint (dry : bool) (k : call) (argv : list pystr) : Prop :=
  match k with
  | OnFile k => file_footprint dry k argv
  | UploadDir _ _ _ dm fm _ _ => unless dry (tree_runs dm fm) argv
  | User name present uid group _ _ _ hash home shell comment => unless dry (user_runs (wanted_uid uid) group comment home shell hash name present) argv
  | Group name present gid _ => unless dry (group_runs name present (wanted_uid gid)) argv
  | Pacman ps present opts => pacman_runs dry ps present (default [] opts) argv
  | Portage ps present oneshot opts => portage_runs dry ps present oneshot (default [] opts) argv
  | Apt ps present opts => apt_runs dry ps present (default [] opts) argv
  | Package ps present => one_or detects_package (one_or (apt_runs dry ps present []) (one_or (pacman_runs dry ps present []) (portage_runs dry ps present false []))) argv
  | Unit name target enabled user_mode => one_or (service_asks name) (unless dry (service_runs name target enabled user_mode)) argv
  | Service name target enabled => one_or detects_service (one_or (service_asks name) (unless dry (service_runs name target enabled false))) argv
  | Reload user_mode => unless dry (reload_runs user_mode) argv
  | Repo url path branch _ depth rebase ff_only submodules recursive _ =>
      one_or (repo_asks url path branch) (unless dry (repo_runs url path branch (str_of_Z <$> depth) rebase ff_only submodules recursive)) argv
  end.
(** options for the package manager that the user gives *)
Definition options (k : call) : list pystr := match k with Pacman _ _ o | Portage _ _ _ o | Apt _ _ o => default [] o | _ => [] end.
(** Is something to be gone? *)
Definition removing (k : call) : bool :=
  match k with
  | OnFile (CDirectory _ present _ _ _ _) | OnFile (CFile _ present _ _ _ _) | OnFile (CLink _ _ present _ _ _)
  | User _ present _ _ _ _ _ _ _ _ _ | Group _ present _ _ | Pacman _ present _ | Portage _ present _ _ | Apt _ present _ | Package _ present => negb present
  | _ => false
  end.
Definition packages (k : call) : list pystr := match k with Pacman ps _ _ | Portage ps _ _ _ | Apt ps _ _ | Package ps _ => ps | _ => [] end.
(** Programs that only look *)
Definition looks (argv : list pystr) : Prop :=
  detects_package argv \/ detects_service argv \/ exists program opts operands, invokes program opts operands argv /\
    (program = "readlink"%string \/ program = "dpgk-query"%string \/ (program = "pacman"%string /\ opts = [flag "-Ql"]) \/ (program = "emerge"%string /\ opts = [flag "--info"]) \/
     (program = "systemctl"%string /\ head operands = Some (lit "show")) \/
     (program = "git"%string /\ (head operands = Some (lit "rev-parse") \/ head operands = Some (lit "ls-remote")))).

Section reach.
  Variable sha512 : bytes -> bytes.
  Variable want_diff : bool.
  Variable search : bool -> pystr -> pystr -> result bool.
  Variable date : pystr.
  Variable set_order : list pystr -> list pystr.
  Hypothesis Horder : forall l, set_order l ≡ₚ l.
  Notation runs dry a k := (fun exec => call_op exec sha512 want_diff search date set_order dry a k).

  (** C85: a call runs the commands of its footprint and no others, whatever the values it is given, whatever the remote answers
      and however the call ends. *)
  Theorem C85_commands_partial dry a k : Forall alone (options k) -> only_runs (footprint dry k) (runs dry a k).
  Proof.
    intros Ho. destruct k as [[]| | | | | | | | | | |]; cbn [call_op perform options] in *.
    - apply C85_directory.
    - apply C85_file.
    - apply C85_link.
    - apply C85_upload_content.
    - destruct (C85_upload sha512 dry want_diff a content src dest mode owner group) as (d & Hd & H).
      refine (only_runs_more _ _ _ _ H). intros argv K. exists d. auto.
    - apply C85_template_content.
    - destruct (C85_template sha512 dry want_diff a render content src dest mode owner group) as (d & Hd & H).
      refine (only_runs_more _ _ _ _ H). intros argv K. exists d. auto.
    - apply C85_line.
    - apply C85_upload_dir.
    - apply C85_user.
    - apply C85_group.
    - apply C85_pacman; assumption.
    - apply C85_portage; assumption.
    - apply C85_apt; assumption.
    - apply C85_package; assumption.
    - apply (C85_service sha512 dry search date).
    - apply (C85_system_service sha512 dry search date).
    - apply C85_daemon_reload.
    - apply C85_repo.
  Qed.

  (** In a dry run it is only programs that look. *)
  Lemma tried_looks k argv : footprint true k argv -> looks argv.
  Proof.
    assert (U : forall P, unless true P argv -> looks argv) by (intros P [[=] _]).
    assert (Hp : forall ps present opts, pacman_runs true ps present opts argv -> looks argv).
    { intros ps present opts (p & _ & [H|H]); [|exact (U _ H)]. right; right. eexists _, _, _. split; [exact H|]. auto 10. }
    assert (Ha : forall ps present opts, apt_runs true ps present opts argv -> looks argv).
    { intros ps present opts (p & _ & [H|H]); [|exact (U _ H)]. right; right. eexists _, _, _. split; [exact H|]. auto 10. }
    assert (He : forall ps present one opts, portage_runs true ps present one opts argv -> looks argv).
    { intros ps present one opts (p & _ & [H|H]); [|exact (U _ H)]. right; right. eexists _, _, _. split; [exact H|]. auto 10. }
    assert (Hs : forall name, service_asks name argv -> looks argv).
    { intros name (q & _ & H). right; right. eexists _, _, _. split; [exact H|]. right; right; right; right; left. auto. }
    intros H. destruct k as [[]| | | | | | | | | | |]; cbn [footprint file_footprint] in H; try exact (U _ H).
    - destruct H as [H|H]; [|exact (U _ H)]. right; right. eexists _, _, _. split; [exact H|]. auto 10.
    - destruct H as (d & _ & H). exact (U _ H).
    - destruct H as (d & _ & H). exact (U _ H).
    - exact (Hp _ _ _ H).
    - exact (He _ _ _ _ H).
    - exact (Ha _ _ _ H).
    - destruct H as [H|[H|[H|H]]]; [left; exact H|exact (Ha _ _ _ H)|exact (Hp _ _ _ H)|exact (He _ _ _ _ H)].
    - destruct H as [H|H]; [exact (Hs _ H)|exact (U _ H)].
    - destruct H as [H|[H|H]]; [right; left; exact H|exact (Hs _ H)|exact (U _ H)].
    - destruct H as [[H|(r & _ & H)]|H]; [| |exact (U _ H)]; right; right; eexists _, _, _; (split; [exact H|]); right; right; right; right; right; auto.
  Qed.
  Theorem C85_dry a k : Forall alone (options k) -> only_runs looks (runs true a k).
  Proof. intros Ho. refine (only_runs_more _ _ _ _ (C85_commands_partial true a k Ho)). apply tried_looks. Qed.

  (** The shell is only given two fixed texts, and things are taken away only if that is asked for. *)
  Definition starts (l : list string) (argv : list pystr) : Prop := exists p, p ∈ l /\ head argv = Some (lit p).
  Lemma starts_invokes l program opts operands argv : program ∈ l -> invokes program opts operands argv -> starts l argv.
  Proof. intros H (r & -> & _). exists program. auto. Qed.
  Lemma starts_sets l program opts path argv : program ∈ l -> sets program opts path argv -> starts l argv.
  Proof. intros H (x & K). destruct (dashed x); [exists program; split; [exact H|rewrite K; reflexivity]|exact (starts_invokes _ _ _ _ _ H K)]. Qed.
  Lemma starts_mode l mode path argv : "chmod"%string ∈ l -> sets_mode mode path argv -> starts l argv.
  Proof. intros H K. destruct mode; cbn [sets_mode] in K; [destruct K as (x & K); exact (starts_invokes _ _ _ _ _ H K)|exact (starts_sets _ _ _ _ _ H K)]. Qed.
  Definition acting : list string := ["mkdir"; "touch"; "chmod"; "chown"; "readlink"; "ln"; "cp"; "useradd"; "usermod"; "groupadd"; "groupmod"; "systemctl"; "git"]%string.
  Definition managers : list string := ["pacman"; "apt-get"; "emerge"; "dpgk-query"]%string.
  Definition deleting : list string := ["rm"; "userdel"; "groupdel"]%string.
  Ltac started := first [eapply starts_invokes; [|eassumption]; apply elem_of_list_In; cbn; tauto | eapply starts_sets; [|eassumption]; apply elem_of_list_In; cbn; tauto | eapply starts_mode; [|eassumption]; apply elem_of_list_In; cbn; tauto].
  Lemma directory_starts path present mode argv : directory_runs path present mode argv -> starts (if present then acting else deleting) argv.
  Proof. destruct present; cbn [directory_runs]; [intros [H|[H|[H|H]]]|intros H]; started. Qed.
  Lemma file_starts path present mode argv : file_runs path present mode argv -> starts (if present then acting else deleting) argv.
  Proof. destruct present; cbn [file_runs]; [intros [H|[H|H]]|intros H]; started. Qed.
  Lemma link_starts path target present argv : link_runs path target present argv -> starts (if present then acting else deleting) argv.
  Proof. destruct present; cbn [link_runs]; [intros [H|[H|H]]|intros H]; started. Qed.
  Lemma content_starts path mode argv : content_runs path mode argv -> starts acting argv.
  Proof. intros [H|H]; started. Qed.
  Definition manages (dry : bool) (k : call) (argv : list pystr) : Prop := exists oneshot,
    pacman_runs dry (packages k) (negb (removing k)) (options k) argv \/ apt_runs dry (packages k) (negb (removing k)) (options k) argv \/
    portage_runs dry (packages k) (negb (removing k)) oneshot (options k) argv.
  Lemma footprint_starts dry k argv : footprint dry k argv ->
    detects_package argv \/ detects_service argv \/ starts acting argv \/ (removing k = true /\ starts deleting argv) \/ manages dry k argv.
  Proof.
    assert (D : forall b : bool, starts (if b then acting else deleting) argv -> detects_package argv \/ detects_service argv \/ starts acting argv \/ (negb b = true /\ starts deleting argv) \/ manages dry k argv).
    { intros [|] H; [auto|]. right; right; right; left. auto. }
    assert (A : starts acting argv -> detects_package argv \/ detects_service argv \/ starts acting argv \/ (removing k = true /\ starts deleting argv) \/ manages dry k argv) by auto.
    assert (S : forall name, service_asks name argv -> starts acting argv) by (intros name (q & _ & H); started).
    assert (V : forall name t e u, service_runs name t e u argv -> starts acting argv) by (intros name t e u (v & H & _); started).
    intros H. destruct k as [[]| | | | | | | | | | |]; cbn [footprint file_footprint removing] in *.
    - destruct H as [_ H]. exact (D _ (directory_starts _ _ _ _ H)).
    - destruct H as [_ H]. exact (D _ (file_starts _ _ _ _ H)).
    - destruct H as [H|[_ H]]; [apply A; started|exact (D _ (link_starts _ _ _ _ H))].
    - destruct H as [_ H]. exact (A (content_starts _ _ _ H)).
    - destruct H as (d & _ & _ & H). exact (A (content_starts _ _ _ H)).
    - destruct H as [_ H]. exact (A (content_starts _ _ _ H)).
    - destruct H as (d & _ & _ & H). exact (A (content_starts _ _ _ H)).
    - destruct H as (_ & x & H). apply A. started.
    - destruct H as (_ & d & _ & [H|H]); [exact (A (directory_starts _ true _ _ H))|exact (A (content_starts _ _ _ H))].
    - destruct H as [_ H]. apply D. destruct present; cbn [user_runs] in H; [destruct H as [(o & _ & H)|(o & v & _ & H)]|]; started.
    - destruct H as [_ H]. apply D. destruct present; cbn [group_runs] in H; [destruct H as (v & _ & [H|[H|[H|[H|H]]]])|]; started.
    - right; right; right; right. exists false. left. cbn [packages removing options]. rewrite negb_involutive. exact H.
    - right; right; right; right. exists oneshot. right; right. cbn [packages removing options]. rewrite negb_involutive. exact H.
    - right; right; right; right. exists false. right; left. cbn [packages removing options]. rewrite negb_involutive. exact H.
    - destruct H as [H|H]; [auto|]. right; right; right; right. exists false. cbn [packages removing options]. rewrite negb_involutive. destruct H as [H|[H|H]]; auto.
    - destruct H as [H|[_ H]]; apply A; [exact (S _ H)|exact (V _ _ _ _ H)].
    - destruct H as [H|[H|[_ H]]]; [auto|apply A, (S _ H)|apply A, (V _ _ _ _ H)].
    - destruct H as [_ H]. apply A. started.
    - apply A. destruct H as [[H|(r & _ & H)]|[_ (o & _ & [H|[H|[[_ H]|H]]])]]; started.
  Qed.
  Lemma manages_starts dry k argv : manages dry k argv -> starts managers argv.
  Proof. intros (o & [H|[H|H]]); destruct H as (p & _ & [H|[_ H]]); started. Qed.
  Lemma starts_not l argv w : starts l argv -> head argv = Some w -> forallb (fun p => negb (str_eqb (lit p) w)) l = true -> False.
  Proof.
    intros (p & Hp & E) E2 H. rewrite E in E2. injection E2 as <-. rewrite forallb_forall in H. apply elem_of_list_In in Hp. specialize (H p Hp).
    rewrite str_eqb_refl in H. discriminate.
  Qed.
  Theorem C85_shell dry a k : Forall alone (options k) ->
    only_runs (fun argv => uses_shell argv -> detects_package argv \/ detects_service argv) (runs dry a k).
  Proof.
    intros Ho. refine (only_runs_more _ _ _ _ (C85_commands_partial dry a k Ho)). intros argv H (sh & S & E).
    destruct (footprint_starts _ _ _ H) as [K|[K|K]]; [auto|auto|]. exfalso.
    destruct S as [-> | ->]; (destruct K as [K|[[_ K]|K%manages_starts]]; refine (starts_not _ _ _ K E _); vm_compute; reflexivity).
  Qed.

  (** C86 *)
  Definition C86_statement : Prop := forall dry a k, removing k = false -> options k = [] -> only_runs (fun argv => ~ takes_away argv) (runs dry a k).
  Theorem C86_keeps_partial dry a k : removing k = false -> options k = [] -> Forall (fun p => last p <> Some 45%N) (packages k) ->
    only_runs (fun argv => ~ takes_away argv) (runs dry a k).
  Proof.
    intros Hr Ho Hp. refine (only_runs_more _ _ _ _ (C85_commands_partial dry a k _)); [|rewrite Ho; constructor].
    intros argv H (program & opts & operands & (rest & -> & R) & T). destruct (footprint_starts _ _ _ H) as [K|[K|[K|[[K _]|K]]]].
    - injection K as E _. destruct T as [->|[->|[->|[[-> _]|[[-> _]|[-> _]]]]]]; vm_compute in E; discriminate E.
    - injection K as E _. destruct T as [->|[->|[->|[[-> _]|[[-> _]|[-> _]]]]]]; vm_compute in E; discriminate E.
    - refine (starts_not _ _ _ K eq_refl _). destruct T as [->|[->|[->|[[-> _]|[[-> _]|[-> _]]]]]]; vm_compute; reflexivity.
    - congruence.
    - assert (T' : (program = "pacman"%string /\ Exists (fun o => exists r, fst o = lit "-R" ++ r) opts) \/
        (program = "apt-get"%string /\ (head operands = Some (lit "remove") \/ Exists (fun p => last p = Some 45%N) operands)) \/ (program = "emerge"%string /\ flag "--depclean" ∈ opts)).
      { destruct T as [T|[T|[T|T]]]; [| | |exact T]; exfalso; refine (starts_not _ _ _ (manages_starts _ _ _ K) eq_refl _); subst program; vm_compute; reflexivity. }
      clear T. destruct K as (one & K). rewrite Hr, Ho in K. cbn [negb] in K.
      destruct K as [(p & _ & [(r2 & E & R2)|(_ & r2 & E & R2)])|[(p & Hin & [(r2 & E & R2)|(_ & r2 & E & R2)])|(p & _ & [(r2 & E & R2)|(_ & r2 & E & R2)])]];
        injection E as E <-; rewrite R2 in R; injection R as <- <-;
        destruct T' as [[-> T]|[[-> T]|[-> T]]]; try (vm_compute in E; discriminate E); clear E.
      + apply Exists_cons in T as [(r & T)|T]; [vm_compute in T; discriminate T|]. inversion T.
      + cbn [flags List.map app] in T. repeat (apply Exists_cons in T as [(r & T)|T]; [vm_compute in T; discriminate T|]). inversion T.
      + destruct T as [T|T]; [vm_compute in T; discriminate T|]. apply Exists_cons in T as [T|T]; [vm_compute in T; discriminate T|].
        apply Exists_cons in T as [T|T]; [|inversion T]. rewrite Forall_forall in Hp. exact (Hp p Hin T).
      + apply elem_of_list_singleton in T. vm_compute in T. discriminate T.
      + destruct one; cbn [flags List.map app] in T; repeat (apply elem_of_cons in T as [T|T]; [vm_compute in T; discriminate T|]); inversion T.
  Qed.
End reach.
Print Assumptions C85_commands_partial.
Print Assumptions C85_dry.
Print Assumptions C85_shell.
Print Assumptions C86_keeps_partial.

(** ** Where it fails *)
(** apt-get takes a name with a minus behind it as a package to remove: C86 does not hold of that name. *)
Definition differs {A} (x y : result A) : bool := match x, y with Ok _, Ok _ | Err _, Err _ => false | _, _ => true end.
Lemma runs_too {A} (m : (proc -> M xres) -> W A) exec exec' c (P : list pystr -> Prop) :
  (forall p s, P (p_argv p) -> exec p s = exec' p s) -> differs (fst (m exec c)) (fst (m exec' c)) = true -> ~ only_runs P m.
Proof. intros Ha Hd H. rewrite (H exec exec' Ha c) in Hd. destruct (fst (m exec' c)); discriminate. Qed.
Definition no_search : bool -> pystr -> pystr -> result bool := fun _ _ _ => Ok false.
Definition no_order (l : list pystr) := l.
(** All programs do well, but for one command. *)
Definition fails (cmd : list pystr) (rest : proc -> M xres) : proc -> M xres :=
  fun p => if bool_decide (p_argv p = cmd) then pure (XExit 1 [] []) else rest p.
Lemma fails_else cmd rest (P : list pystr -> Prop) : ~ P cmd -> forall p s, P (p_argv p) -> rest p s = fails cmd rest p s.
Proof. intros N p s H. unfold fails. destruct (bool_decide_reflect (p_argv p = cmd)) as [E|_]; [|reflexivity]. rewrite E in H. contradiction. Qed.
Definition vim_off := Apt [lit "vim-"] true None.
Theorem C86_refuted : exists sha512 want_diff search date set_order, (forall l, set_order l ≡ₚ l) /\ ~ C86_statement sha512 want_diff search date set_order.
Proof.
  exists fake_hash, false, no_search, (lit "d"), no_order. split; [reflexivity|]. intros H.
  pose (cmd := [lit "apt-get"; lit "install"; lit "--"; lit "vim-"]).
  refine (runs_too (fun exec => call_op exec fake_hash false no_search (lit "d") no_order false NotGiven vim_off) echo (fails cmd echo) on_site _ _ _ (H false NotGiven vim_off eq_refl eq_refl)).
  - refine (fails_else cmd echo (fun argv => ~ takes_away argv) _). intros N. apply N. exists "apt-get"%string, [], [lit "install"; lit "vim-"]. split; [exists [lit "install"; lit "--"; lit "vim-"]; split; reflexivity|].
    right; right; right; right; left. split; [reflexivity|]. right. apply Exists_cons_tl, Exists_cons_hd. reflexivity.
  - vm_compute. reflexivity.
Qed.
Print Assumptions C86_refuted.
(** Names of accounts are handed to chown before "--": a name that begins with a dash becomes an option. *)
Definition dash_account : account := Account (lit "-R") 5 0 [] (lit "/") (lit "/bin/sh").
Definition to_dash := OnFile (CFile (lit "/srv/run") true false None (Some (lit "5")) None).
Theorem C85_names_refuted : exists sha512 want_diff search date set_order, ~
  (forall k, only_runs (fun argv => forall x path, argv = [lit "chown"; x; lit "--"; path] -> dashed x = false)
    (fun exec => call_op exec sha512 want_diff search date set_order false NotGiven k)).
Proof.
  exists fake_hash, false, no_search, (lit "d"), no_order. intros H. pose (cmd := [lit "chown"; lit "-R:root"; lit "--"; lit "/srv/run"]).
  refine (runs_too (fun exec => call_op exec fake_hash false no_search (lit "d") no_order false NotGiven to_dash) echo (fails cmd echo) (on (site_with [dash_account]) ex_base) _ _ _ (H to_dash)).
  - refine (fails_else cmd echo (fun argv => forall x path, argv = [lit "chown"; x; lit "--"; path] -> dashed x = false) _). intros N. specialize (N (lit "-R:root") (lit "/srv/run") eq_refl). vm_compute in N. discriminate N.
  - vm_compute. reflexivity.
Qed.
Print Assumptions C85_names_refuted.

(** ** Cases *)
(** A directory is made with mkdir: nothing less is enough, and what rm does is of no consequence.  A name that looks like an
    option is an operand behind "--". *)
Definition make_sub := OnFile (CDirectory (lit "/srv/old/sub") true false None None None).
Example C85_case : Forall alone (options make_sub) /\ removing make_sub = false /\ Forall (fun p => last p <> Some 45%N) (packages make_sub) /\
  ~ only_runs (fun argv => argv <> [lit "mkdir"; lit "--"; lit "/srv/old/sub"]) (fun exec => call_op exec fake_hash false no_search (lit "d") no_order false NotGiven make_sub) /\
  footprint false make_sub [lit "mkdir"; lit "--"; lit "/srv/old/sub"] /\ ~ footprint true make_sub [lit "mkdir"; lit "--"; lit "/srv/old/sub"] /\
  footprint false (User (lit "-r") false None None None false false None None None None) [lit "userdel"; lit "--"; lit "-r"] /\
  ~ footprint false (User (lit "-r") false None None None false false None None None None) [lit "userdel"; lit "-r"] /\
  takes_away [lit "userdel"; lit "--"; lit "-r"] /\
  (let mode := OnFile (CFile (lit "/srv/run") true false (Some (lit "7")) None None) in
   footprint false mode [lit "chmod"; lit "7"; lit "--"; lit "/srv/run"] /\ ~ footprint false mode [lit "chmod"; lit "-7"; lit "--"; lit "/srv/run"]) /\ Forall alone (options (Pacman [lit "vim"] true (Some [lit "--needed"]))).
Proof.
  split; [constructor|]. split; [reflexivity|]. split; [constructor|]. split.
  { refine (runs_too _ echo (fails [lit "mkdir"; lit "--"; lit "/srv/old/sub"] echo) on_site _ _ _).
    - refine (fails_else _ echo (fun argv => argv <> [lit "mkdir"; lit "--"; lit "/srv/old/sub"]) _). intros N. apply N. reflexivity.
    - vm_compute. reflexivity. }
  split; [split; [reflexivity|left; exists [lit "--"; lit "/srv/old/sub"]; split; reflexivity]|]. split; [intros [[=] _]|].
  split; [split; [reflexivity|exists [lit "--"; lit "-r"]; split; reflexivity]|].
  split; [intros [_ (r & [= <-] & R)]; vm_compute in R; discriminate R|].
  split; [exists "userdel"%string, [], [lit "-r"]; split; [exists [lit "--"; lit "-r"]; split; reflexivity|auto]|].
  split; [|repeat constructor; discriminate]. split.
  - split; [reflexivity|]. right; left. exists (lit "7"), [lit "7"; lit "--"; lit "/srv/run"]. split; reflexivity.
  - intros [_ [(r & [=] & _)|[(x & r & [= <-] & R)|(x & K)]]]; [vm_compute in R; discriminate R|]. destruct (dashed x); [discriminate K|destruct K as (r & [=] & _)].
Qed.
