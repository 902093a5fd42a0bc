(** File operations only use up the schedule of failures, however they end. *)
From stdpp Require Import gmap.
From Verif Require Import Base Utf8 Codec Spec_Codec Codec_proofs Paths Sys Spec_Sys Sys_proofs Dispatcher Client Spec_Session Session_proofs Spec_Remote Remote_safe Remote_proofs
  Remote_upload Direct Control Spec_Control Control_proofs Control_settle Quiet Thrift Op Op_proofs Files Coreutils Walk_proofs Spec_Files Shell_proofs Files_plain Steps Dir_proofs.
Local Open Scope nat_scope.

Definition less (s s' : os) : Prop := o_faults s' `suffix_of` o_faults s.
Lemma less_refl s : less s s. Proof. unfold less. reflexivity. Qed.
Lemma less_trans a b c : less a b -> less b c -> less a c.
Proof. intros H1 H2. unfold less in *. etrans; [exact H2|exact H1]. Qed.
Lemma less_honest s s' : less s s' -> honest s -> honest s'.
Proof. intros [l H] Hh k Hk. apply (Hh k). rewrite H. apply elem_of_app. right. exact Hk. Qed.
(** ** On the remote *)
Definition fr {A} (m : M A) : Prop := forall s, less s (m s).2.
Lemma fr_pure {A} (a : A) : fr (pure a). Proof. intros s. apply less_refl. Qed.
Lemma fr_raise {A} e : fr (raise e : M A). Proof. intros s. apply less_refl. Qed.
Lemma fr_bind {A B} (m : M A) (f : A -> M B) : fr m -> (forall a, fr (f a)) -> fr (m ≫= f).
Proof. intros H1 H2 s. specialize (H1 s). cbv [mbind M_bind bindM]. destruct (m s) as [[a|e] s1]; cbn [snd] in *; [|exact H1]. eapply less_trans; [exact H1|apply H2]. Qed.
Lemma fr_get : fr getM. Proof. intros s. apply less_refl. Qed.
Lemma fr_next s : less s (next_fault s).2.
Proof. unfold next_fault, less. destruct (o_faults s) as [|f l] eqn:E; cbn [snd set_faults o_faults]; [rewrite E; reflexivity|]. exists [f]. reflexivity. Qed.
Lemma fr_syscall {A} (m : M A) : fr m -> fr (syscall m).
Proof. intros H s. unfold syscall. assert (Hn := fr_next s). destruct (next_fault s) as [[|n k] s1]; [|exact Hn]. eapply less_trans; [exact Hn|apply H]. Qed.
Ltac leaf := let s := fresh "s" in intros s; cbv zeta;
  repeat first [exact (less_refl s)|match goal with |- less _ (match ?x with _ => _ end).2 => destruct x end|progress cbn [snd]].
Lemma fr_stat p f : fr (sys_stat p f). Proof. apply fr_syscall. leaf. Qed.
Lemma fr_isdir p : fr (sys_isdir p). Proof. intros s. assert (H := fr_stat p true s). unfold sys_isdir. destruct (sys_stat p true s) as [[n|e] s1]; exact H. Qed.
Lemma fr_chdir cwd p : fr (sys_chdir cwd p).
Proof. unfold sys_chdir. apply fr_syscall. leaf. Qed.
Lemma fr_set_id b : fr (set_id b).
Proof. unfold set_id. apply fr_syscall. leaf. Qed.
Lemma fr_preexec argv stdin umask uid gid cwd cwd1 : fr (preexec argv stdin umask uid gid cwd cwd1).
Proof.
  unfold preexec. apply fr_bind; [apply fr_get|intros s0].
  apply fr_bind; [destruct (_ || _)%bool; [apply fr_raise|apply fr_pure]|intros _].
  apply fr_bind; [destruct gid; [apply fr_set_id|apply fr_pure]|intros _].
  apply fr_bind; [destruct uid; [apply fr_set_id|apply fr_pure]|intros _].
  apply fr_bind; [destruct cwd; [apply fr_chdir|apply fr_pure]|intros cwd2]. apply fr_pure.
Qed.
(** The program uses up the schedule when it is called with these arguments. *)
Definition frugal_for (exec : proc -> M xres) (argv : list pystr) : Prop := forall p s, p_argv p = argv -> less s (exec p s).2.
Lemma fr_in_child {A} (m : M A) : fr m -> fr (in_child m).
Proof. intros H s. specialize (H s). unfold in_child. destruct (m s) as [[a|e] s']; exact H. Qed.
Lemma preexec_argv argv stdin umask uid gid cwd cwd1 s p s' : in_child (preexec argv stdin umask uid gid cwd cwd1) s = (Ok p, s') -> p_argv p = argv.
Proof.
  unfold in_child. destruct (preexec argv stdin umask uid gid cwd cwd1 s) as [[q|e] s1] eqn:E; [|discriminate]. intros [= <- <-]. revert E. unfold preexec.
  intros E. apply bind_inv in E as [(s0 & s2 & _ & E)|(e & _ & [=])]. apply bind_inv in E as [(x & s3 & _ & E)|(e & _ & [=])].
  apply bind_inv in E as [(y & s4 & _ & E)|(e & _ & [=])]. apply bind_inv in E as [(z & s5 & _ & E)|(e & _ & [=])]. apply bind_inv in E as [(w & s6 & _ & E)|(e & _ & [=])].
  injection E as <- <-. reflexivity.
Qed.
Lemma fr_spawn exec argv stdin umask uid gid cwd : frugal_for exec argv -> fr (spawn exec argv stdin umask uid gid cwd).
Proof.
  intros He. unfold spawn. apply fr_bind; [apply fr_get|intros s0]. destruct argv as [|w ws]; [apply fr_raise|].
  destruct (existsb (has_char nul) (w :: ws)); [apply fr_raise|].
  apply fr_bind; [destruct cwd; [apply fr_chdir|apply fr_pure]|intros cwd1].
  intros s. cbv [mbind M_bind bindM]. assert (H := fr_in_child _ (fr_preexec (w :: ws) stdin umask uid gid cwd cwd1) s).
  destruct (in_child (preexec (w :: ws) stdin umask uid gid cwd cwd1) s) as [[p|e] s1] eqn:E; cbn [snd] in *; [|exact H].
  apply preexec_argv in E. eapply less_trans; [exact H|]. specialize (He p s1 E). destruct (exec p s1) as [[[]|e] s2]; exact He.
Qed.
Lemma fr_validated {A} f (o : option pystr) (g : os -> pystr -> result A) (k : option A -> M reply) : (forall oa, fr (k oa)) -> fr (validated_opt f o g k).
Proof.
  intros Hk. destruct o as [v|]; cbn [validated_opt]; [|apply Hk]. intros s. unfold validated. destruct (g s v) as [a|e]; [apply Hk|]. destruct e; apply less_refl.
Qed.
Lemma fr_run exec command stdin capture user group umask cwd : frugal_for exec command -> fr (handle_run exec command stdin capture user group umask cwd).
Proof.
  intros He. unfold handle_run. apply fr_validated; intros m. apply fr_validated; intros ug. apply fr_validated; intros g.
  apply fr_bind; [destruct cwd; [|apply fr_pure]; apply fr_bind; [apply fr_isdir|intros; apply fr_pure]|].
  intros bad. destruct bad; [intros s; apply less_refl|]. intros s.
  assert (H := fr_spawn exec command stdin (default 63%Z m) (fst <$> ug) (match g with Some g => Some g | None => snd <$> ug end) cwd He s).
  destruct (spawn exec command stdin (default 63%Z m) (fst <$> ug) (match g with Some g => Some g | None => snd <$> ug end) cwd s) as [[[rc out err|e|]|e] s']; cbn [snd] in H.
  - destruct capture; exact H.
  - exact H.
  - exact H.
  - destruct e; exact H.
Qed.
Lemma fr_open_write p : fr (sys_open_write p). Proof. apply fr_syscall. leaf. Qed.
Lemma fr_write pl c : fr (sys_write pl c).
Proof.
  intros s. unfold sys_write. assert (H := fr_next s). destruct (next_fault s) as [f s1]. cbn [snd] in H. eapply less_trans; [exact H|].
  destruct f; cbn [snd]; destruct (o_fs s1 !! pl) as [n|]; try exact (less_refl s1); destruct (n_kind n); exact (less_refl s1).
Qed.
Lemma fr_chmod p m : fr (sys_chmod p m). Proof. unfold sys_chmod. destruct (_ || _)%bool; [apply fr_raise|]. apply fr_syscall. leaf. Qed.
Lemma fr_chown p u g : fr (sys_chown p u g). Proof. apply fr_syscall. leaf. Qed.
Lemma fr_upload file content mode owner group : fr (handle_upload file content mode owner group).
Proof.
  unfold handle_upload. apply fr_validated; intros m. apply fr_validated; intros ug. apply fr_validated; intros g.
  apply fr_bind; [apply fr_open_write|intros pl]. apply fr_bind; [apply fr_write|intros _].
  apply fr_bind; [destruct m; [apply fr_chmod|apply fr_pure]|intros _]. apply fr_bind; [|intros _; apply fr_pure].
  destruct (fst <$> ug) as [u|], (match g with Some g => Some g | None => snd <$> ug end) as [h|]; try apply fr_chown. apply fr_pure.
Qed.

(** ** The commands *)
Lemma exits_less (m : M unit) s : less s (m s).2 -> less s (exits m s).2.
Proof. unfold exits. destruct (m s) as [[a|e] s']; auto. Qed.
Lemma prints_less (m : M bytes) s : less s (m s).2 -> less s (prints m s).2.
Proof. unfold prints. destruct (m s) as [[a|e] s']; auto. Qed.
Section commands.
  Variable p : proc.
  Lemma fr_mkdir path : fr (do_mkdir p path). Proof. apply fr_syscall. leaf. Qed.
  Lemma fr_touch follow path : fr (do_touch p follow path). Proof. apply fr_syscall. leaf. Qed.
  Lemma fr_gchmod t path : fr (do_chmod p t path). Proof. unfold do_chmod. destruct (gnu_mode t); [|apply fr_raise]. apply fr_syscall. leaf. Qed.
  Lemma fr_gchown follow spec path : fr (do_chown p follow spec path). Proof. unfold do_chown. destruct (startswith _ _); [apply fr_raise|]. apply fr_syscall. leaf. Qed.
  Lemma fr_rm path : fr (do_rm p path). Proof. apply fr_syscall. leaf. Qed.
  Lemma fr_rm_rf path : fr (do_rm_rf p path).
  Proof.
    intros s. unfold do_rm_rf. assert (H := fr_next s). destruct (next_fault s) as [f s1]. cbn [snd] in H. eapply less_trans; [exact H|].
    destruct (resolve _ _ _ _) as [pl|e]; [destruct (_ || _)%bool; [exact (less_refl s1)|destruct f; exact (less_refl s1)]|destruct (bool_decide _); exact (less_refl s1)].
  Qed.
  Lemma fr_ln target path : fr (do_ln p target path). Proof. apply fr_syscall. leaf. Qed.
  Lemma fr_readlink path : fr (do_readlink p path). Proof. apply fr_syscall. leaf. Qed.
End commands.
Section frugality.
  Variable rest : proc -> M xres.
  Notation exec := (coreutils rest).
  Ltac command := intros p s Ha; unfold coreutils; rewrite Ha;
    repeat match goal with |- context [str_eqb ?a ?b] => let v := eval vm_compute in (str_eqb a b) in change (str_eqb a b) with v; cbn [andb] end;
    first [apply exits_less|apply prints_less].
  Lemma frugal_mkdir x : frugal_for exec [lit "mkdir"; lit "--"; x]. Proof. command. apply fr_mkdir. Qed.
  Lemma frugal_touch x : frugal_for exec [lit "touch"; lit "--"; x]. Proof. command. apply fr_touch. Qed.
  Lemma frugal_rm x : frugal_for exec [lit "rm"; lit "--"; x]. Proof. command. apply fr_rm. Qed.
  Lemma frugal_readlink x : frugal_for exec [lit "readlink"; lit "-n"; x]. Proof. command. apply fr_readlink. Qed.
  Lemma frugal_chmod m x : frugal_for exec [lit "chmod"; m; lit "--"; x]. Proof. command. apply fr_gchmod. Qed.
  Lemma frugal_chown o x : frugal_for exec [lit "chown"; o; lit "--"; x]. Proof. command. apply fr_gchown. Qed.
  Lemma frugal_rm_rf x : frugal_for exec [lit "rm"; lit "-rf"; lit "--"; x]. Proof. command. apply fr_rm_rf. Qed.
  Lemma frugal_ltouch x : frugal_for exec [lit "touch"; lit "--no-dereference"; lit "--"; x]. Proof. command. apply fr_touch. Qed.
  Lemma frugal_ln t x : frugal_for exec [lit "ln"; lit "-sf"; lit "--"; t; x]. Proof. command. apply fr_ln. Qed.
  Lemma frugal_lchown o x : frugal_for exec [lit "chown"; lit "--no-dereference"; o; lit "--"; x]. Proof. command. apply fr_gchown. Qed.
End frugality.

(** ** In the controlling process *)
Definition frugal {A} (m : W A) : Prop := forall c, less (sysof c) (sysof (m c).2).
Lemma frugal_thrifty {A} (m : W A) : thrifty m -> frugal m.
Proof. intros H c. assert (Hs : spends (sysof c) (sysof (m c).2)) by (eapply H; apply surjective_pairing). apply Hs. Qed.
Lemma frugal_bind {A B} (m : W A) (f : A -> W B) : frugal m -> (forall a, frugal (f a)) -> frugal (m ≫= f).
Proof.
  intros H1 H2 c. specialize (H1 c). unfold mbind, W_bind. destruct (m c) as [[a|e] c1]; [|exact H1]. eapply less_trans; [exact H1|]. apply H2.
Qed.
Lemma frugal_ret {A} (a : A) : frugal (mret a). Proof. intros c. apply less_refl. Qed.
Lemma frugal_raise {A} e : frugal (wraise e : W A). Proof. intros c. apply less_refl. Qed.
Lemma frugal_lift {A} (x : result A) : frugal (liftW x). Proof. intros c. apply less_refl. Qed.
Lemma frugal_wif b m : frugal m -> frugal (wif b m).
Proof. intros H. destruct b; [exact H|apply frugal_ret]. Qed.
Lemma frugal_conclude i f m : frugal m -> frugal (conclude i f m).
Proof. intros H. unfold conclude. destruct (py_eq _ _); [apply frugal_ret|]. apply frugal_bind; [exact H|intros; apply frugal_ret]. Qed.
Lemma frugal_finally {A} (m : W A) f : frugal m -> frugal f -> frugal (wfinally m f).
Proof.
  intros H1 H2 c. specialize (H1 c). unfold wfinally. destruct (m c) as [r c1]. specialize (H2 c1). eapply less_trans; [exact H1|]. cbn [snd]. destruct (f c1) as [[u|e] c2]; exact H2.
Qed.
Section client.
  Variable exec : proc -> M xres.
  Variable sha512 : bytes -> bytes.
  Lemma frugal_request q v x v' : fr (handle exec sha512 q) -> request exec sha512 q v = (x, v') -> less (r_os v) (r_os v').
  Proof. intros H E. apply request_any_state in E as [-> | ->]; [apply less_refl|apply H]. Qed.
  Lemma frugal_crun cmd : frugal_for exec cmd -> frugal (crun exec sha512 cmd).
  Proof.
    intros He. unfold crun, run. apply frugal_bind; [apply frugal_thrifty, thrifty_current|]. intros d. intros c. unfold via.
    destruct (conn_run exec sha512 _ _ _ _ _ _ _ _ (c_remote c)) as [r v] eqn:E. unfold sysof. cbn [snd c_remote set_remote].
    unfold conn_run, mbind, C_bind in E. destruct (request exec sha512 _ (c_remote c)) as [[y|e] v1] eqn:Er.
    - apply frugal_request in Er; [|apply (fr_run exec cmd _ _ _ _ _ _ He)].
      assert (v = v1) as ->; [|exact Er].
      destruct y; cbn in E; try (injection E as _ <-; reflexivity). destruct (negb (_ =? 0)%Z); injection E as _ <-; reflexivity.
    - injection E as _ <-. apply frugal_request in Er; [exact Er|apply (fr_run exec cmd _ _ _ _ _ _ He)].
  Qed.
  Lemma frugal_sh cmd : frugal_for exec cmd -> frugal (sh exec sha512 cmd).
  Proof. intros H. unfold sh. apply frugal_bind; [apply frugal_crun; exact H|intros; apply frugal_ret]. Qed.
  Lemma frugal_upload file content mode owner group : frugal (upload exec sha512 file content mode owner group).
  Proof.
    intros c. unfold upload, via. destruct (conn_upload exec sha512 _ _ _ _ _ (c_remote c)) as [r v] eqn:E. unfold sysof. cbn [snd c_remote set_remote].
    unfold conn_upload, mbind, C_bind in E. destruct (request exec sha512 _ (c_remote c)) as [[y|e] v1] eqn:Er.
    - apply frugal_request in Er; [|apply (fr_upload file content mode owner group)].
      assert (v = v1) as ->; [|exact Er]. destruct y; cbn in E; injection E as _ <-; reflexivity.
    - injection E as _ <-. apply frugal_request in Er; [exact Er|apply (fr_upload file content mode owner group)].
  Qed.
  Lemma frugal_defaults {A} q (body : settings -> W A) : (forall d, frugal (body d)) -> frugal (script_defaults exec sha512 q body).
  Proof.
    intros H c. unfold script_defaults. destruct (c_script c) as [i|]; [|apply less_refl]. revert c.
    change (frugal (with_defaults exec sha512 i q body)). unfold with_defaults. apply frugal_bind; [apply frugal_thrifty, thrifty_defaults|]. intros new.
    apply frugal_bind; [apply frugal_thrifty, thrifty_enter|]. intros d. apply frugal_finally; [apply H|]. intros c. apply less_refl.
  Qed.
  Lemma frugal_operation a f w : yields f new_op w -> frugal w -> frugal (operation a f).
  Proof.
    intros H Hw c. rewrite (operation_plain a f w c H). revert c. change (frugal (w ≫= verdict a)). apply frugal_bind; [exact Hw|]. intros r. unfold verdict.
    destruct (_ && _); [apply frugal_raise|apply frugal_ret].
  Qed.
  Lemma frugal_check path : frugal (check_absolute_path path).
  Proof. unfold check_absolute_path. destruct path as [|x r]; [apply frugal_raise|]. destruct (x =? slash)%N; [apply frugal_ret|apply frugal_raise]. Qed.
  Lemma frugal_stat p follow sha : frugal (stat exec sha512 p follow sha). Proof. apply frugal_thrifty, thrifty_stat. Qed.
  Lemma frugal_chmod_to path m : (forall m, frugal_for exec [lit "chmod"; m; lit "--"; path]) -> frugal (chmod_to exec sha512 path m).
  Proof. intros H. unfold chmod_to, arg. destruct m; [|apply frugal_raise]. apply frugal_bind; [apply frugal_crun, H|intros; apply frugal_ret]. Qed.
End client.
Section bodies.
  Variable rest : proc -> M xres.
  Variable sha512 : bytes -> bytes.
  Variable dry want_diff : bool.
  Notation exec := (coreutils rest).
  Hint Resolve frugal_mkdir frugal_touch frugal_rm frugal_readlink frugal_chmod frugal_chown frugal_rm_rf frugal_ltouch frugal_lchown : core.
  Ltac steps := repeat first [apply frugal_sh; solve [auto]|apply frugal_chmod_to; solve [auto]|apply frugal_wif|apply frugal_ret|apply frugal_raise|apply frugal_bind; [|intros ?]].
  Lemma frugal_dir path present touch attr : frugal (dir_body exec sha512 dry path present touch attr).
  Proof.
    unfold dir_body. apply frugal_bind; [apply frugal_stat|]. intros st.
    assert (Hw : frugal (dir_work exec sha512 dry path present touch attr st)).
    { unfold dir_work, chown_to. destruct dry; [apply frugal_ret|]. destruct present; steps. }
    destruct st as [x|]; [destruct (negb (str_eqb (st_type x) (lit "dir"))); [apply frugal_ret|]|]; apply frugal_conclude; exact Hw.
  Qed.
  Lemma frugal_content content dest attr : frugal (content_body exec sha512 dry want_diff content dest attr).
  Proof.
    unfold content_body. apply frugal_bind; [apply frugal_stat|]. intros st.
    assert (Hw : frugal (content_work exec sha512 dry want_diff content dest attr st)).
    { unfold content_work, chown_to. apply frugal_bind.
      - destruct want_diff; [|apply frugal_ret]. apply frugal_bind; [apply frugal_thrifty, thrifty_download_or|intros; apply frugal_ret].
      - intros _. destruct dry; [apply frugal_ret|]. destruct (_ || _); [apply frugal_upload|]. steps. }
    destruct st as [x|]; [destruct (negb (str_eqb (st_type x) (lit "file"))); [apply frugal_ret|]|]; apply frugal_conclude; exact Hw.
  Qed.
End bodies.
