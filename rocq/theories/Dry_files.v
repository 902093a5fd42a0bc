(** File operations that are only tried. *)
From stdpp Require Import gmap.
From Verif Require Import Base Utf8 Codec Paths Sys Spec_Sys Sys_proofs Dispatcher Client Spec_Remote Control Spec_Control Control_proofs Quiet Op Op_proofs Files Files_plain Spec_Files Shell_proofs Steps Dry_proofs.
Local Open Scope nat_scope.

Section dry.
  Variable exec : proc -> M xres.
  Variable sha512 : bytes -> bytes.
  Variable want_diff : bool.
  Variable search : bool -> pystr -> pystr -> result bool.
  Variable date : pystr.

  Lemma quiet_check path : quiet (check_absolute_path path).
  Proof. unfold check_absolute_path. destruct path; [apply quiet_raise|]. destruct (_ =? _)%N; [apply quiet_ret|apply quiet_raise]. Qed.
  Lemma remotely_check path : remotely (check_absolute_path path).
  Proof. unfold check_absolute_path. destruct path; [apply remotely_raise|]. destruct (_ =? _)%N; [apply remotely_ret|apply remotely_raise]. Qed.
  Lemma quiet_decoded b : quiet (decoded b).
  Proof. unfold decoded. destruct (utf8_decode _); [apply quiet_ret|apply quiet_raise]. Qed.
  Lemma remotely_decoded b : remotely (decoded b).
  Proof. unfold decoded. destruct (utf8_decode _); [apply remotely_ret|apply remotely_raise]. Qed.
  Lemma quiet_encoded b : quiet (encoded b).
  Proof. unfold encoded. destruct b; [apply quiet_ret|]. destruct (utf8_encode _); [apply quiet_ret|apply quiet_raise]. Qed.
  Lemma remotely_encoded b : remotely (encoded b).
  Proof. unfold encoded. destruct b; [apply remotely_ret|]. destruct (utf8_encode _); [apply remotely_ret|apply remotely_raise]. Qed.
  Lemma quiet_rendered r : quiet (rendered r). Proof. destruct r; [apply quiet_raise|apply quiet_lift]. Qed.
  Lemma remotely_rendered r : remotely (rendered r). Proof. destruct r; [apply remotely_raise|apply remotely_lift]. Qed.

  Ltac oq := repeat first [apply oquiet_ret|apply oquiet_raise|apply oquiet_initial|apply oquiet_final|apply oquiet_unchanged|apply oquiet_changed|apply oquiet_diff|apply oquiet_failure|apply oquiet_success|apply oquiet_nested|apply oquiet_add
    |apply oquiet_lift; first [apply quiet_lift|apply quiet_check|apply quiet_decoded|apply quiet_encoded|apply quiet_rendered|apply quiet_stat|apply quiet_download|apply quiet_download_or|apply quiet_crun; assumption]
    |apply oquiet_defaults; intros ?
    |match goal with |- oquiet (if ?b then _ else _) => destruct b | |- oquiet (match ?x with _ => _ end) => destruct x end
    |apply oquiet_bind; [|intros ?]].
  Lemma dry_directory path present touch mode owner group : oquiet (directory exec sha512 true path present touch mode owner group).
  Proof. unfold directory. cbv zeta. oq. Qed.
  Lemma dry_file path present touch mode owner group : oquiet (file exec sha512 true path present touch mode owner group).
  Proof. unfold file. cbv zeta. oq. Qed.
  Lemma dry_link path target present touch owner group : harmless exec [lit "readlink"; lit "-n"; path] -> oquiet (link exec sha512 true path target present touch owner group).
  Proof. intros H. unfold link. cbv zeta. oq. Qed.
  Lemma dry_save content dest mode owner group : oquiet (save_content exec sha512 true want_diff content dest mode owner group).
  Proof. unfold save_content. cbv zeta. oq. Qed.
  Opaque save_content.
  Lemma dry_upload_content content dest mode owner group : oquiet (upload_content exec sha512 true want_diff content dest mode owner group).
  Proof. unfold upload_content. oq. apply dry_save. Qed.
  Lemma dry_upload_file content src dest mode owner group : oquiet (upload_file exec sha512 true want_diff content src dest mode owner group).
  Proof. unfold upload_file. oq. apply dry_save. Qed.
  Lemma dry_template_content render content dest mode owner group : oquiet (template_content exec sha512 true want_diff render content dest mode owner group).
  Proof. unfold template_content. oq. apply dry_save. Qed.
  Lemma dry_template render content src dest mode owner group : oquiet (template exec sha512 true want_diff render content src dest mode owner group).
  Proof. unfold template. oq. apply dry_save. Qed.
  Lemma dry_line path text present regex ws backup : oquiet (line exec sha512 true want_diff search date path text present regex ws backup).
  Proof. unfold line. cbv zeta. oq. Qed.
  Opaque directory upload_file.
  Lemma dry_nested_dirs mode owner group ds : oquiet (nested_dirs exec sha512 true mode owner group ds).
  Proof. induction ds; cbn; oq; [apply oquiet_lift, quiet_operation, dry_directory|assumption]. Qed.
  Lemma dry_nested_files mode owner group fs : oquiet (nested_files exec sha512 true want_diff mode owner group fs).
  Proof. induction fs as [|[[src content] dest] fs IH]; cbn; oq; [apply oquiet_lift, quiet_operation, dry_upload_file|assumption..]. Qed.
  Opaque nested_dirs nested_files.
  Lemma dry_upload_dir tree src dest dm fm owner group : oquiet (upload_dir exec sha512 true want_diff tree src dest dm fm owner group).
  Proof.
    unfold upload_dir. oq; try apply dry_nested_files; try apply dry_nested_dirs.
  Qed.

  Transparent nested_dirs nested_files directory upload_file save_content.

  Lemma remotely_stat p f h : remotely (stat exec sha512 p f h). Proof. apply remotely_via. Qed.
  Lemma remotely_download p : remotely (download exec sha512 p). Proof. apply remotely_via. Qed.
  Lemma remotely_download_or p d : remotely (download_or exec sha512 p d).
  Proof. unfold download_or, or_default. apply remotely_try; [apply remotely_bind; [apply remotely_download|intros; apply remotely_ret]|]. intros e. destruct (is_ValueError e); [apply remotely_ret|apply remotely_raise]. Qed.
  Lemma remotely_upload p b m o g : remotely (upload exec sha512 p b m o g). Proof. apply remotely_via. Qed.
  Lemma remotely_arg m k : (forall x, remotely (k x)) -> remotely (arg m k).
  Proof. intros H. unfold arg. destruct m; [|apply remotely_raise]. apply remotely_bind; [apply H|]. intros. apply remotely_ret. Qed.
  Lemma remotely_crun' cmd : remotely (crun exec sha512 cmd).
  Proof. unfold crun, run. apply remotely_bind; [apply remotely_current|]. intros. apply remotely_via. Qed.
  Lemma remotely_sh' cmd : remotely (sh exec sha512 cmd).
  Proof. unfold sh. apply remotely_bind; [apply remotely_crun'|]. intros. apply remotely_ret. Qed.
  Lemma oremote_when b w : oremote b -> remotely w -> oremote (when b w).
  Proof. intros Hb Hw. unfold when. apply oremote_bind; [exact Hb|]. intros []; [apply oremote_lift; exact Hw|apply oremote_ret]. Qed.
  Lemma oremote_either a b : oremote a -> oremote b -> oremote (either a b).
  Proof. intros Ha Hb. unfold either. apply oremote_bind; [exact Ha|]. intros []; [apply oremote_ret|exact Hb]. Qed.
  Lemma oremote_both a b : oremote a -> oremote b -> oremote (both a b).
  Proof. intros Ha Hb. unfold both. apply oremote_bind; [exact Ha|]. intros []; [exact Hb|apply oremote_ret]. Qed.
  Lemma oremote_nope a : oremote a -> oremote (nope a).
  Proof. intros Ha. unfold nope. apply oremote_bind; [exact Ha|]. intros. apply oremote_ret. Qed.
  Lemma okeeps_when b w : okeeps b -> okeeps (when b w).
  Proof. intros Hb. unfold when. apply okeeps_bind; [exact Hb|]. intros []; [apply okeeps_lift|apply okeeps_ret]. Qed.
  Lemma okeeps_either a b : okeeps a -> okeeps b -> okeeps (either a b).
  Proof. intros Ha Hb. unfold either. apply okeeps_bind; [exact Ha|]. intros []; [apply okeeps_ret|exact Hb]. Qed.
  Lemma okeeps_both a b : okeeps a -> okeeps b -> okeeps (both a b).
  Proof. intros Ha Hb. unfold both. apply okeeps_bind; [exact Ha|]. intros []; [exact Hb|apply okeeps_ret]. Qed.
  Lemma okeeps_nope a : okeeps a -> okeeps (nope a).
  Proof. intros Ha. unfold nope. apply okeeps_bind; [exact Ha|]. intros. apply okeeps_ret. Qed.
  Ltac orr := repeat first [apply oremote_ret|apply oremote_raise|apply oremote_initial|apply oremote_final|apply oremote_unchanged|apply oremote_changed|apply oremote_diff|apply oremote_failure|apply oremote_success
    |apply oremote_when|apply oremote_either|apply oremote_both|apply oremote_nope|apply remotely_sh'|apply remotely_crun'|apply remotely_upload|apply remotely_arg; intros ?
    |apply oremote_lift; first [apply remotely_lift|apply remotely_check|apply remotely_decoded|apply remotely_encoded|apply remotely_rendered|apply remotely_stat|apply remotely_download|apply remotely_download_or|apply remotely_crun'|apply remotely_sh'|apply remotely_upload]
    |apply oremote_defaults; intros ?
    |match goal with |- oremote (if ?b then _ else _) => destruct b | |- oremote (match ?x with _ => _ end) => destruct x end
    |apply oremote_bind; [|intros ?]].
  Ltac okk := repeat first [apply okeeps_ret|apply okeeps_raise|apply okeeps_changed|apply okeeps_when|apply okeeps_either|apply okeeps_both|apply okeeps_nope|apply okeeps_lift
    |match goal with |- okeeps (if ?b then _ else _) => destruct b | |- okeeps (match ?x with _ => _ end) => destruct x end
    |apply okeeps_bind; [|intros ?]].
  Ltac pre := repeat first
    [apply predicts_defaults; [intros ?; solve [orr]|intros ?; solve [orr]|intros ?]
    |apply predicts_work; [solve [okk]|intros [] []; reflexivity|apply steady_success]
    |apply predicts_bind; [solve [orr]|intros ?]
    |match goal with |- predicts (if ?b then _ else _) _ => destruct b | |- predicts (match ?x with _ => _ end) _ => destruct x end
    |apply predicts_same; solve [orr]].
  Lemma predicts_directory path present touch mode owner group : predicts (directory exec sha512 false path present touch mode owner group) (directory exec sha512 true path present touch mode owner group).
  Proof. unfold directory. cbv zeta. pre. Qed.
  Lemma predicts_file path present touch mode owner group : predicts (file exec sha512 false path present touch mode owner group) (file exec sha512 true path present touch mode owner group).
  Proof. unfold file. cbv zeta. pre. Qed.
  Lemma predicts_link path target present touch owner group : predicts (link exec sha512 false path target present touch owner group) (link exec sha512 true path target present touch owner group).
  Proof. unfold link. cbv zeta. pre. Qed.
  Lemma predicts_save content dest mode owner group : predicts (save_content exec sha512 false want_diff content dest mode owner group) (save_content exec sha512 true want_diff content dest mode owner group).
  Proof. unfold save_content. cbv zeta. pre. Qed.
  Opaque save_content.
  Lemma predicts_upload_content content dest mode owner group : predicts (upload_content exec sha512 false want_diff content dest mode owner group) (upload_content exec sha512 true want_diff content dest mode owner group).
  Proof. unfold upload_content. pre. apply predicts_save. Qed.
  Lemma predicts_upload_file content src dest mode owner group : predicts (upload_file exec sha512 false want_diff content src dest mode owner group) (upload_file exec sha512 true want_diff content src dest mode owner group).
  Proof. unfold upload_file. pre. apply predicts_save. Qed.
  Lemma predicts_template_content render content dest mode owner group : predicts (template_content exec sha512 false want_diff render content dest mode owner group) (template_content exec sha512 true want_diff render content dest mode owner group).
  Proof. unfold template_content. pre. apply predicts_save. Qed.
  Lemma predicts_template render content src dest mode owner group : predicts (template exec sha512 false want_diff render content src dest mode owner group) (template exec sha512 true want_diff render content src dest mode owner group).
  Proof. unfold template. pre. apply predicts_save. Qed.
  Transparent save_content.
  Lemma predicts_line path text present regex ws backup : predicts (line exec sha512 false want_diff search date path text present regex ws backup) (line exec sha512 true want_diff search date path text present regex ws backup).
  Proof. unfold line. cbv zeta. pre. Qed.
  Lemma predicts_operation a real dry c r c' : predicts real dry -> operation a real c = (Ok r, c') -> exists v, operation a dry c = (Ok r, set_remote v c).
  Proof.
    intros H E. unfold operation in *. apply bind_spec in E as [(x & c1 & E1 & E2)|(e & _ & [=])]. destruct (H _ _ _ _ E1) as [v Hv]. exists v.
    rewrite (Control_settle.bind_works _ _ _ _ _ Hv). destruct (_ && _); [discriminate|]. injection E2 as <- <-. reflexivity.
  Qed.
End dry.
