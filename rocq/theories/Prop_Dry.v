(** C41, C42: file operations that are only tried (--dry). *)
From stdpp Require Import gmap.
From Verif Require Import Base Utf8 Codec Paths Sys Spec_Sys Sys_proofs Dispatcher Client Spec_Remote Control Spec_Control Control_proofs Remote_examples Op Op_proofs Coreutils Files Files_plain Spec_Files Shell_proofs Steps Dry_proofs Dry_files Files_examples Prop_Files.
Local Open Scope nat_scope.

(** ** Specification *)
(** A call of one of the operations of fora.operations.files that manage a single path, with its arguments. *)
Inductive file_call :=
| CDirectory (path : pystr) (present touch : bool) (mode owner group : option pystr)
| CFile (path : pystr) (present touch : bool) (mode owner group : option pystr)
| CLink (path target : pystr) (present touch : bool) (owner group : option pystr)
| CUploadContent (content : bytes + pystr) (dest : pystr) (mode owner group : option pystr)
| CUpload (content : result bytes) (src dest : pystr) (mode owner group : option pystr)
| CTemplateContent (render : pystr -> pystr + result bytes) (content dest : pystr) (mode owner group : option pystr)
| CTemplate (render : pystr -> pystr + result bytes) (content : result pystr) (src dest : pystr) (mode owner group : option pystr)
| CLine (path text : pystr) (present : bool) (regex : option pystr) (ws : bool) (backup : bool + pystr).
(** the programs that an operation runs to look at the remote *)
Definition probes (k : file_call) (cmd : list pystr) : Prop :=
  match k with CLink path _ _ _ _ _ => cmd = [lit "readlink"; lit "-n"; path] | _ => False end.

Section dry.
  Variable exec : proc -> M xres.
  Variable sha512 : bytes -> bytes.
  Variable want_diff : bool.
  Variable search : bool -> pystr -> pystr -> result bool.
  Variable date : pystr.
  Definition perform (dry : bool) (k : file_call) : O opres :=
    match k with
    | CDirectory p pr t m o g => directory exec sha512 dry p pr t m o g
    | CFile p pr t m o g => file exec sha512 dry p pr t m o g
    | CLink p x pr t o g => link exec sha512 dry p x pr t o g
    | CUploadContent b d m o g => upload_content exec sha512 dry want_diff b d m o g
    | CUpload b s d m o g => upload_file exec sha512 dry want_diff b s d m o g
    | CTemplateContent f b d m o g => template_content exec sha512 dry want_diff f b d m o g
    | CTemplate f b s d m o g => template exec sha512 dry want_diff f b s d m o g
    | CLine p x pr re ws b => line exec sha512 dry want_diff search date p x pr re ws b
    end.

  (** C41, for the operations on files (Prop_Tried has all operations).  Whatever the state, the faults and the outcome: nothing on the remote is touched, if the probing programs do not. *)
  Theorem C41_files_dry k a c r c' : (forall cmd, probes k cmd -> harmless exec cmd) ->
    operation a (perform true k) c = (r, c') -> unaffected (sysof c) (sysof c').
  Proof.
    intros Hp. apply quiet_operation. destruct k; cbn [perform].
    - apply dry_directory. - apply dry_file. - apply dry_link, Hp. reflexivity. - apply dry_upload_content. - apply dry_upload_file.
    - apply dry_template_content. - apply dry_template. - apply dry_line.
  Qed.
  Theorem C41_dry_upload_dir tree src dest dm fm owner group a c r c' :
    operation a (upload_dir exec sha512 true want_diff tree src dest dm fm owner group) c = (r, c') -> unaffected (sysof c) (sysof c').
  Proof. apply quiet_operation, dry_upload_dir. Qed.

  (** C42, for the operations on single files.  Missing: upload_dir; the other operations are in Prop_Tried.  What the real run would report, the dry run reports: the same result, whatever the programs do. *)
  Theorem C42_files_predict_partial k a c r c' : operation a (perform false k) c = (Ok r, c') ->
    exists c2, operation a (perform true k) c = (Ok r, c2).
  Proof.
    intros E. assert (H : predicts (perform false k) (perform true k)).
    { destruct k; cbn [perform].
      - apply predicts_directory. - apply predicts_file. - apply predicts_link. - apply predicts_upload_content. - apply predicts_upload_file.
      - apply predicts_template_content. - apply predicts_template. - apply predicts_line. }
    destruct (predicts_operation _ _ _ _ _ _ H E) as [v Hv]. eauto.
  Qed.
End dry.
Print Assumptions C41_files_dry.
Print Assumptions C41_dry_upload_dir.
Print Assumptions C42_files_predict_partial.

(** The condition on the probing programs holds of coreutils. *)
Theorem C41_coreutils rest k cmd : probes k cmd -> harmless (coreutils rest) cmd.
Proof.
  destruct k; cbn [probes]; try contradiction. intros -> p s Hp. unfold coreutils. rewrite Hp.
  change (unaffected s (snd (prints (do_readlink p path) s))). unfold prints. destruct (do_readlink p path s) as [r s'] eqn:E.
  unfold do_readlink in E. apply syscall_inv in E as (s0 & Hu & [(n & -> & ->)|E]); [exact Hu|]. injection E as _ <-. destruct r; exact Hu.
Qed.
Print Assumptions C41_coreutils.

(** ** Examples: a run that changes something, tried before *)
Definition dry_mk := perform (coreutils echo) fake_hash false (fun _ _ _ => Ok false) (lit "d") true (CDirectory p_new true false m755 alice None).
Definition real_mk := perform (coreutils echo) fake_hash false (fun _ _ _ => Ok false) (lit "d") false (CDirectory p_new true false m755 alice None).
Example C41_example : or_changed (result_of (operation NotGiven dry_mk on_site)) = true /\ or_success (result_of (operation NotGiven dry_mk on_site)) = true /\
  o_fs (sysof (snd (operation NotGiven dry_mk on_site))) !! [lit "new"; lit "srv"] = None /\
  o_fs (sysof (snd (operation NotGiven real_mk on_site))) !! [lit "new"; lit "srv"] <> None.
Proof. split_and!; vm_compute; [reflexivity..|discriminate]. Qed.
Example C42_example : operation NotGiven real_mk on_site = (Ok (result_of (operation NotGiven real_mk on_site)), snd (operation NotGiven real_mk on_site)) /\
  or_changed (result_of (operation NotGiven real_mk on_site)) = true /\
  result_of (operation NotGiven dry_mk on_site) = result_of (operation NotGiven real_mk on_site).
Proof. split; [ran|]. split; vm_compute; reflexivity. Qed.
