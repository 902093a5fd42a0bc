(** Properties C09-C16 and C67: uploads, commands, names and stat. *)
From Coq Require Import Lia ZifyBool ZifyN ZifyNat.
From stdpp Require Import gmap.
From Verif Require Import Base Utf8 Codec Spec_Codec Codec_proofs2 Paths Sys Spec_Sys Sys_proofs Dispatcher Client Spec_Session
  Spec_Remote Remote_safe Remote_proofs Remote_upload Remote_run Remote_examples.

(** C09. An invalid field is answered by a ValueError, and nothing was done.  (Looking for the working directory
    uses up an entry of the schedule of failures, nothing else.) *)
Theorem C09_upload : forall exec sha512 s f c m o g,
  packet_ok (PUpload f c m o g) -> opt_ok short m -> opt_ok short o -> opt_ok short g ->
  given not_octal m \/ given (no_user s) o \/ given (no_group s) g ->
  exists msg, conn_upload exec sha512 f c m o g (Remote s Up) = (Err (ValueError msg), Remote s Up).
Proof. exact C09_upload_lemma. Qed.
Print Assumptions C09_upload.
Theorem C09_run : forall exec sha512 s c i cap chk u g m w,
  packet_ok (PProcessRun c i cap u g m w) -> opt_ok short u -> opt_ok short g -> opt_ok short m ->
  given not_octal m \/ given (no_user s) u \/ given (no_group s) g \/ given (no_dir s) w ->
  exists msg s', conn_run exec sha512 c i cap chk u g m w (Remote s Up) = (Err (ValueError msg), Remote s' Up) /\ unaffected s s'.
Proof. exact C09_run_lemma. Qed.
Print Assumptions C09_run.
(** The second field is fine, the third is not. *)
Example C09_example : given (no_group demo) (Some (lit "nobody")) /\ ~ given (no_user demo) (Some (lit "alice")).
Proof.
  split.
  - eexists. split; [reflexivity|]. right. intros a [Ha Hd]. 
    repeat (apply elem_of_cons in Ha as [-> |Ha]; [destruct Hd as [Hd|[_ Hd]]; vm_compute in Hd; discriminate|]). inversion Ha.
  - intros (u & [= <-] & [H|H]); [revert H; apply (bool_decide_unpack _); vm_compute; exact I|].
    apply (H (Account (lit "alice") 1000 100 [] (lit "/home") (lit "/bin/sh"))). split; [right; left|left; reflexivity].
Qed.
Example C09_example_upload :
  exists msg, conn_upload echo fake_hash (lit "/tmp/x") (blit "data") (Some (lit "644")) (Some (lit "alice")) (Some (lit "nobody")) (Remote demo Up)
    = (Err (ValueError msg), Remote demo Up).
Proof. eexists. vm_compute. reflexivity. Qed.

(** C10. After a successful upload the path names a file with exactly the given content, the requested owner, group
    and permission bits; everything else is as before. *)
Theorem C10_upload_exact : forall exec sha512 s f c m o g v',
  encodable (PUpload f c m o g) -> regular_target s f ->
  conn_upload exec sha512 f c m o g (Remote s Up) = (Ok tt, v') ->
  r_link v' = Up /\ only_files s (r_os v') /\
  exists pl n, names (o_fs (r_os v')) (o_cwd s) f true pl n /\ n_kind n = KFile c /\ others_same (o_fs s) (o_fs (r_os v')) pl /\
    upload_owner s (o_fs s !! pl) o g n /\ upload_mode (o_fs s !! pl) m n.
Proof. exact C10_lemma. Qed.
Print Assumptions C10_upload_exact.
(** A download then returns the same bytes. *)
Theorem C10_round_trip : forall exec sha512 s f c m o g v',
  packet_ok (PUpload f c m o g) -> regular_target s f -> o_faults s = [] ->
  conn_upload exec sha512 f c m o g (Remote s Up) = (Ok tt, v') ->
  conn_download exec sha512 f v' = (Ok c, v').
Proof. exact C10_roundtrip_lemma. Qed.
Print Assumptions C10_round_trip.
(** Valid uploads succeed: the path leads to a file or to a free name in a directory. *)
Theorem C10_accepts : forall exec sha512 s f c m o g pl,
  packet_ok (PUpload f c m o g) -> o_faults s = [] ->
  resolve (o_fs s) (o_cwd s) f true = Ok pl ->
  (o_fs s !! pl = None \/ exists n b, o_fs s !! pl = Some n /\ n_kind n = KFile b) ->
  opt_ok (fun m => exists z, py_int 8 m = Some z /\ c_int z) m ->
  opt_ok (fun u => nul ∉ u /\ exists a, denotes_user s u a) o -> opt_ok (fun g => nul ∉ g /\ exists a, denotes_group s g a) g ->
  exists v', conn_upload exec sha512 f c m o g (Remote s Up) = (Ok tt, v').
Proof. exact C10_accepts_lemma. Qed.
Print Assumptions C10_accepts.
Lemma demo_regular f : regular_target demo f.
Proof.
  intros pl n t (_ & _ & _ & H) K. cbn [demo o_fs] in H. apply elem_of_list_to_map_2 in H.
  repeat (apply elem_of_cons in H as [[= -> ->]|H]; [discriminate K|]). inversion H.
Qed.
(** through a symbolic link, with a numeric user that is also the name of another one *)
Example C10_example :
  let v := snd (conn_upload echo fake_hash (lit "/etc/link") (blit "new") (Some (lit "640")) (Some (lit "1000")) None (Remote demo Up)) in
  fst (conn_upload echo fake_hash (lit "/etc/link") (blit "new") (Some (lit "640")) (Some (lit "1000")) None (Remote demo Up)) = Ok tt /\
  o_fs (r_os v) !! [lit "app.conf"; lit "etc"] = Some (Node (KFile (blit "new")) 416 7 7 200 200).
Proof. vm_compute. split; reflexivity. Qed.
Example C10_example_group :
  let v := snd (conn_upload echo fake_hash (lit "/tmp/../tmp/x") (blit "new") None None (Some (lit "wheel")) (Remote demo Up)) in
  o_fs (r_os v) !! [lit "x"; lit "tmp"] = Some (Node (KFile (blit "new")) 384 0 10 200 200).
Proof. vm_compute. reflexivity. Qed.

(** C11. At every failure point of an upload no other file has changed, and a new file is accessible to the
    dispatcher's user only until it has its final mode.  The schedule of failures, over which the theorem quantifies, cuts an
    upload after every system call and in the middle of writing. *)
Theorem C11_upload_crash_points : forall exec sha512 s f c m o g x v',
  encodable (PUpload f c m o g) -> regular_target s f ->
  conn_upload exec sha512 f c m o g (Remote s Up) = (x, v') ->
  unaffected s (r_os v') \/
  exists pl n, names (o_fs (r_os v')) (o_cwd s) f true pl n /\ only_files s (r_os v') /\ others_same (o_fs s) (o_fs (r_os v')) pl /\
    (exists k, n_kind n = KFile (take k c)) /\
    (o_fs s !! pl = None ->
      n_mode n = 384%N \/ (n_kind n = KFile c /\ exists m0 z, m = Some m0 /\ py_int 8 m0 = Some z /\ perm_bits (n_mode n) (Z.to_N (z mod 4096)))).
Proof. exact C11_lemma. Qed.
Print Assumptions C11_upload_crash_points.
(** the write fails after two bytes *)
Example C11_example :
  let '(x, v) := conn_upload echo fake_hash (lit "/tmp/x") (blit "secret") (Some (lit "644")) None None (Remote (with_faults [FOk; FErr 28 2]) Up) in
  x = Err (RemoteOSError 28 [] []) /\ o_fs (r_os v) !! [lit "x"; lit "tmp"] = Some (Node (KFile (blit "se")) 384 0 0 200 200).
Proof. vm_compute. split; reflexivity. Qed.

(** C12. The full claim:
      forall exec sha512 s f c m o g x v' pl n z, ... upload fails at some point ... -> py_int 8 m = Some z ->
        N.testbit z 2 = false (no access for others) -> N.testbit (n_mode n) 2 = false \/ n_kind n <> KFile c.
    It is false: the new content is stored before the mode is changed. *)
Theorem C12_overwrite_exposes_refuted : exists s f c m v' pl n,
  os_ok s /\ regular_target s f /\ py_int 8 m = Some 384%Z /\ N.testbit 384 2 = false /\
  (forall exec sha512, conn_upload exec sha512 f c (Some m) None None (Remote s Up) = (Err (RemoteOSError 5 [] []), v')) /\
  names (o_fs (r_os v')) (o_cwd s) f true pl n /\ n_kind n = KFile c /\ N.testbit (n_mode n) 2 = true.
Proof.
  exists (with_faults [FOk; FOk; FErr 5 0]), (lit "/etc/app.conf"), (blit "password"), (lit "600").
  exists (snd (conn_upload echo fake_hash (lit "/etc/app.conf") (blit "password") (Some (lit "600")) None None (Remote (with_faults [FOk; FOk; FErr 5 0]) Up))).
  exists [lit "app.conf"; lit "etc"], (Node (KFile (blit "password")) 420 0 0 200 200).
  split; [apply os_ok_faults; [exact demo_ok|repeat constructor; vm_compute; congruence]|].
  split; [intros pl n t H; exact (demo_regular _ pl n t H)|].
  split; [reflexivity|]. split; [reflexivity|]. split; [intros; vm_compute; reflexivity|].
  split; [|split; reflexivity]. apply resolve_names; vm_compute; reflexivity.
Qed.
Print Assumptions C12_overwrite_exposes_refuted.
(** What remains true: files that did not exist (C11), and files that others cannot read already. *)
Theorem C12_overwrite_exposes_partial : forall exec sha512 s f c m o g x v' pl n0 n z,
  encodable (PUpload f c (Some m) o g) -> regular_target s f ->
  conn_upload exec sha512 f c (Some m) o g (Remote s Up) = (x, v') ->
  names (o_fs s) (o_cwd s) f true pl n0 -> N.testbit (n_mode n0) 2 = false ->
  py_int 8 m = Some z -> N.testbit (Z.to_N (z mod 4096)) 2 = false ->
  o_fs (r_os v') !! pl = Some n -> N.testbit (n_mode n) 2 = false.
Proof. exact C12_partial_lemma. Qed.
Print Assumptions C12_overwrite_exposes_partial.

(** C13. Either no process was started and the caller gets an exception, or the process that was started has the
    requested arguments, input, ids, umask and directory, and the caller gets its result. *)
Theorem C13_run_identity : forall exec sha512 s c i chk u g m w r v',
  encodable (PProcessRun c i true u g m w) -> opt_ok (fun d => isabs d = true) w ->
  conn_run exec sha512 c i true chk u g m w (Remote s Up) = (r, v') ->
  (unaffected s (r_os v') /\ exists e, r = Err e) \/
  exists p s1 x, unaffected s s1 /\ exec p s1 = (x, r_os v') /\
    p_argv p = c /\ p_stdin p = i /\ run_ids s u g (p_uid p) (p_gid p) /\ run_umask m (p_umask p) /\ run_dir s w (p_cwd p) /\
    run_result chk c x r.
Proof.
  intros exec sha512 s c i chk u g m w r v' Henc Hw E.
  destruct (C13_lemma exec sha512 s c i chk u g m w r v' Henc E) as [H|(p & s1 & x & A1 & A2 & A3 & A4 & A5 & A6 & A7 & A8 & A9)]; [left; exact H|].
  right. exists p, s1, x. split_and!; auto. destruct w as [d|]; [|exact A8]. cbn in *.
  destruct A8 as (pl & n & Hn & Hk & n2 & Hn2 & Hk2). destruct (abs_twice _ _ _ _ _ _ _ Hw Hn Hn2) as [E1 E2].
  exists n. rewrite E1. auto.
Qed.
Print Assumptions C13_run_identity.
(** A valid request does start a process with this identity; its output and exit status are delivered and the connection
    stays usable. *)
Theorem C13_run_starts : forall exec sha512 s c i chk u g m w r v',
  packet_ok (PProcessRun c i true u g m w) -> opt_ok (fun d => isabs d = true) w -> o_faults s = [] -> o_uid s = 0%N ->
  c <> [] -> Forall (fun a => nul ∉ a) c ->
  opt_ok (fun m => exists z, py_int 8 m = Some z /\ c_int z) m ->
  opt_ok (fun u => nul ∉ u /\ exists a, denotes_user s u a) u -> opt_ok (fun g => nul ∉ g /\ exists a, denotes_group s g a) g ->
  opt_ok (fun d => exists pl n, resolve_node (o_fs s) (o_cwd s) d true = Ok (pl, n) /\ n_kind n = KDir) w ->
  conn_run exec sha512 c i true chk u g m w (Remote s Up) = (r, v') ->
  exists p x, exec p s = (x, r_os v') /\
    p_argv p = c /\ p_stdin p = i /\ run_ids s u g (p_uid p) (p_gid p) /\ p_groups p = o_groups s /\ run_umask m (p_umask p) /\
    run_dir s w (p_cwd p) /\ run_result chk c x r /\
    (forall rc out err, x = Ok (XExit rc out err) -> in_i32 rc -> small out -> small err -> v' = Remote (r_os v') Up).
Proof. exact C13_starts_lemma. Qed.
Print Assumptions C13_run_starts.
Definition reveal : proc -> M xres := fun p => pure (XExit (if (p_uid p =? 1000)%N && (p_gid p =? 100)%N && (p_umask p =? 18)%N then 0 else 1)%Z [] []).
Example C13_example :
  conn_run reveal fake_hash [lit "id"] None true true (Some (lit "alice")) None (Some (lit "022")) (Some (lit "/tmp")) (Remote demo Up)
    = (Ok (Completed (Some []) (Some []) 0), Remote demo Up).
Proof. vm_compute. reflexivity. Qed.
Example C13_example_check :
  fst (conn_run reveal fake_hash [lit "id"] None true true None (Some (lit "users")) None None (Remote demo Up))
    = Err (CalledProcessError 1 (Some []) (Some []) [lit "id"]).
Proof. vm_compute. reflexivity. Qed.

(** C14. The full claim: for a command run as a user, every group in [p_groups p] has the user as a member.
    It is false: the groups are always those of the dispatcher. *)
Definition member (s : os) (u : pystr) (gid : N) : Prop :=
  exists a, a ∈ o_passwd s /\ pw_name a = u /\ (pw_gid a = gid \/ exists g, g ∈ o_group s /\ gr_gid g = gid /\ u ∈ gr_mem g).
Theorem C14_groups_dropped_refuted : exists s u gid p, os_ok s /\ ~ member s u gid /\ gid ∈ p_groups p /\ p_uid p = 1000%N /\
  forall exec sha512 x s', exec p s = (x, s') ->
    r_os (snd (conn_run exec sha512 [lit "id"] None true true (Some u) None None None (Remote s Up))) = s'.
Proof.
  exists demo, (lit "alice"), 0%N, (Proc [lit "id"] None 1000 100 [0%N; 10%N] 63 []). split; [exact demo_ok|]. split; [|split; [left|split; [reflexivity|]]].
  - intros (a & Ha & Hn & [Hg|(g & Hg & Hi & Hm)]).
    + repeat (apply elem_of_cons in Ha as [-> |Ha]; [vm_compute in Hn, Hg; discriminate|]). inversion Ha.
    + repeat (apply elem_of_cons in Hg as [-> |Hg]; [first [vm_compute in Hi; discriminate|inversion Hm]|]). inversion Hg.
  - intros exec sha512 x s' E. unfold conn_run. cbv [mbind C_bind].
    assert (Henc : encodable (PProcessRun [lit "id"] None true (Some (lit "alice")) None None None)) by (eexists; vm_compute; reflexivity).
    destruct (request exec sha512 (PProcessRun [lit "id"] None true (Some (lit "alice")) None None None) (Remote demo Up)) as [y v'] eqn:Er.
    pose proof (request_state exec sha512 _ _ _ _ Henc Er) as Hs.
    assert (Hh : snd (handle exec sha512 (PProcessRun [lit "id"] None true (Some (lit "alice")) None None None) demo) = s').
    { cbn [handle]. unfold handle_run. cbn [validated_opt]. unfold validated.
      replace (resolve_user_id demo (lit "alice")) with (Ok (1000%N, 100%N) : result (N * N)) by (vm_compute; reflexivity).
      cbv [mbind M_bind bindM pure]. unfold spawn. cbv [mbind M_bind bindM pure getM].
      replace (existsb (has_char nul) [lit "id"]) with false by (vm_compute; reflexivity).
      match goal with |- context [in_child ?a ?b] => replace (in_child a b) with (Ok (Proc [lit "id"] None 1000 100 [0%N; 10%N] 63 []), demo) by (vm_compute; reflexivity) end.
      rewrite E. destruct x as [[]|e]; try destruct e; reflexivity. }
    rewrite Hh in Hs. rewrite <- Hs. destruct y as [[]|]; try reflexivity. match goal with |- context [if ?b then _ else _] => destruct b end; reflexivity.
Qed.
Print Assumptions C14_groups_dropped_refuted.
(** What holds: the groups are those of the dispatcher, whatever user is asked for. *)
Theorem C14_groups_dropped_partial : forall exec sha512 s c i chk u g m w r v',
  encodable (PProcessRun c i true u g m w) ->
  conn_run exec sha512 c i true chk u g m w (Remote s Up) = (r, v') ->
  (unaffected s (r_os v') /\ exists e, r = Err e) \/
  exists p s1 x, unaffected s s1 /\ exec p s1 = (x, r_os v') /\ p_groups p = o_groups s.
Proof.
  intros exec sha512 s c i chk u g m w r v' Henc E.
  destruct (C13_lemma exec sha512 s c i chk u g m w r v' Henc E) as [H|(p & s1 & x & A1 & A2 & A3 & A4 & A5 & A6 & A7 & A8 & A9)]; [left; exact H|].
  right. exists p, s1, x. auto.
Qed.
Print Assumptions C14_groups_dropped_partial.

(** C15. Resolving a name or number gives the name of an account, or a ValueError if it denotes none; resolving the result
    again gives the same name, and it denotes the same uid (gid) to [run] and [upload]. *)
Theorem C15_resolve_user : forall exec sha512 s u,
  c_string u -> Forall (fun a => c_string (pw_name a)) (o_passwd s) ->
  (exists a n, denotes_user s u a /\ pw_name a = n /\
     conn_resolve_user exec sha512 (Some u) (Remote s Up) = (Ok n, Remote s Up) /\
     conn_resolve_user exec sha512 (Some n) (Remote s Up) = (Ok n, Remote s Up) /\
     (NoDup (List.map pw_name (o_passwd s)) -> forall b c, denotes_user s u b -> denotes_user s n c -> pw_uid b = pw_uid c)) \/
  ((forall a, ~ denotes_user s u a) /\ exists msg, conn_resolve_user exec sha512 (Some u) (Remote s Up) = (Err (ValueError msg), Remote s Up)).
Proof.
  intros exec sha512 s u Hu Hp.
  assert (Hp' : Forall (fun a => str_ok (pw_name a)) (o_passwd s)) by (eapply Forall_impl; [exact Hp|]; intros a [Ha _]; apply short_ok; exact Ha).
  destruct (resolve_user_lemma exec sha512 s u Hu Hp') as [(a & Ha & E)|H]; [left|right; exact H].
  exists a, (pw_name a). split_and!; auto.
  - assert (Hn : c_string (pw_name a)) by (rewrite Forall_forall in Hp; apply Hp; apply Ha).
    destruct (resolve_user_lemma exec sha512 s (pw_name a) Hn Hp') as [(b & Hb & E2)|[H _]].
    + rewrite (name_denotes_user s u a b Ha Hb) in E2. exact E2.
    + exfalso. apply (H a). split; [apply Ha|left; reflexivity].
  - intros Hd b c Hb Hc. pose proof (name_denotes_user s u a c Ha Hc) as En.
    assert (c = a) as -> by (eapply NoDup_map_inj; [exact Hd|apply Hc|apply Ha|exact En]).
    destruct Ha as [Ha1 Ha2], Hb as [Hb1 Hb2]. destruct Ha2 as [<-|[Ha2 Ha3]], Hb2 as [Hb2|[Hb2 Hb3]].
    + f_equal. eapply NoDup_map_inj; [exact Hd|exact Hb1|exact Ha1|exact Hb2].
    + destruct (Hb2 a Ha1 eq_refl).
    + destruct (Ha2 b Hb1 Hb2).
    + rewrite Hb3 in Ha3. injection Ha3 as Ha3. lia.
Qed.
Print Assumptions C15_resolve_user.
Theorem C15_resolve_group : forall exec sha512 s u,
  c_string u -> Forall (fun a => c_string (gr_name a)) (o_group s) ->
  (exists a n, denotes_group s u a /\ gr_name a = n /\
     conn_resolve_group exec sha512 (Some u) (Remote s Up) = (Ok n, Remote s Up) /\
     conn_resolve_group exec sha512 (Some n) (Remote s Up) = (Ok n, Remote s Up) /\
     (NoDup (List.map gr_name (o_group s)) -> forall b c, denotes_group s u b -> denotes_group s n c -> gr_gid b = gr_gid c)) \/
  ((forall a, ~ denotes_group s u a) /\ exists msg, conn_resolve_group exec sha512 (Some u) (Remote s Up) = (Err (ValueError msg), Remote s Up)).
Proof.
  intros exec sha512 s u Hu Hp.
  assert (Hp' : Forall (fun a => str_ok (gr_name a)) (o_group s)) by (eapply Forall_impl; [exact Hp|]; intros a [Ha _]; apply short_ok; exact Ha).
  destruct (resolve_group_lemma exec sha512 s u Hu Hp') as [(a & Ha & E)|H]; [left|right; exact H].
  exists a, (gr_name a). split_and!; auto.
  - assert (Hn : c_string (gr_name a)) by (rewrite Forall_forall in Hp; apply Hp; apply Ha).
    destruct (resolve_group_lemma exec sha512 s (gr_name a) Hn Hp') as [(b & Hb & E2)|[H _]].
    + rewrite (name_denotes_group s u a b Ha Hb) in E2. exact E2.
    + exfalso. apply (H a). split; [apply Ha|left; reflexivity].
  - intros Hd b c Hb Hc. pose proof (name_denotes_group s u a c Ha Hc) as En.
    assert (c = a) as -> by (eapply NoDup_map_inj; [exact Hd|apply Hc|apply Ha|exact En]).
    destruct Ha as [Ha1 Ha2], Hb as [Hb1 Hb2]. destruct Ha2 as [<-|[Ha2 Ha3]], Hb2 as [Hb2|[Hb2 Hb3]].
    + f_equal. eapply NoDup_map_inj; [exact Hd|exact Hb1|exact Ha1|exact Hb2].
    + destruct (Hb2 a Ha1 eq_refl).
    + destruct (Ha2 b Hb1 Hb2).
    + rewrite Hb3 in Ha3. injection Ha3 as Ha3. lia.
Qed.
Print Assumptions C15_resolve_group.
Example C15_example :
  fst (conn_resolve_user echo fake_hash (Some (lit "0")) (Remote demo Up)) = Ok (lit "root") /\
  fst (conn_resolve_user echo fake_hash (Some (lit "1000")) (Remote demo Up)) = Ok (lit "1000") /\
  fst (conn_resolve_user echo fake_hash (Some (lit "7")) (Remote demo Up)) = Ok (lit "1000") /\
  fst (conn_resolve_user echo fake_hash None (Remote demo Up)) = Ok (lit "root") /\
  Forall (fun a => c_string (pw_name a)) (o_passwd demo).
Proof. repeat (split; [vm_compute; reflexivity|]). each; (split; [text|dec]). Qed.

(** C16. What stat tells about a path is true. *)
Theorem C16_stat_truthful : forall exec sha512 s p follow sha st v',
  encodable (PStat p follow sha) -> (forall pl n, o_fs s !! pl = Some n -> kind_ok (n_kind n)) ->
  conn_stat exec sha512 p follow sha (Remote s Up) = (Ok (Some st), v') ->
  unaffected s (r_os v') /\ r_link v' = Up /\
  exists pl n, names (o_fs s) (o_cwd s) p follow pl n /\ tells s n st /\
    st_sha st = match sha, n_kind n with true, KFile b => Some (sha512 b) | _, _ => None end.
Proof. exact stat_lemma. Qed.
Print Assumptions C16_stat_truthful.
(** The full claim: it returns None exactly if the path names nothing.  Proved: None implies that; if the path names
    nothing, the result is None or an OSError (a file used as a directory, too many symbolic links). *)
Theorem C16_stat_none_partial : forall exec sha512 s p follow sha x v',
  os_ok s -> hash_ok sha512 -> c_string p -> o_faults s = [] ->
  conn_stat exec sha512 p follow sha (Remote s Up) = (x, v') ->
  v' = Remote s Up /\
  ((exists pl n st, names (o_fs s) (o_cwd s) p follow pl n /\ x = Ok (Some st)) \/
   (x = Ok None /\ forall pl n, ~ names (o_fs s) (o_cwd s) p follow pl n) \/
   (x = Err (RemoteOSError ENOTDIR [] []) /\ forall pl n, ~ names (o_fs s) (o_cwd s) p follow pl n) \/
   x = Err (RemoteOSError ELOOP [] [])).
Proof. exact stat_complete. Qed.
Print Assumptions C16_stat_none_partial.
(** [forall s p, (forall pl n, ~ names ... p ... pl n) -> conn_stat p = Ok None] is false. *)
Theorem C16_stat_none_refuted : exists s p, os_ok s /\ c_string p /\ o_faults s = [] /\
  (forall pl n, ~ names (o_fs s) (o_cwd s) p true pl n) /\
  forall exec sha512, fst (conn_stat exec sha512 p true false (Remote s Up)) = Err (RemoteOSError ENOTDIR [] []).
Proof.
  exists demo, (lit "/etc/app.conf/x"). split; [exact demo_ok|]. split; [split; [text|dec]|]. split; [reflexivity|]. split.
  - intros pl n Hn. apply names_resolve in Hn as [Hn|Hn]; vm_compute in Hn; discriminate.
  - intros. vm_compute. reflexivity.
Qed.
Print Assumptions C16_stat_none_refuted.
Example C16_example :
  fst (conn_stat echo fake_hash (lit "/etc/link") true true (Remote demo Up)) =
    Ok (Some (StatRes (lit "file") (lit "644") (lit "root") (lit "root") 3 100 100 (Some (blit "old")))) /\
  fst (conn_stat echo fake_hash (lit "/etc/link") false true (Remote demo Up)) =
    Ok (Some (StatRes (lit "link") (lit "777") (lit "root") (lit "root") 8 100 100 None)) /\
  fst (conn_stat echo fake_hash (lit "/etc/none") true true (Remote demo Up)) = Ok None /\
  fst (conn_stat echo fake_hash (lit "/etc/loop") true true (Remote demo Up)) = Err (RemoteOSError ELOOP [] []).
Proof. vm_compute. split_and!; reflexivity. Qed.

(** C67. The full claim: for every working directory [d] that is a directory the command runs in it:
      ... conn_run with [Some d] ... -> run_dir s (Some d) (p_cwd p)       (without [isabs d])
    It is false: a relative directory is applied twice, so that such a command fails or runs elsewhere. *)
Theorem C67_relative_cwd_refuted :
  (exists s d pl n, os_ok s /\ names (o_fs s) (o_cwd s) d true pl n /\ n_kind n = KDir /\
     forall exec sha512, exists msg, fst (conn_run exec sha512 [lit "pwd"] None true true None None None (Some d) (Remote s Up)) = Err (ValueError msg)) /\
  (exists s d pl n, names (o_fs s) (o_cwd s) d true pl n /\ n_kind n = KDir /\
     forall sha512, fst (conn_run (fun p => pure (XExit (if bool_decide (p_cwd p = pl) then 0 else 1)%Z [] [])) sha512
       [lit "pwd"] None true false None None None (Some d) (Remote s Up)) = Ok (Completed (Some []) (Some []) 1)).
Proof.
  split.
  - exists demo, (lit "tmp"), [lit "tmp"], (demo_dir 1023). split; [exact demo_ok|].
    split; [apply resolve_node_names; vm_compute; reflexivity|]. split; [reflexivity|].
    intros. eexists. vm_compute. reflexivity.
  - exists (set_fs (<[[lit "tmp"; lit "tmp"] := demo_dir 511]> demo_fs) demo), (lit "tmp"), [lit "tmp"], (demo_dir 1023).
    split; [apply resolve_node_names; vm_compute; reflexivity|]. split; [reflexivity|].
    intros. vm_compute. reflexivity.
Qed.
Print Assumptions C67_relative_cwd_refuted.
(** What holds: [d] seen from [d]. *)
Theorem C67_relative_cwd_partial : forall exec sha512 s c i chk u g m d r v',
  encodable (PProcessRun c i true u g m (Some d)) ->
  conn_run exec sha512 c i true chk u g m (Some d) (Remote s Up) = (r, v') ->
  (unaffected s (r_os v') /\ exists e, r = Err e) \/
  exists p s1 x, unaffected s s1 /\ exec p s1 = (x, r_os v') /\
    exists pl n n2, names (o_fs s) (o_cwd s) d true pl n /\ n_kind n = KDir /\ names (o_fs s) pl d true (p_cwd p) n2 /\ n_kind n2 = KDir.
Proof.
  intros exec sha512 s c i chk u g m d r v' Henc E.
  destruct (C13_lemma exec sha512 s c i chk u g m (Some d) r v' Henc E) as [H|(p & s1 & x & A1 & A2 & A3 & A4 & A5 & A6 & A7 & A8 & A9)]; [left; exact H|].
  right. exists p, s1, x. split_and!; auto. destruct A8 as (pl & n & Hn & Hk & n2 & Hn2 & Hk2). eauto 10.
Qed.
Print Assumptions C67_relative_cwd_partial.
