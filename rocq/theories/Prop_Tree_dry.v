(** C42: uploading a directory, tried (--dry). *)
From Coq Require Import Lia ZifyBool ZifyN ZifyNat.
From stdpp Require Import gmap.
From Verif Require Import Base Utf8 Codec Spec_Codec Paths Sys Spec_Sys Sys_proofs Dispatcher Client Spec_Remote Control Spec_Control Control_proofs Op Spec_Op Op_proofs Coreutils Files Walk_proofs Files_plain Spec_Files Steps Dir_proofs Converge Remote_examples Files_examples Spec_Tree Tree_proofs Prop_Control Prop_Files Prop_Content Tree_run Prop_Tree Tree_dry.
Local Open Scope nat_scope.

Section theorem.
  Variable rest : proc -> M xres.
  Variable sha512 : bytes -> bytes.
  Variable want_diff : bool.
  Notation exec := (coreutils rest).

  (** Whenever the upload would be carried out (the conditions of C53_works), trying it tells exactly what carrying it out from the same
      state tells, and leaves everything as it is.  The directories that the upload would create first do not exist in the dry run. *)
  Theorem C42_upload_dir_predict a c r c' reqs t src dest ns dm fm owner group :
    transfer t src dest ns -> ready c reqs -> healthy c -> hash_ok sha512 -> unaliased (sysof c) -> rooted (o_fs (sysof c)) ->
    feasible (sysof c) (c_base c) (reqs ++ [asking owner group None dm]) -> feasible (sysof c) (c_base c) (reqs ++ [asking owner group fm None]) ->
    attainable (fun k => k = KDir) (sysof c) (path_of ns) ->
    (forall P rel sub n, resolve (o_fs (sysof c)) [] (path_of ns) false = Ok P -> inside t rel sub -> rel <> [] -> o_fs (sysof c) !! (rev rel ++ P) = Some n ->
       (dir_like sub -> n_kind n = KDir) /\ forall b, file_like sub b -> regular (n_kind n)) ->
    operation a (upload_dir exec sha512 false want_diff (Some t) src dest dm fm owner group) c = (r, c') ->
    operation a (upload_dir exec sha512 true want_diff (Some t) src dest dm fm owner group) c = (r, c).
  Proof.
    intros Ht Hr Hhl Hha Hun Hroot F1 F2 Hat Hfit E. destruct (C53_works rest sha512 want_diff a c r c' reqs t src dest ns dm fm owner group Ht Hr Hhl Hha Hun F1 F2 Hat Hfit E) as (res & -> & _).
    destruct (tree_items rest sha512 want_diff t src dest ns dm fm owner group a c _ c' Ht E) as (x & Ed & Hres & _). destruct (Hres res eq_refl) as (o' & i & f & -> & Hi & Hf & ->).
    assert (Hok := transfer_items t src dest ns Ht). destruct Ht as (T1 & T2 & T3 & T4 & T5 & T6 & T7 & T8).
    assert (D : do_dry rest sha512 want_diff ns dm fm owner group (plan t) (Op true None None []) c = (Ok (tt, o'), c)).
    { eapply (plan_tried rest sha512 want_diff ns dm fm owner group T4 T5 c reqs); try eassumption; [apply plan_chained|apply plan_nodup; exact T2|..].
      - intros it Hit. split; [apply Hok; exact Hit|]. destruct it; [exact F1|exact F2].
      - intros P it n HP Hit Hn. assert (Hip : it ∈ plan t) by (right; exact Hit). assert (Hne : rel_of it <> []).
        { intros En. assert (Hnd := plan_nodup t T2). unfold plan in Hnd. cbn [List.map rel_of] in Hnd. apply NoDup_cons in Hnd as [Hnd _]. apply Hnd. apply elem_of_list_fmap. exists it. auto. }
        apply (plan_in t it T1) in Hip. destruct it as [rel|rel b]; destruct Hip as (sub & Hs & Hd); destruct (Hfit P rel sub n HP Hs Hne Hn) as [G1 G2]; cbn; [auto|]. apply (G2 b Hd). }
    unfold operation. unfold mbind at 1, W_bind at 1. rewrite (dry_plan rest sha512 want_diff ns dm fm owner group T4 T5 t src dest T1 T2 T6 T7).
    assert (Hn : (nested true) new_op c = (Ok (tt, Op true None None []), c)) by reflexivity. rewrite (Op_proofs.obind_ok _ _ _ _ _ _ _ Hn), (Op_proofs.obind_ok _ _ _ _ _ _ _ D).
    assert (Hu : unchanged false o' c = (Ok (py_eq (VDict i) (VDict f), o'), c)) by (unfold unchanged; rewrite getO_bind, Hi, Hf; reflexivity).
    assert (Hs : success o' c = (Ok (OpRes true (negb (py_eq (VDict i) (VDict f))) i f None, o'), c)) by (unfold success; rewrite getO_bind, Hi, Hf, (Op_proofs.obind_ok _ _ _ _ _ _ _ Hu); reflexivity).
    rewrite Hs. cbn [fst or_success negb]. rewrite andb_false_r. reflexivity.
  Qed.
End theorem.
Print Assumptions C42_upload_dir_predict.

(** ** A case that meets the hypotheses (the others are those of C53_case) *)
Definition housed (fs : fsys) (pl : place) : bool := match pl with [] => true | _ :: q => bool_decide (is_Some (fs !! q)) end.
Lemma housed_rooted fs : forallb (fun e => housed fs (fst e)) (map_to_list fs) = true -> rooted fs.
Proof.
  intros H x pl [n Hn]. rewrite forallb_forall in H. apply elem_of_map_to_list in Hn. apply elem_of_list_In in Hn. apply H in Hn. cbn in Hn.
  apply bool_decide_eq_true in Hn. exact Hn.
Qed.
Definition attempt t src dest := operation NotGiven (upload_dir (coreutils echo) fake_hash true true (Some t) src dest m755 m755 alice None).
Example C42_upload_dir_case : rooted (o_fs (sysof on_site)) /\
  result_of (attempt sample (lit "app") (lit "/srv/old/") on_site) = result_of (send sample (lit "app") (lit "/srv/old/") on_site) /\
  or_changed (result_of (attempt sample (lit "app") (lit "/srv/old/") on_site)) = true /\ length (or_final (result_of (attempt sample (lit "app") (lit "/srv/old/") on_site))) = 4.
Proof. split; [apply housed_rooted; vm_compute; reflexivity|]. split_and!; vm_compute; reflexivity. Qed.
