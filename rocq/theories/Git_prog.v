(** * A program that does what [git_program] demands: the demands can be met *)
From Coq Require Import Lia ZifyBool ZifyN ZifyNat.
From stdpp Require Import gmap.
From Verif Require Import Base Dict_proofs Codec Spec_Codec Paths Sys Spec_Sys Sys_proofs Dispatcher Client Spec_Remote Control Walk_proofs Op Spec_Files Steps Package_proofs Prop_Package Spec_Commands Spec_Account Spec_Service Spec_Git.
Local Open Scope nat_scope.

(** Checkouts are kept in [o_env], in three entries each.  Repositories are those of [server], which has an older and a newer state. *)
Section prog.
  Variable server : bool -> pystr -> upstream.
  Definition k_newer := lit "newer".
  Definition k_origin (p : pystr) := lit "origin " ++ p.
  Definition k_follows (p : pystr) := lit "follows " ++ p.
  Definition k_at (p : pystr) := lit "head " ++ p.
  Definition srv_up (s : os) (url : pystr) : upstream := server (dhas k_newer (o_env s)) url.
  Definition srv_checkout (s : os) (p : pystr) : option work :=
    match dget (k_origin p) (o_env s), dget (k_at p) (o_env s) with Some u, Some h => Some (Work u (dget (k_follows p) (o_env s)) h) | _, _ => None end.
  Definition drop_key (k : pystr) (e : list (pystr * pystr)) : list (pystr * pystr) := List.filter (fun x => negb (str_eqb x.1 k)) e.
  Definition record (p : pystr) (w : work) (e : list (pystr * pystr)) : list (pystr * pystr) :=
    dset (k_origin p) (w_origin w) (dset (k_at p) (w_head w) (match w_follows w with Some f => dset (k_follows p) f e | None => drop_key (k_follows p) e end)).
  (** the directories of a new checkout *)
  Definition place_of (p : pystr) : place := rev (List.filter (fun x => negb (str_eqb x [])) (split_char slash p)).
  Definition dirs (p : pystr) (fs : fsys) : fsys := <[lit ".git" :: place_of p := Node KDir 493 0 0 0 0]> (<[place_of p := Node KDir 493 0 0 0 0]> fs).

  Local Instance small_dec (out : bytes) : Decision (small out). Proof. unfold small. apply _. Defined.
  Definition say (out : bytes) (s : os) : result xres * os := if bool_decide (small out) then (Ok (XExit 0 out []), s) else (Ok (XExit 1 [] []), s).
  Definition done (n : Z) (s : os) : result xres * os := (Ok (XExit n [] []), s).
  Global Instance id_text_dec t : Decision (id_text t). Proof. unfold id_text, visible. apply _. Defined.
  Definition tell (t : pystr) (s : os) : result xres * os := if bool_decide (id_text t) then say (List.map n2b t ++ [n2b 10]) s else done 128 s.
  Definition head_prog (p : pystr) (s : os) := match srv_checkout s p with Some w => tell (w_head w) s | None => done 128 s end.
  Definition origin_prog (p : pystr) (s : os) := match srv_checkout s p with Some w => tell (w_origin w) s | None => done 1 s end.
  Definition list_prog (url pat : pystr) (s : os) :=
    let l := chosen (srv_up s url) pat in
    if bool_decide (l <> [] /\ Forall (fun r => id_text r.1 /\ id_text r.2) l) then say (lines l) s else done 2 s.
  Definition clone_prog (opts : list (pystr * pystr)) (url p : pystr) (s : os) :=
    let b := dget (lit "--branch") opts in
    match srv_checkout s p, tip (srv_up s url) b with
    | None, Some h => done 0 (set_fs (dirs p (o_fs s)) (set_env (record p (Work url (branch_ref (srv_up s url) b) h) (o_env s)) s))
    | _, _ => done 128 s
    end.
  Definition pull_prog (p : pystr) (s : os) :=
    match srv_checkout s p with
    | Some w => match w_follows w with
                | Some f => match dget f (up_refs (srv_up s (w_origin w))) with
                            | Some t => done 0 (set_env (record p (Work (w_origin w) (Some f) t) (o_env s)) s)
                            | None => done 1 s
                            end
                | None => done 1 s
                end
    | None => done 128 s
    end.
  Definition git_argv (argv : list pystr) (s : os) : result xres * os :=
    match argv with
    | g :: c :: rest =>
        if negb (str_eqb g (lit "git")) then (Ok (XFail (oserr ENOENT)), s)
        else if str_eqb c (lit "clone") then match getopt rest with (opts, [url; p]) => clone_prog opts url p s | _ => done 129 s end
        else if str_eqb c (lit "ls-remote") then match rest with [_; _; url; pat] => list_prog url pat s | _ => done 129 s end
        else match rest with
             | p :: v :: _ =>
                 if str_eqb v (lit "rev-parse") then head_prog p s
                 else if str_eqb v (lit "config") then origin_prog p s
                 else if str_eqb v (lit "pull") then pull_prog p s
                 else done 0 s
             | _ => done 1 s
             end
    | _ => (Ok (XFail (oserr ENOENT)), s)
    end.
  Definition git_exec (q : proc) : M xres := git_argv (p_argv q).

  Definition ends_well (x : result xres * os) : Prop := forall rc out err s', x = (Ok (XExit rc out err), s') -> (0 <= rc < 256)%Z /\ small out /\ err = [].
  Lemma done_ends n s : (0 <= n < 256)%Z -> ends_well (done n s).
  Proof. intros H rc out err s' [= <- <- <- _]. split; [exact H|]. split; [unfold small; cbn; lia|reflexivity]. Qed.
  Lemma say_ends out s : ends_well (say out s).
  Proof.
    unfold say. destruct (bool_decide (small out)) eqn:E; [|apply (done_ends 1); lia]. apply bool_decide_eq_true in E. intros rc o err s' [= <- <- <- _]. split; [lia|auto].
  Qed.
  Lemma tell_ends t s : ends_well (tell t s).
  Proof. unfold tell. destruct (bool_decide (id_text t)); [apply say_ends|apply done_ends; lia]. Qed.
  Lemma git_ends q s : ends_well (git_exec q s).
  Proof.
    assert (Hf : forall e, ends_well (Ok (XFail e), s)) by (intros e rc out err s' [=]).
    unfold git_exec, git_argv, clone_prog, list_prog, head_prog, origin_prog, pull_prog.
    repeat match goal with |- ends_well (match ?x with _ => _ end) => destruct x end;
      first [apply Hf|apply tell_ends|apply say_ends|apply done_ends; lia].
  Qed.
  Lemma git_bounded : bounded git_exec.
  Proof. intros q s rc out err s' E. destruct (git_ends q s rc out err s' E) as (H1 & H2 & ->). split; [unfold in_i32; lia|]. split; [exact H2|unfold small; cbn; lia]. Qed.

  Lemma say_quiet out s x s' : say out s = (x, s') -> unaffected s s' /\ forall o e, x = Ok (XExit 0 o e) -> o = out.
  Proof. unfold say. destruct (bool_decide (small out)); intros [= <- <-]; (split; [apply unaffected_refl|]); intros o e [=]; congruence. Qed.
  Lemma tell_quiet t s x s' : tell t s = (x, s') -> unaffected s s' /\ forall o e, x = Ok (XExit 0 o e) -> id_text t /\ o = List.map n2b t ++ [n2b 10].
  Proof.
    unfold tell. destruct (bool_decide (id_text t)) eqn:E.
    - intros H. apply say_quiet in H as [H1 H2]. split; [exact H1|]. intros o e Hx. split; [apply bool_decide_eq_true in E; exact E|eapply H2; exact Hx].
    - intros [= <- <-]. split; [apply unaffected_refl|]. intros o e [=].
  Qed.
  Lemma first_letter (a b : N) x y : a <> b -> a :: x <> b :: y. Proof. congruence. Qed.
  Ltac letters := vm_compute; congruence.
  Lemma dget_drop k k' e : dget k' (drop_key k e) = if str_eqb k' k then None else dget k' e.
  Proof.
    induction e as [|[x v] e IH]; [destruct (str_eqb k' k); reflexivity|].
    change (drop_key k ((x, v) :: e)) with (if negb (str_eqb x k) then (x, v) :: drop_key k e else drop_key k e).
    change (dget k' ((x, v) :: e)) with (if str_eqb k' x then Some v else dget k' e).
    destruct (str_eqb_spec x k) as [-> |Hx]; cbn [negb].
    - rewrite IH. destruct (str_eqb k' k); reflexivity.
    - change (dget k' ((x, v) :: drop_key k e)) with (if str_eqb k' x then Some v else dget k' (drop_key k e)). rewrite IH.
      destruct (str_eqb_spec k' x) as [-> |H]; [|reflexivity]. destruct (str_eqb_spec x k); [contradiction|reflexivity].
  Qed.
  Lemma dget_drop_other k k' e : k' <> k -> dget k' (drop_key k e) = dget k' e.
  Proof. intros H. rewrite dget_drop. destruct (str_eqb_spec k' k); [contradiction|reflexivity]. Qed.
  Lemma dget_drop_same k e : dget k (drop_key k e) = None.
  Proof. rewrite dget_drop, str_eqb_refl. reflexivity. Qed.
  Lemma record_checkout p w e s : srv_checkout (set_env (record p w e) s) p = Some w.
  Proof.
    unfold srv_checkout, record. cbn [o_env set_env]. rewrite dget_dset_same. rewrite dget_dset_other by letters. rewrite dget_dset_same.
    rewrite dget_dset_other by letters. rewrite dget_dset_other by letters. destruct w as [u f h]. cbn. destruct f as [f|]; [rewrite dget_dset_same|rewrite dget_drop_same]; reflexivity.
  Qed.
  Lemma record_newer p w e : dhas k_newer (record p w e) = dhas k_newer e.
  Proof.
    unfold dhas, record. rewrite !dget_dset_other by letters. destruct (w_follows w); [rewrite dget_dset_other by letters|rewrite dget_drop_other by letters]; reflexivity.
  Qed.
  Lemma record_up p w s : srv_up (set_env (record p w (o_env s)) s) = srv_up s.
  Proof. unfold srv_up. cbn [o_env set_env]. rewrite record_newer. reflexivity. Qed.

  Lemma git_ok : git_program git_exec srv_up srv_checkout (fun _ _ => True).
  Proof.
    split.
    - intros s s' H. rewrite H. split; reflexivity.
    - intros q s x s' path E Ex. assert (E1 : git_exec q s = head_prog path s) by (unfold git_exec; rewrite E; reflexivity). rewrite E1 in Ex. unfold head_prog in Ex.
      destruct (srv_checkout s path) as [w|]; [|injection Ex as <- <-; split; [apply unaffected_refl|intros o e [=]]].
      apply tell_quiet in Ex as [H1 H2]. split; [exact H1|]. intros o e Hx. destruct (H2 o e Hx). exists w. auto.
    - intros q s x s' url pat E Ex. assert (E1 : git_exec q s = list_prog url pat s) by (unfold git_exec; rewrite E; reflexivity). rewrite E1 in Ex. unfold list_prog in Ex. cbv zeta in Ex.
      destruct (bool_decide _) eqn:Eb; [|injection Ex as <- <-; split; [apply unaffected_refl|intros o e [=]]].
      apply bool_decide_eq_true in Eb as [K1 K2]. apply say_quiet in Ex as [H1 H2]. split; [exact H1|]. intros o e Hx _. split; [exact K1|]. split; [exact K2|]. eapply H2. exact Hx.
    - intros q s x s' path E Ex. assert (E1 : git_exec q s = origin_prog path s) by (unfold git_exec; rewrite E; reflexivity). rewrite E1 in Ex. unfold origin_prog in Ex.
      destruct (srv_checkout s path) as [w|]; [|injection Ex as <- <-; split; [apply unaffected_refl|intros o e [=]]].
      apply tell_quiet in Ex as [H1 H2]. split; [exact H1|]. intros o e Hx. destruct (H2 o e Hx). exists w. auto.
    - intros q s x s' args opts url path E Eo Ex. assert (E1 : git_exec q s = clone_prog opts url path s).
      { unfold git_exec. rewrite E. change (match getopt args with (opts, [url; p]) => clone_prog opts url p s | _ => done 129 s end = clone_prog opts url path s). rewrite Eo. reflexivity. }
      rewrite E1 in Ex. unfold clone_prog in Ex. cbv zeta in Ex. destruct (srv_checkout s path) as [w|] eqn:Ew; [injection Ex as <- <-; split; [reflexivity|intros o e [=]]|].
      destruct (tip (srv_up s url) (dget (lit "--branch") opts)) as [h|] eqn:Et; [|injection Ex as <- <-; split; [reflexivity|intros o e [=]]].
      injection Ex as <- <-. split; [apply (record_up path _ s)|]. intros o e _. split; [reflexivity|]. exists h. split; [reflexivity|]. exact (record_checkout path _ (o_env s) s).
    - intros q s x s' path depth rebase ff E Ex. assert (E1 : git_exec q s = pull_prog path s) by (unfold git_exec; rewrite E; reflexivity). rewrite E1 in Ex. unfold pull_prog in Ex.
      destruct (srv_checkout s path) as [w|] eqn:Ew; [|injection Ex as <- <-; split; [reflexivity|intros o e [=]]].
      destruct (w_follows w) as [f|] eqn:Ef; [|injection Ex as <- <-; split; [reflexivity|intros o e [=]]].
      destruct (dget f (up_refs (srv_up s (w_origin w)))) as [t|] eqn:Et; [|injection Ex as <- <-; split; [reflexivity|intros o e [=]]].
      injection Ex as <- <-. split; [apply record_up|]. intros o e _. exists w, f, t, t. split; [reflexivity|]. split; [exact Ef|]. split; [exact Et|]. split; [apply record_checkout|auto].
    - intros q s x s' path depth recursive E Ex. assert (E1 : git_exec q s = done 0 s) by (unfold git_exec; rewrite E; reflexivity). rewrite E1 in Ex. injection Ex as <- <-. auto.
  Qed.
End prog.
