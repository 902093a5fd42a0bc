(** An upload of a directory that is only tried tells what the upload would tell. *)
From Coq Require Import Lia ZifyBool ZifyN ZifyNat.
From stdpp Require Import gmap.
From Verif Require Import Base Utf8 Codec Spec_Codec Codec_proofs Paths Sys Spec_Sys Sys_proofs Dispatcher Client Spec_Remote Remote_run Direct Control Spec_Control Control_proofs Control_settle Prop_Control Op Spec_Op Op_proofs Coreutils Files Walk_proofs Files_plain Spec_Files Shell_proofs Thrift Steps Dir_proofs Transfer Converge Content_proofs Sound Frugal Dry_proofs Dry_files Spec_Tree Tree_proofs Prop_Files Prop_Content Tree_run.
Local Open Scope nat_scope.

Lemma settles_unique s base reqs x y : accounts_ok s -> unaliased s -> settles s base reqs x -> settles s base reqs y -> x = y.
Proof.
  intros Ha Hu (X1 & X2 & X3 & X4 & X5 & X6 & X7 & X8) (Y1 & Y2 & Y3 & Y4 & Y5 & Y6 & Y7 & Y8). destruct x, y; cbn in *. f_equal;
    try (eapply user_settles_unique; eassumption); try (eapply group_settles_unique; eassumption); try (eapply mode_settles_unique; eassumption). congruence.
Qed.

(** ** Below something missing, there is nothing *)
Lemma rooted_below fs P l : rooted fs -> fs !! P = None -> fs !! (l ++ P) = None.
Proof.
  intros Hr HP. induction l as [|x l IH]; [exact HP|]. cbn [app]. destruct (fs !! (x :: l ++ P)) as [n|] eqn:E; [|reflexivity].
  destruct (Hr x (l ++ P)) as [m Hm]; [eauto|congruence].
Qed.
Lemma walk_missing fs f x P m : plain_name x -> m <> [] -> fs !! P = None -> forall budget l cur, walk fs false budget cur (l ++ [x]) = Ok P ->
  walk fs f budget cur (l ++ x :: m) = Err (oserr ENOENT).
Proof.
  intros [Hx1 Hx2] Hm HP. induction budget as [|b IHb]; induction l as [|c r IH]; intros cur H; cbn [app] in *; rewrite walk_unfold in H |- *.
  1,3: (destruct (str_eqb_spec x (lit ".")); [contradiction|]); (destruct (str_eqb_spec x (lit "..")); [contradiction|]);
    (destruct (fs !! (x :: cur)) as [nd|] eqn:En; [exfalso; destruct (n_kind nd); cbn in H; rewrite ?walk_unfold in H; congruence|]); destruct m; [contradiction|reflexivity].
  all: destruct (str_eqb c (lit ".")); [apply IH; exact H|]; destruct (str_eqb c (lit "..")); [apply IH; exact H|].
  all: destruct (fs !! (c :: cur)) as [nd|] eqn:En; [|destruct r; reflexivity].
  all: destruct (n_kind nd) as [bb| |t|t] eqn:Ek; try (destruct r; cbn in H; discriminate H); try (apply IH; exact H).
  - assert (H1 : match r ++ [x] with [] => negb false | _ => false end = false) by (destruct r; reflexivity). rewrite H1 in H.
    assert (H2 : match r ++ x :: m with [] => negb f | _ => false end = false) by (destruct r; reflexivity). rewrite H2.
    destruct t as [|t0 t]; [discriminate|]. rewrite app_assoc in H |- *. apply IHb. exact H.
Qed.
Lemma resolve_missing fs ns P rel : Forall file_name ns -> ns <> [] -> Forall file_name rel -> rel <> [] ->
  resolve fs [] (path_of ns) false = Ok P -> fs !! P = None -> resolve_node fs [] (path_of (ns ++ rel)) false = Err (oserr ENOENT).
Proof.
  intros Hns Hne Hrel Hre H HP. rewrite resolve_path in H by assumption. unfold resolve_node. rewrite resolve_path; [|apply Forall_app_2; assumption|destruct ns; [contradiction|discriminate]].
  destruct ns as [|x ns _] using rev_ind; [contradiction|]. apply Forall_app in Hns as [_ Hx]. inversion Hx as [|? ? (_ & _ & _ & X4) _]; subst.
  rewrite <- app_assoc. cbn [app]. rewrite (walk_missing fs false x P rel X4 Hre HP _ _ _ H). reflexivity.
Qed.
(** the directories on the way, or the first of them that is missing *)
Lemma open_or_missing fs P rel : (exists k, fs !! P = Some k /\ n_kind k = KDir) ->
  (forall r1 r2 k, rel = r1 ++ r2 -> r1 <> [] -> fs !! (rev r1 ++ P) = Some k -> n_kind k = KDir) ->
  open_to fs P rel \/ exists r1 x r2, rel = r1 ++ x :: r2 /\ open_to fs P r1 /\ fs !! (x :: rev r1 ++ P) = None.
Proof.
  intros HP. induction rel as [|x rel IH] using rev_ind; intros Hk; [left; intros r1 r2 E; destruct r1; [contradiction|discriminate]|].
  destruct IH as [Ho|(r1 & y & r2 & -> & Ho & Hno)].
  - intros r1 r2 k -> Hn. apply (Hk r1 (r2 ++ [x])); [rewrite app_assoc; reflexivity|exact Hn].
  - destruct (fs !! (x :: rev rel ++ P)) as [k|] eqn:E; [left|right; exists rel, x, []; auto].
    intros r1 r2 Er Hn. destruct r2 as [|z r2 _] using rev_ind.
    + rewrite app_nil_r in Er. subst r1. assert (E' : fs !! (rev (rel ++ [x]) ++ P) = Some k) by (rewrite rev_app_distr; exact E).
      apply kind_lookup. exists k. split; [exact E'|]. apply (Hk (rel ++ [x]) [] k); [rewrite app_nil_r; reflexivity|exact Hn|exact E'].
    + rewrite app_assoc in Er. apply app_inj_tail in Er as [-> _]. apply (Ho r1 r2); [reflexivity|exact Hn].
  - right. exists r1, y, (r2 ++ [x]). split; [rewrite <- app_assoc; reflexivity|auto].
Qed.

Section tried.
  Variable rest : proc -> M xres.
  Variable sha512 : bytes -> bytes.
  Variable want_diff : bool.
  Notation exec := (coreutils rest).
  Variables (ns : list pystr) (dm fm owner group : option pystr).
  Hypothesis Hns : Forall file_name ns.
  Hypothesis Hne : ns <> [].
  Notation item_path := (item_path ns).
  Notation item_op := (item_op rest sha512 want_diff ns dm fm owner group).
  Notation item_q := (item_q dm fm owner group).
  Notation item_ok := (item_ok ns).
  Notation inv := (inv sha512 ns dm fm owner group).
  Notation do_items := (do_items rest sha512 want_diff ns dm fm owner group).

  Definition dry_op (it : item) : O opres :=
    match it with
    | IDir rel => directory exec sha512 true (path_of (ns ++ rel)) true false dm owner group
    | IFile rel b => upload_file exec sha512 true want_diff (Ok b) (last_name rel) (path_of (ns ++ rel)) fm owner group
    end.
  Definition dry_body (it : item) : settings -> W opres :=
    match it with
    | IDir rel => dir_body exec sha512 true (path_of (ns ++ rel)) true false
    | IFile rel b => content_body exec sha512 true want_diff b (path_of (ns ++ rel))
    end.
  Lemma no_into rel x : Forall file_name rel -> into_dir x (path_of (ns ++ rel)) = path_of (ns ++ rel).
  Proof. intros H. unfold into_dir. rewrite no_trailing; [reflexivity|]. apply Forall_app_2; assumption. Qed.
  Lemma dry_plain it : Forall file_name (rel_of it) ->
    yields (dry_op it) new_op (_ ← check_absolute_path (item_path it); script_defaults exec sha512 (item_q it) (dry_body it)).
  Proof.
    intros Hr. destruct it as [rel|rel b]; [apply directory_plain|]. cbn [dry_op dry_body Tree_run.item_path rel_of] in *.
    unfold upload_file. eapply yields_bind; [apply keeps_lift|]. intros []. rewrite no_into by exact Hr. cbv zeta.
    eapply yields_ext; [eapply yields_bind; [apply keeps_lift|intros b'; apply save_plain]|]. reflexivity.
  Qed.
  Lemma item_predicts it : predicts (item_op it) (dry_op it).
  Proof. destruct it; [apply predicts_directory|apply predicts_upload_file]. Qed.
  Lemma remotely_dry it d : remotely (dry_body it d).
  Proof.
    destruct it as [rel|rel b]; cbn [dry_body].
    - unfold dir_body. apply remotely_bind; [apply remotely_stat|]. intros st. cbv zeta. assert (H : forall i f, remotely (conclude i f (dir_work exec sha512 true (path_of (ns ++ rel)) true false d st))).
      { intros i f. unfold conclude. destruct (py_eq _ _); [apply remotely_ret|]. apply remotely_bind; [apply remotely_ret|]. intros. apply remotely_ret. }
      destruct st as [x|]; [destruct (negb _); [apply remotely_ret|]|]; apply H.
    - unfold content_body. apply remotely_bind; [apply remotely_stat|]. intros st. cbv zeta. assert (H : forall i f, remotely (conclude i f (content_work exec sha512 true want_diff b (path_of (ns ++ rel)) d st))).
      { intros i f. unfold conclude. destruct (py_eq _ _); [apply remotely_ret|]. apply remotely_bind; [|intros; apply remotely_ret]. unfold content_work.
        apply remotely_bind; [|intros; apply remotely_ret]. destruct want_diff; [|apply remotely_ret]. apply remotely_bind; [apply remotely_download_or|]. intros. apply remotely_ret. }
      destruct st as [x|]; [destruct (negb _); [apply remotely_ret|]|]; apply H.
  Qed.

  (** the body only looks at the path *)
  Lemma body_same it d c c0 res c' : item_ok it -> healthy c -> healthy c0 -> os_ok (sysof c) -> os_ok (sysof c0) -> hash_ok sha512 ->
    (forall sha, stat_result sha512 (sysof c) (item_path it) false sha = stat_result sha512 (sysof c0) (item_path it) false sha) ->
    dry_body it d c = (Ok res, c') -> dry_body it d c0 = (Ok res, c0).
  Proof.
    intros (I1 & I2 & I3) Hh Hh0 Hos Hos0 Hha Hst E. destruct it as [rel|rel b]; unfold Tree_run.item_path in *; cbn [dry_body rel_of] in *.
    - unfold dir_body in *. unfold mbind at 1, W_bind at 1 in E. rewrite (stat_fine rest sha512 _ false false c Hh Hos Hha I3), Hst in E.
      unfold mbind at 1, W_bind at 1. rewrite (stat_fine rest sha512 _ false false c0 Hh0 Hos0 Hha I3). destruct (stat_result sha512 (sysof c0) _ false false) as [st|e]; [|discriminate].
      cbv zeta in *. assert (H : forall i f, conclude i f (dir_work exec sha512 true (path_of (ns ++ rel)) true false d st) c = (Ok res, c') -> conclude i f (dir_work exec sha512 true (path_of (ns ++ rel)) true false d st) c0 = (Ok res, c0)).
      { intros i f. unfold conclude. destruct (py_eq _ _); intros [= <- _]; reflexivity. }
      destruct st as [x|]; [destruct (negb _); [injection E as <- _; reflexivity|]|]; apply H; exact E.
    - unfold content_body in *. unfold mbind at 1, W_bind at 1 in E. rewrite (stat_fine rest sha512 _ false true c Hh Hos Hha I3), Hst in E.
      unfold mbind at 1, W_bind at 1. rewrite (stat_fine rest sha512 _ false true c0 Hh0 Hos0 Hha I3). destruct (stat_result sha512 (sysof c0) (path_of (ns ++ rel)) false true) as [st|e] eqn:Es; [|discriminate].
      assert (Ha : isabs (path_of (ns ++ rel)) = true) by (apply path_of_isabs; destruct ns; [contradiction|discriminate]).
      assert (Hcont : sighted sha512 true is_file (sysof c0) (path_of (ns ++ rel)) st -> forall i f, conclude i f (content_work exec sha512 true want_diff b (path_of (ns ++ rel)) d st) c = (Ok res, c') ->
        conclude i f (content_work exec sha512 true want_diff b (path_of (ns ++ rel)) d st) c0 = (Ok res, c0)).
      { intros Hs i f. unfold conclude. destruct (py_eq _ _); [intros [= <- _]; reflexivity|]. intros E'.
        apply bind_spec in E' as [([] & c1 & _ & E')|(e & _ & [=])]. injection E' as <- _.
        assert (Hw : content_work exec sha512 true want_diff b (path_of (ns ++ rel)) d st c0 = (Ok tt, c0)).
        { unfold content_work. destruct want_diff; [|reflexivity]. destruct (download_or_fine rest sha512 _ c0 st Hh0 Hos0 Ha I3 Hs) as [dd Hd].
          unfold mbind, W_bind. rewrite Hd. reflexivity. }
        unfold mbind, W_bind. rewrite Hw. reflexivity. }
      unfold stat_result in Es. rewrite (isabs_cwd_node _ _ [] _ _ Ha) in Es.
      cbv zeta in *. destruct (resolve_node (o_fs (sysof c0)) [] (path_of (ns ++ rel)) false) as [[pl n]|e] eqn:Er.
      + injection Es as <-. cbn [st_type] in *. destruct (negb (str_eqb (st_type _) (lit "file"))) eqn:Et; [injection E as <- _; reflexivity|]. apply Hcont; [|exact E].
        right. exists pl, n. split; [exact Er|]. cbn in Et. apply negb_false_iff in Et. unfold node_type in Et. destruct (n_kind n) as [x| |x|x] eqn:Ek; try discriminate Et.
        * split; [eexists; reflexivity|]. unfold content_hash. rewrite Ek. reflexivity.
        * exfalso. assert (Hn : node_ok n) by (apply resolve_node_split in Er as [_ Hn]; eapply Hos0; exact Hn).
          assert (Ht : node_type n = lit "file") by (unfold node_type; rewrite Ek; destruct (str_eqb_spec x (lit "file")); [assumption|discriminate Et]).
          apply (is_file_type n Hn) in Ht as [y Hy]. congruence.
      + assert (Ee := Er). apply resolve_node_err in Ee as [[Hn _]|[_ Ee]]; [destruct I3 as [_ I3]; contradiction|].
        assert (e = oserr ENOENT) as -> by (destruct Ee as [-> |[-> | ->]]; [reflexivity|discriminate Es..]). injection Es as <-. apply Hcont; [left; auto|exact E].
  Qed.

  Lemma item_same it c c0 reqs res c' : item_ok it -> ready c reqs -> ready c0 reqs -> healthy c -> healthy c0 -> hash_ok sha512 -> unaliased (sysof c0) ->
    c_base c = c_base c0 -> only_files (sysof c0) (sysof c) -> feasible (sysof c) (c_base c) (reqs ++ [item_q it]) -> feasible (sysof c0) (c_base c0) (reqs ++ [item_q it]) ->
    (forall sha, stat_result sha512 (sysof c) (item_path it) false sha = stat_result sha512 (sysof c0) (item_path it) false sha) ->
    operation NotGiven (item_op it) c = (Ok res, c') -> operation NotGiven (dry_op it) c0 = (Ok res, c0).
  Proof.
    intros Hok Hrd Hrd0 Hh Hh0 Hha Hun Hb Hof Hfe Hfe0 Hst E. destruct (predicts_operation NotGiven _ _ _ _ _ (item_predicts it) E) as [v Ed].
    assert (Hy := dry_plain it (proj1 Hok)).
    assert (Ha : isabs (item_path it) = true) by (apply path_of_isabs; destruct ns; [contradiction|discriminate]).
    destruct Hrd as ((d0 & A1 & A2) & Hkb & Hac & Hos). destruct Hrd0 as ((d1 & B1 & B2) & Hkb0 & Hac0 & Hos0).
    destruct (op_fine exec sha512 NotGiven _ _ _ _ _ _ _ _ _ Hy Ha Ed A1 A2 Hh Hos Hha Hac Hfe) as (c1 & attr & x & c2 & F1 & F2 & F3 & F4 & F5 & F6 & _ & _ & F9).
    destruct (operation NotGiven (dry_op it) c0) as [r0 c0'] eqn:E0.
    destruct (op_fine exec sha512 NotGiven _ _ _ _ _ _ _ _ _ Hy Ha E0 B1 B2 Hh0 Hos0 Hha Hac0 Hfe0) as (e1 & attr' & y & e2 & G1 & G2 & G3 & G4 & G5 & G6 & _ & _ & G9).
    assert (attr' = attr) as ->.
    { rewrite Hb in F3. apply (settles_files _ _ _ _ _ Hof) in F3. eapply settles_unique; eassumption. }
    assert (x = Ok res) as ->.
    { destruct x as [x|]; cbn in F9; [|discriminate]. destruct F9 as [[[= ->] _]|(_ & _ & [=])]. reflexivity. }
    assert (Hs1 : sysof c1 = sysof c) by (unfold sysof; rewrite F1; reflexivity). assert (Hs2 : sysof e1 = sysof c0) by (unfold sysof; rewrite G1; reflexivity).
    rewrite (body_same it attr c1 e1 res c2 Hok) in G5; [|apply F2|apply G2|rewrite Hs1; exact Hos|rewrite Hs2; exact Hos0|exact Hha|rewrite Hs1, Hs2; exact Hst|exact F5].
    injection G5 as <- <-.
    assert (Hsu : or_success res = true).
    { rewrite (operation_plain NotGiven _ _ _ Hy) in Ed. apply verdict_outcome in Ed as (x & _ & Hx). destruct x as [x|]; cbn in Hx; [|discriminate].
      destruct Hx as [[[= <-] Hx]|(_ & _ & [=])]. auto. }
    cbn in G9. destruct G9 as [[-> _]|(Hf & _)]; [|congruence]. f_equal.
    destruct (op_any exec sha512 NotGiven _ _ _ _ _ _ _ _ _ Hy (remotely_dry it) E0 B1 B2) as [Hset _]. rewrite Hset, G6, G1. apply set_remote_self.
  Qed.

  (** ** The path of an item looks the same before and in the middle *)
  Lemma look_same c0 reqs P L done it l c : chained L -> NoDup (List.map rel_of L) -> L = done ++ it :: l -> inv c0 reqs P done c -> rel_of it <> [] -> item_ok it ->
    rooted (o_fs (sysof c0)) -> resolve (o_fs (sysof c0)) [] (path_of ns) false = Ok P ->
    forall sha, stat_result sha512 (sysof c) (item_path it) false sha = stat_result sha512 (sysof c0) (item_path it) false sha.
  Proof.
    intros Hch Hnd EL (_ & _ & _ & (Hd & Hof & Hg & Hout) & Hm) Hr (I1 & _ & _) Hroot HP sha. destruct Hd as (m & M1 & M2).
    assert (Ha : isabs (item_path it) = true) by (apply path_of_isabs; destruct ns; [contradiction|discriminate]).
    assert (Hres : resolve_node (o_fs (sysof c)) [] (item_path it) false = resolve_node (o_fs (sysof c0)) [] (item_path it) false).
    { unfold Tree_run.item_path. destruct (rel_of it) as [|x rel _] eqn:Er using rev_ind; [contradiction|]. apply Forall_app in I1 as [N1 N2]. inversion N2 as [|? ? N3 _]; subst.
      assert (Hdone : forall r1 r2, rel = r1 ++ r2 -> IDir r1 ∈ done).
      { intros r1 r2 ->. eapply (chained_prefix _ Hch (r2 ++ [x])); [reflexivity|rewrite Er, app_assoc; reflexivity|destruct r2; discriminate]. }
      assert (Ho : open_to (o_fs (sysof c)) P rel).
      { intros r1 r2 Hrel Hn1. destruct (Hm _ (Hdone r1 r2 Hrel)) as (k & K1 & attr & _ & _ & K2 & _). apply kind_lookup. exists k. split; [exact K1|exact K2]. }
      assert (Hplace : resolve (o_fs (sysof c)) [] (path_of (ns ++ rel ++ [x])) false = Ok (rev (rel ++ [x]) ++ P)) by (eapply resolve_at; eassumption).
      assert (Hsame : o_fs (sysof c) !! (rev (rel ++ [x]) ++ P) = o_fs (sysof c0) !! (rev (rel ++ [x]) ++ P)).
      { apply Hout. intros i Hin Eq. apply app_inv_tail in Eq. apply (f_equal (@rev _)) in Eq. rewrite !rev_involutive in Eq.
        rewrite List.map_app in Hnd. apply NoDup_app in Hnd as (_ & Hnd & _). apply (Hnd (rel_of i)); [apply elem_of_list_fmap; eauto|]. cbn [List.map]. rewrite Er, <- Eq. left. }
      assert (Hback : forall pl k k0, o_fs (sysof c) !! pl = Some k -> n_kind k = KDir -> o_fs (sysof c0) !! pl = Some k0 -> n_kind k0 = KDir).
      { intros pl k k0 K1 K2 K3. destruct (Hg _ _ K3) as (k' & K4 & K5). rewrite K1 in K4. injection K4 as <-. unfold shape in K5. rewrite K2 in K5. destruct (n_kind k0); congruence. }
      destruct (o_fs (sysof c0) !! P) as [k0|] eqn:EP.
      - assert (Hm' := M1). apply resolve_node_split in Hm' as [_ HmP]. assert (Hk0 := Hback _ _ _ HmP M2 EP).
        assert (Hn0 : resolve_node (o_fs (sysof c0)) [] (path_of ns) false = Ok (P, k0)) by (apply resolve_node_split; auto).
        destruct (open_or_missing (o_fs (sysof c0)) P rel) as [Ho0|(r1 & y & r2 & -> & Ho0 & Hno)].
        + exists k0. auto.
        + intros r1 r2 k Hrel Hn1 Hk. destruct (Hm _ (Hdone r1 r2 Hrel)) as (k' & K1 & attr & _ & _ & K2 & _). eapply Hback; eassumption.
        + unfold resolve_node. rewrite Hplace, (resolve_at _ ns P k0 rel x Hns Hne Hn0 Hk0 N1 N3 Ho0). cbn [mbind]. unfold mbind, result_bind. rewrite Hsame. reflexivity.
        + apply Forall_app in N1 as [N1 N4]. inversion N4 as [|? ? N5 N6]; subst.
          assert (H1 := resolve_at _ ns P k0 r1 y Hns Hne Hn0 Hk0 N1 N5 Ho0).
          assert (H2 : resolve_node (o_fs (sysof c0)) [] (path_of (ns ++ (r1 ++ y :: r2) ++ [x])) false = Err (oserr ENOENT)).
          { replace (ns ++ (r1 ++ y :: r2) ++ [x]) with ((ns ++ r1 ++ [y]) ++ (r2 ++ [x])) by (repeat (rewrite <- !app_assoc; cbn [app]); reflexivity).
            apply (resolve_missing _ (ns ++ r1 ++ [y]) (y :: rev r1 ++ P)).
            - repeat apply Forall_app_2; auto.
            - destruct ns; [contradiction|discriminate].
            - apply Forall_app_2; auto.
            - destruct r2; discriminate.
            - rewrite H1, rev_app_distr. reflexivity.
            - exact Hno. }
          rewrite H2. unfold resolve_node. rewrite Hplace. unfold mbind, result_bind. rewrite Hsame.
          replace (rev ((r1 ++ y :: r2) ++ [x]) ++ P) with ((x :: rev r2) ++ (y :: rev r1 ++ P)) by (rewrite !rev_app_distr; cbn; rewrite <- !app_assoc; reflexivity).
          rewrite (rooted_below _ _ _ Hroot Hno). reflexivity.
      - rewrite (resolve_missing _ ns P (rel ++ [x]) Hns Hne (Forall_app_2 _ _ _ N1 N2) ltac:(destruct rel; discriminate) HP EP).
        unfold resolve_node. rewrite Hplace. unfold mbind, result_bind. rewrite Hsame, (rooted_below _ _ _ Hroot EP). reflexivity. }
    unfold stat_result. rewrite (isabs_cwd_node _ (o_cwd (sysof c)) [] _ _ Ha), (isabs_cwd_node _ (o_cwd (sysof c0)) [] _ _ Ha), Hres.
    destruct (resolve_node (o_fs (sysof c0)) [] (item_path it) false) as [[pl n]|e]; [|reflexivity].
    unfold statres_of, getpwuid, getgrgid. rewrite (only_files_passwd _ _ Hof), (only_files_group _ _ Hof). reflexivity.
  Qed.

  (** ** Trying the plan *)
  Fixpoint do_dry (l : list item) : O unit :=
    match l with
    | [] => mret tt
    | it :: l => r ← olift (operation NotGiven (dry_op it)); _ ← add_nested_result (item_path it) r; do_dry l
    end.
  Lemma lift_ok {A} (m : W A) o c a c' : m c = (Ok a, c') -> olift m o c = (Ok (a, o), c').
  Proof. intros E. unfold olift, mbind, W_bind. rewrite E. reflexivity. Qed.
  Lemma add_elsewhere k res o o' c c' c0 : add_nested_result k res o c = (Ok (tt, o'), c') -> add_nested_result k res o c0 = (Ok (tt, o'), c0).
  Proof.
    unfold add_nested_result. rewrite !getO_bind. destruct (negb (op_nested o)); [discriminate|]. cbv zeta. destruct (dhas _ _ || dhas _ _); [discriminate|]. intros [= <- <-]. reflexivity.
  Qed.
  Lemma items_tried c0 reqs P L : chained L -> NoDup (List.map rel_of L) -> hash_ok sha512 -> unaliased (sysof c0) -> rooted (o_fs (sysof c0)) ->
    ready c0 reqs -> healthy c0 -> resolve (o_fs (sysof c0)) [] (path_of ns) false = Ok P ->
    (forall it, it ∈ L -> item_ok it /\ feasible (sysof c0) (c_base c0) (reqs ++ [item_q it])) ->
    forall l done c o o' c', L = done ++ l ->
    (forall it, it ∈ l -> rel_of it <> [] /\ forall n, o_fs (sysof c0) !! (rev (rel_of it) ++ P) = Some n -> item_fits it (n_kind n)) ->
    inv c0 reqs P done c -> healthy c -> do_items l o c = (Ok (tt, o'), c') -> do_dry l o c0 = (Ok (tt, o'), c0).
  Proof.
    intros Hch Hnd Hha Hun Hroot Hrd0 Hhl0 HP HL. induction l as [|it l IH]; intros done c o o' c' EL Hl Hi Hhl Ed; [injection Ed as <- _; reflexivity|].
    destruct (Hl it (elem_of_list_here _ _)) as [Hr Hfit]. assert (HitL : it ∈ L) by (rewrite EL; apply elem_of_app; right; left). destruct (HL it HitL) as [Hok Hfe].
    assert (Hi' := Hi). destruct Hi' as (Hset & Hrd & Hh & (_ & Hof & Hg & _) & _). assert (Hb : c_base c = c_base c0) by (rewrite Hset; reflexivity).
    assert (Hfec : feasible (sysof c) (c_base c) (reqs ++ [item_q it])) by (rewrite Hb; eapply feasible_grows; eassumption).
    cbn [Tree_run.do_items] in Ed. apply obind_spec in Ed as [(res & o1 & c1 & E1 & Ed)|(e & _ & [=])].
    apply bind_spec in E1 as [(res' & c2 & E1 & E2)|(e & _ & [=])]. injection E2 as -> -> ->.
    apply obind_spec in Ed as [([] & o2 & c3 & E2 & Ed)|(e & _ & [=])].
    destruct (item_works rest sha512 want_diff ns dm fm owner group Hns Hne it c (Ok res) c1 reqs Hok Hrd Hhl Hha) as (_ & _ & Hhl1); auto.
    { apply (unaliased_files _ _ Hof). exact Hun. }
    { eapply (item_attainable sha512); eassumption. }
    destruct (item_step rest sha512 want_diff ns dm fm owner group Hns Hne c0 reqs P L done it l c (Ok res) c1 Hch Hnd EL Hi Hr Hok E1) as [_ Hs]. destruct (Hs res eq_refl) as (Hi1 & _).
    assert (Hdry : operation NotGiven (dry_op it) c0 = (Ok res, c0)).
    { eapply (item_same it c c0 reqs res c1); eauto. eapply look_same; eassumption. }
    assert (c3 = c1) as -> by (apply (call_spec (CAdd (item_path it) res)) in E2 as [-> _]; reflexivity).
    cbn [do_dry]. rewrite (Op_proofs.obind_ok _ _ _ _ _ _ _ (lift_ok _ o1 _ _ _ Hdry)), (Op_proofs.obind_ok _ _ _ _ _ _ _ (add_elsewhere _ _ _ _ _ _ c0 E2)).
    eapply (IH (done ++ [it])); [rewrite <- app_assoc; exact EL|intros i Hin; apply Hl; right; exact Hin|exact Hi1|exact Hhl1|exact Ed].
  Qed.
  Lemma plan_tried c0 reqs l o o' c' : let L := IDir [] :: l in chained L -> NoDup (List.map rel_of L) -> hash_ok sha512 -> unaliased (sysof c0) -> rooted (o_fs (sysof c0)) ->
    (forall it, it ∈ L -> item_ok it /\ feasible (sysof c0) (c_base c0) (reqs ++ [item_q it])) -> ready c0 reqs -> healthy c0 ->
    attainable (fun k => k = KDir) (sysof c0) (path_of ns) ->
    (forall P it n, resolve (o_fs (sysof c0)) [] (path_of ns) false = Ok P -> it ∈ l -> o_fs (sysof c0) !! (rev (rel_of it) ++ P) = Some n -> item_fits it (n_kind n)) ->
    do_items L o c0 = (Ok (tt, o'), c') -> do_dry L o c0 = (Ok (tt, o'), c0).
  Proof.
    intros L Hch Hnd Hha Hun Hroot HL Hrd Hhl Hat Hfit Ed. assert (Hne' : forall it, it ∈ l -> rel_of it <> []).
    { intros it Hin En. unfold L in Hnd. cbn [List.map rel_of] in Hnd. apply NoDup_cons in Hnd as [Hnd' _]. apply Hnd'. rewrite <- En. apply elem_of_list_fmap. eauto. }
    assert (Hh : honest (sysof c0)) by (intros k Hk; destruct Hhl as (_ & Hf & _); rewrite Hf in Hk; inversion Hk).
    destruct (HL (IDir []) (elem_of_list_here _ _)) as [Hok Hfe]. assert (Hp : item_path (IDir []) = path_of ns) by (unfold Tree_run.item_path; cbn; rewrite app_nil_r; reflexivity).
    unfold L in Ed. cbn [Tree_run.do_items] in Ed. apply obind_spec in Ed as [(res & o1 & c1 & E1 & Ed)|(e & _ & [=])].
    apply bind_spec in E1 as [(res' & c2 & E1 & E2)|(e & _ & [=])]. injection E2 as -> -> ->.
    apply obind_spec in Ed as [([] & o2 & c3 & E2 & Ed)|(e & _ & [=])].
    destruct (item_works rest sha512 want_diff ns dm fm owner group Hns Hne (IDir []) c0 (Ok res) c1 reqs Hok Hrd Hhl Hha Hun Hfe) as (_ & _ & Hhl1); [rewrite Hp; exact Hat|exact E1|].
    destruct (first_any rest sha512 want_diff ns dm fm owner group Hns Hne c0 (Ok res) c1 reqs Hok Hrd Hh E1) as [_ Hs]. destruct (Hs res eq_refl) as (_ & _ & P & n & Hsit & Hi).
    assert (HP : resolve (o_fs (sysof c0)) [] (path_of ns) false = Ok P) by (eapply (top_place ns); [exact Hat|apply Hi|apply Hsit]).
    assert (Hdry : operation NotGiven (dry_op (IDir [])) c0 = (Ok res, c0)) by (eapply (item_same (IDir []) c0 c0 reqs res c1); eauto; apply only_files_refl).
    assert (c3 = c1) as -> by (apply (call_spec (CAdd (item_path (IDir [])) res)) in E2 as [-> _]; reflexivity).
    unfold L. cbn [do_dry]. rewrite (Op_proofs.obind_ok _ _ _ _ _ _ _ (lift_ok _ o1 _ _ _ Hdry)), (Op_proofs.obind_ok _ _ _ _ _ _ _ (add_elsewhere _ _ _ _ _ _ c0 E2)).
    eapply (items_tried c0 reqs P L Hch Hnd Hha Hun Hroot Hrd Hhl HP HL l [IDir []]); [reflexivity| |exact Hi|exact Hhl1|exact Ed].
    intros it Hin. split; [auto|]. intros m Hm. eapply Hfit; eassumption.
  Qed.

  (** ** The operation tries the plan *)
  Lemma dry_app a b : forall o c, do_dry (a ++ b) o c = (_ ← do_dry a; do_dry b) o c.
  Proof.
    induction a as [|it a IH]; intros o c; [reflexivity|]. cbn [app do_dry]. rewrite obind_assoc. apply obind_ext; [reflexivity|]. intros r o1 c1. rewrite obind_assoc.
    apply obind_ext; [reflexivity|]. intros [] o2 c2. apply IH.
  Qed.
  Lemma dry_dirs rels : forall o c, nested_dirs exec sha512 true dm owner group (List.map (fun rel => path_of (ns ++ rel)) rels) o c = do_dry (List.map IDir rels) o c.
  Proof.
    induction rels as [|rel rels IH]; intros o c; [reflexivity|]. cbn [List.map nested_dirs do_dry]. apply obind_ext; [reflexivity|]. intros r o1 c1. apply obind_ext; [reflexivity|]. intros [] o2 c2. apply IH.
  Qed.
  Lemma dry_files l : forall o c, nested_files exec sha512 true want_diff fm owner group (List.map (fun x => (last_name (fst x), snd x, path_of (ns ++ fst x))) l) o c = do_dry (file_items l) o c.
  Proof.
    induction l as [|[rel b] l IH]; intros o c; [reflexivity|]. cbn [List.map nested_files fst snd]. destruct b as [b|].
    - change (file_items ((rel, Some b) :: l)) with (IFile rel b :: file_items l). cbn [do_dry]. rewrite obind_assoc. apply obind_ext; [reflexivity|]. intros r o1 c1. apply obind_ext; [reflexivity|]. intros [] o2 c2. apply IH.
    - exact (IH o c).
  Qed.
  Lemma dry_plan t src dest : is_dir t -> tree_ok t -> absolute dest -> lands src dest (path_of ns) -> forall o c,
    upload_dir exec sha512 true want_diff (Some t) src dest dm fm owner group o c = (_ ← nested true; _ ← do_dry (plan t); success) o c.
  Proof.
    intros [es Hes] Ht Hab Hl o c. unfold upload_dir. apply obind_ext; [reflexivity|]. clear o c. intros [] o c. rewrite Hes. rewrite <- Hes.
    assert (Hc : forall o c, olift (check_absolute_path dest) o c = (Ok (tt, o), c)).
    { intros o' c'. unfold olift. apply absolute_isabs in Hab. destruct (check_path dest c') as [[_ Hc]|[Hf _]]; [|congruence]. unfold mbind, W_bind. rewrite Hc. reflexivity. }
    rewrite (Op_proofs.obind_ok _ _ _ _ _ _ _ (Hc o c)). cbv zeta. rewrite (lands_into _ _ _ Hl). unfold plan.
    change (IDir [] :: List.map IDir (rdirs [] t) ++ file_items (rfiles [] t)) with (List.map IDir ([] :: rdirs [] t) ++ file_items (rfiles [] t)).
    assert (Hd : path_of ns :: walk_dirs (path_of ns) [] t = List.map (fun rel => path_of (ns ++ rel)) ([] :: rdirs [] t)).
    { cbn [List.map]. rewrite app_nil_r. f_equal. apply (walk_dirs_rel ns t Hns Hne Ht []). constructor. }
    assert (Hf := walk_files_rel ns t Hns Hne Ht [] (Forall_nil_2 _)). change (joined []) with ([] : pystr) in Hf.
    rewrite Hd, Hf.
    transitivity ((_ ← (_ ← do_dry (List.map IDir ([] :: rdirs [] t)); do_dry (file_items (rfiles [] t))); success) o c).
    - rewrite obind_assoc. apply obind_ext; [intros; apply dry_dirs|]. intros [] o1 c1. apply obind_ext; [intros; apply dry_files|reflexivity].
    - apply obind_ext; [intros o1 c1; symmetry; apply dry_app|reflexivity].
  Qed.
End tried.
