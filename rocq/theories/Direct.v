(** What requests give when no system call fails. *)
From Coq Require Import Lia ZifyBool ZifyN ZifyNat.
From stdpp Require Import gmap.
From Verif Require Import Base Utf8 Codec Spec_Codec Codec_proofs Codec_proofs2 Paths Sys Spec_Sys Sys_proofs Dispatcher Client Spec_Session Session_proofs Spec_Remote
  Remote_safe Remote_proofs Remote_run.

Lemma walk_follow fs budget : forall l cur pl n, walk fs false budget cur l = Ok pl -> fs !! pl = Some n -> (forall t, n_kind n <> KLink t) ->
  walk fs true budget cur l = Ok pl.
Proof.
  intros l cur pl n H Hn Hk. revert l cur H.
  induction budget as [|b IHb]; induction l as [|c r IH]; intros cur H; rewrite walk_unfold in H |- *; try exact H;
    destruct (str_eqb c (lit ".")); try (eapply IH; eassumption);
    destruct (str_eqb c (lit "..")); try (eapply IH; eassumption);
    destruct (fs !! (c :: cur)) as [m|] eqn:E; try exact H;
    destruct (n_kind m) as [x| |t|x] eqn:K; try exact H; try (eapply IH; eassumption).
  - destruct r; cbn [negb] in H |- *; [|discriminate].
    injection H as <-. rewrite E in Hn. injection Hn as <-. destruct (Hk t K).
  - destruct r; cbn [negb] in H |- *.
    + injection H as <-. rewrite E in Hn. injection Hn as <-. destruct (Hk t K).
    + destruct t; [discriminate|]. apply IHb. exact H.
Qed.
Lemma resolve_node_follow fs cwd p follow pl n : resolve_node fs cwd p follow = Ok (pl, n) -> (forall t, n_kind n <> KLink t) ->
  resolve_node fs cwd p true = Ok (pl, n).
Proof.
  destruct follow; [auto|]. unfold resolve_node, resolve. intros H Hk. destruct (has_char nul p); [discriminate|]. destruct p as [|x p]; [discriminate|].
  destruct (walk fs false max_links _ _) as [pl'|] eqn:E; [|discriminate]. cbn in H. destruct (fs !! pl') as [n'|] eqn:En; [|discriminate].
  injection H as -> ->. rewrite (walk_follow _ _ _ _ _ _ E En Hk). cbn. rewrite En. reflexivity.
Qed.

(** what [stat] tells about a file *)
Definition statres_of (s : os) (n : node) (h : option bytes) : statres :=
  StatRes (node_type n) (oct_tail (Z.of_N (n_mode n)))
    (match getpwuid s (Z.of_N (n_uid n)) with Ok pw => pw_name pw | Err _ => str_of_N (n_uid n) end)
    (match getgrgid s (Z.of_N (n_gid n)) with Ok gr => gr_name gr | Err _ => str_of_N (n_gid n) end)
    (node_size n) (n_mtime n) (n_ctime n) h.
Section direct.
  Variable exec : proc -> M xres.
  Variable sha512 : bytes -> bytes.
  Definition stat_result (s : os) (p : pystr) (follow sha : bool) : result (option statres) :=
    match resolve_node (o_fs s) (o_cwd s) p follow with
    | Ok (_, n) => Ok (Some (statres_of s n (match sha, n_kind n with true, KFile b => Some (sha512 b) | _, _ => None end)))
    | Err (OSErr n a b) => if (n =? ENOENT)%Z then Ok None else Err (RemoteOSError n a b)
    | Err e => Err e
    end.
  Lemma stat_direct s p follow sha : os_ok s -> hash_ok sha512 -> c_string p -> o_faults s = [] ->
    conn_stat exec sha512 p follow sha (Remote s Up) = (stat_result s p follow sha, Remote s Up).
  Proof.
    intros Hs Hhash Hp Hf. destruct (conn_stat exec sha512 p follow sha (Remote s Up)) as [x v'] eqn:E.
    destruct Hp as [Hp Hnul].
    assert (Henc : encodable (PStat p follow sha)) by (apply packet_ok_write; cbn; apply short_ok; assumption).
    assert (Hsafe := handle_stat_ok sha512 Hhash p follow sha (conj Hp Hnul) s Hs).
    unfold conn_stat in E. unfold stat_result.
    destruct (handle exec sha512 (PStat p follow sha) s) as [rr s1] eqn:Hh. pose proof Hh as Hh0. cbn [handle] in Hh.
    rewrite Hh in Hsafe. unfold handle_stat in Hh. unfold sys_stat in Hh. rewrite syscall_ok in Hh by assumption.
    destruct (resolve_node (o_fs s) (o_cwd s) p follow) as [[pl n]|e] eqn:Er; cbn [fmap result_fmap snd] in Hh.
    2:{ assert (He := Er). apply resolve_node_err in He as [[? _]|[_ He]]; [contradiction|].
        destruct He as [-> |[-> | ->]]; cbv [oserr] in Hh; cbn in Hh; injection Hh as <- <-.
        - destruct (request_invalid exec sha512 (PStat p follow sha) s "path" [] s Henc Hh0) as [m Em].
          + apply packet_ok_invalid; [cbn; lia|apply nil_ok].
          + reflexivity.
          + rewrite Em in E. injection E as <- <-. reflexivity.
        - rewrite (request_oserr exec sha512 (PStat p follow sha) s _ _ _ s Henc Hh0) in E by (split_and!; [small_z|apply nil_ok|apply nil_ok]).
          injection E as <- <-. reflexivity.
        - rewrite (request_oserr exec sha512 (PStat p follow sha) s _ _ _ s Henc Hh0) in E by (split_and!; [small_z|apply nil_ok|apply nil_ok]).
          injection E as <- <-. reflexivity. }
    assert (Hn := resolve_node_names _ _ _ _ _ _ Er). cbn zeta in Hh.
    assert (Hdone : forall t m o g z mt ct h, rr = Ok (Reply [] (PStatResult t m o g z mt ct h)) -> s1 = s ->
      v' = Remote s Up /\ x = Ok (Some (StatRes t (oct_tail m) o g z mt ct h))).
    { intros t m o g z mt ct h -> ->. destruct Hsafe as [[_ Hok] _].
      rewrite (request_reply exec sha512 _ _ _ _ Henc Hh0 Hok) in E. injection E as <- <-. auto. }
    destruct (sha && str_eqb (node_type n) (lit "file")) eqn:Esha.
    - unfold sys_read in Hh. cbv [mbind M_bind bindM] in Hh. rewrite syscall_ok in Hh by assumption.
      apply andb_true_iff in Esha as [-> Et].
      assert (Hf' : exists b', n_kind n = KFile b').
      { destruct (str_eqb_spec (node_type n) (lit "file")) as [Et'|]; [|discriminate].
        unfold node_type in Et'. destruct (n_kind n) as [b'| |t|t] eqn:K; [eauto|discriminate Et'..|].
        destruct Hn as (_ & _ & _ & Hlk). pose proof (os_ok_files s Hs _ _ Hlk) as [Hk _]. rewrite K, Et' in Hk. cbn in Hk.
        apply (bool_decide_pack _) in Hk. vm_compute in Hk. destruct Hk. }
      destruct Hf' as [b' Hb']. rewrite (resolve_node_follow _ _ _ _ _ _ Er (fun t => ltac:(rewrite Hb'; discriminate))) in Hh.
      rewrite Hb' in Hh |- *. injection Hh as Hh <-. destruct (Hdone _ _ _ _ _ _ _ _ (eq_sym Hh) eq_refl) as [-> ->]. reflexivity.
    - injection Hh as Hh <-. destruct (Hdone _ _ _ _ _ _ _ _ (eq_sym Hh) eq_refl) as [-> ->]. unfold statres_of. repeat f_equal.
      destruct sha; [|reflexivity]. cbn in Esha. destruct (n_kind n) eqn:K; try reflexivity. unfold node_type in Esha. rewrite K in Esha. discriminate.
  Qed.
  Lemma resolve_user_direct s u : c_string u -> Forall (fun a => str_ok (pw_name a)) (o_passwd s) -> (exists a, denotes_user s u a) ->
    exists a, denotes_user s u a /\ conn_resolve_user exec sha512 (Some u) (Remote s Up) = (Ok (pw_name a), Remote s Up).
  Proof. intros H1 H2 [a Ha]. destruct (resolve_user_lemma exec sha512 s u H1 H2) as [H|[H _]]; [exact H|destruct (H a Ha)]. Qed.
  Lemma resolve_group_direct s u : c_string u -> Forall (fun a => str_ok (gr_name a)) (o_group s) -> (exists a, denotes_group s u a) ->
    exists a, denotes_group s u a /\ conn_resolve_group exec sha512 (Some u) (Remote s Up) = (Ok (gr_name a), Remote s Up).
  Proof. intros H1 H2 [a Ha]. destruct (resolve_group_lemma exec sha512 s u H1 H2) as [H|[H _]]; [exact H|destruct (H a Ha)]. Qed.
  Lemma os_ok_names s : os_ok s -> Forall (fun a => str_ok (pw_name a)) (o_passwd s) /\ Forall (fun a => str_ok (gr_name a)) (o_group s).
  Proof.
    intros (H1 & H2 & _). split; [eapply Forall_impl; [exact H1|]|eapply Forall_impl; [exact H2|]].
    - intros a Ha. apply Ha.
    - intros a Ha. apply Ha.
  Qed.
End direct.
