(** Uploading contents: what save_content does to the system. *)
From Coq Require Import Lia ZifyBool ZifyN ZifyNat.
From stdpp Require Import gmap.
From Verif Require Import Base Utf8 Dict_proofs Digits Codec Spec_Codec Codec_proofs Codec_proofs2 Paths Sys Spec_Sys Sys_proofs Dispatcher Client Spec_Session Session_proofs Spec_Remote
  Remote_safe Remote_proofs Remote_upload Remote_run Direct Control Spec_Control Control_proofs Control_settle Quiet Thrift Op Op_proofs Files Coreutils Walk_proofs Spec_Files Shell_proofs Files_plain Steps Dir_proofs Transfer Converge.
Local Open Scope nat_scope.
Notation is_file := Dir_proofs.is_file.

(** the mode that is asked for, as the system takes it *)
Definition asked (m : option pystr) (z : N) : Prop := exists t i, m = Some t /\ py_int 8 t = Some i /\ z = Z.to_N (i mod 4096).
Lemma means_asked m z : means m z -> (z < 4096)%N -> asked m z.
Proof. intros (t & -> & H) Hz. exists t, (Z.of_N z). split; [reflexivity|]. split; [exact H|]. rewrite Z.mod_small by lia. lia. Qed.
Lemma asked_means m z z' : means m z -> (z < 4096)%N -> asked m z' -> z' = z.
Proof. intros (t & -> & H) Hz (t' & i & [= <-] & H' & ->). rewrite H in H'. injection H' as <-. rewrite Z.mod_small by lia. lia. Qed.

(** Nothing is there, whether or not a final link is followed. *)
Lemma walk_gone fs budget : forall l cur e, walk fs false budget cur l = Err e -> walk fs true budget cur l = Err e.
Proof.
  induction budget as [|b IHb]; induction l as [|c r IH]; intros cur e H; rewrite walk_unfold in H |- *; auto;
    destruct (str_eqb c (lit ".")); auto;
    destruct (str_eqb c (lit "..")); auto;
    destruct (fs !! (c :: cur)) as [m|] eqn:E; auto;
    destruct (n_kind m) as [x| |t|x] eqn:K; auto.
  - destruct r; [discriminate|exact H].
  - destruct r; [discriminate|]. cbn [negb] in *. destruct t; [exact H|]. apply IHb; auto.
Qed.
Lemma resolve_node_noent fs cwd p : resolve_node fs cwd p false = Err (oserr ENOENT) -> resolve_node fs cwd p true = Err (oserr ENOENT).
Proof.
  unfold resolve_node, resolve. destruct (has_char nul p); [discriminate|]. destruct p as [|x p]; [reflexivity|].
  destruct (walk fs false max_links _ (comps (x :: p))) as [pl|e] eqn:E; cbn [mbind result_bind].
  - intros H. destruct (fs !! pl) eqn:Ep; [discriminate|]. rewrite (walk_missing _ _ _ _ _ E Ep). cbn. rewrite Ep. reflexivity.
  - intros H. rewrite (walk_gone _ _ _ _ _ E). exact H.
Qed.

Lemma sits_from path s s1 s' pl n : unaffected s s1 -> sits path s1 s' pl n -> sits path s s' pl n.
Proof.
  intros Hu (H1 & H2 & H3). split; [eapply only_files_trans; [apply unaffected_only; exact Hu|exact H1]|]. split; [rewrite H2, (unaffected_fs _ _ Hu); reflexivity|exact H3].
Qed.

Section content.
  Variable rest : proc -> M xres.
  Variable sha512 : bytes -> bytes.
  Notation exec := (coreutils rest).

  (** *** Looking at the path first *)
  Definition look (sha : bool) (T msg : pystr) (f : state) (path : pystr) (cont : option statres -> W opres) : W opres :=
    st ← stat exec sha512 path false sha;
    match st with
    | Some x => if negb (str_eqb (st_type x) T) then mret (OpRes false false [] f (Some msg)) else cont st
    | None => cont st
    end.
  Definition sighted (sha : bool) (isk : kind -> Prop) (s : os) (path : pystr) (st : option statres) : Prop :=
    (st = None /\ resolve_node (o_fs s) [] path false = Err (oserr ENOENT)) \/
    (exists pl n, resolve_node (o_fs s) [] path false = Ok (pl, n) /\ isk (n_kind n) /\ st = Some (statres_of s n (content_hash sha512 n sha))).
  Lemma look_inv sha T msg f path cont isk s c x c' :
    unaffected s (sysof c) -> isabs path = true -> c_string path -> os_ok (sysof c) -> honest (sysof c) ->
    (forall n, node_ok n -> node_type n = T <-> isk (n_kind n)) ->
    look sha T msg f path cont c = (x, c') ->
    (unaffected s (sysof c') /\ (forall res, x = Ok res -> or_success res = false /\ or_changed res = false) /\
      (fine c -> hash_ok sha512 -> resolve_node (o_fs s) [] path false = Err (oserr ENOENT) \/ (exists pl n, resolve_node (o_fs s) [] path false = Ok (pl, n) /\ isk (n_kind n)) -> False)) \/
    (exists st c1, spends (sysof c) (sysof c1) /\ unaffected s (sysof c1) /\ sighted sha isk s path st /\ cont st c1 = (x, c') /\ (fine c -> hash_ok sha512 -> c1 = c)).
  Proof.
    intros Hu Ha Hp Hos Hh Hty E.
    assert (Hfs : o_fs (sysof c) = o_fs s) by (rewrite (unaffected_fs _ _ Hu); reflexivity).
    assert (Hst : forall n h, statres_of (sysof c) n h = statres_of s n h) by (intros n h; rewrite Hu; reflexivity).
    assert (Hnode : forall pl n, resolve_node (o_fs s) [] path false = Ok (pl, n) -> node_ok n).
    { intros pl n Hr. apply resolve_node_split in Hr as [_ Hr]. rewrite <- Hfs in Hr. apply Hos in Hr. exact Hr. }
    unfold look in E. apply bind_spec in E as [(st & c1 & Es & E)|(e & Es & ->)].
    - assert (Hsa := stat_any rest sha512 _ _ _ _ _ _ Es Ha (proj1 Hp)). destruct Hsa as (S1 & S2 & S3). specialize (S3 Hos Hh). rewrite Hfs in S3. cbn in S3.
      assert (Hu1 : unaffected s (sysof c1)) by (eapply unaffected_trans; eassumption).
      assert (Hfine1 : fine c -> hash_ok sha512 -> c1 = c).
      { intros [Hhl _] Hha. assert (Es' := stat_fine rest sha512 path false sha c Hhl Hos Hha Hp). rewrite Es' in Es. injection Es as _ ->. reflexivity. }
      destruct st as [st|].
      + destruct S3 as (pl & n & Hr & Hst'). rewrite Hst in Hst'. destruct (str_eqb_spec (st_type st) T) as [Ht|Ht]; cbn [negb] in E.
        * right. exists (Some st), c1. split; [exact (thrifty_stat exec sha512 _ _ _ _ _ _ Es)|]. split; [exact Hu1|]. split; [right; exists pl, n; split; [exact Hr|]; split; [apply (Hty n (Hnode _ _ Hr)); rewrite <- Ht, Hst'; reflexivity|rewrite Hst'; reflexivity]|].
          split; [exact E|exact Hfine1].
        * left. injection E as <- <-. split; [exact Hu1|]. split; [intros res [= <-]; auto|].
          intros _ _ [Hno|(pl' & n' & Hr' & Hk)]; [congruence|]. rewrite Hr in Hr'. injection Hr' as <- <-. destruct Ht. apply (Hty n (Hnode _ _ Hr)) in Hk. rewrite <- Hk, Hst'. reflexivity.
      + right. exists None, c1. split; [exact (thrifty_stat exec sha512 _ _ _ _ _ _ Es)|]. split; [exact Hu1|]. split; [left; auto|]. auto.
    - assert (Hsa := stat_any rest sha512 _ _ _ _ _ _ Es Ha (proj1 Hp)). destruct Hsa as (S1 & S2 & S3).
      left. split; [eapply unaffected_trans; eassumption|]. split; [discriminate|]. intros [Hhl _] Hha Hex.
      assert (Es' := stat_fine rest sha512 path false sha c Hhl Hos Hha Hp). rewrite Es' in Es. unfold stat_result in Es. rewrite (isabs_cwd_node _ _ [] _ _ Ha), Hfs in Es.
      destruct Hex as [Hno|(pl & n & Hr & _)]; [rewrite Hno in Es|rewrite Hr in Es]; discriminate Es.
  Qed.

  (** *** mode and owner *)
  Lemma attrs_step path attr st c r c' s pl n a b h : isabs path = true -> c_string path -> is_file (n_kind n) -> accounts_ok s -> accounts_of s attr a b -> s_file_mode attr <> None ->
    st = Some (statres_of s n h) -> sits path s (sysof c) pl n ->
    (_ ← wif (differ (seen_mode st) (s_file_mode attr)) (chmod_to exec sha512 path (s_file_mode attr));
     wif (differ (seen_owner st) (s_owner attr) || differ (seen_group st) (s_group attr)) (chown_to exec sha512 path attr)) c = (r, c') ->
    stepped path s pl n (fun n3 => good_owner attr a b n3 /\ (exists z, means (s_file_mode attr) z /\ ((z < 4096)%N \/ z = n_mode n) /\ (n_mode n3 = z \/ n_mode n3 = drop_suid z)) /\ n_mtime n3 = n_mtime n /\ (n_ctime n3 = n_ctime n \/ n_ctime n3 = o_now s)) (octal_below 4096 (s_file_mode attr)) c r c'.
  Proof.
    intros Ha Hp Hk Hac Hof Hm -> Hs E1. assert (Hk' : forall l, n_kind n <> KLink l) by (destruct Hk as [b' ->]; discriminate).
    set (st := Some (statres_of s n h)) in *.
    assert (E1' : (_ ← wif (differ (seen_mode st) (s_file_mode attr)) (chmod_to exec sha512 path (s_file_mode attr));
      _ ← wif (differ (seen_owner st) (s_owner attr) || differ (seen_group st) (s_group attr)) (chown_to exec sha512 path attr);
      wif false (sh exec sha512 [lit "touch"; lit "--"; path])) c = (r, c')).
    { rewrite <- E1. unfold mbind, W_bind. destruct (wif _ (chmod_to _ _ _ _) c) as [[[]|e] c2]; [|reflexivity].
      destruct (wif _ (chown_to _ _ _ _) c2) as [[[]|e] c3]; reflexivity. }
    destruct (adjust_step rest sha512 path (s_file_mode attr) false attr st c r c' s pl n a b Ha Hp Hk' Hac Hof E1' Hs) as (T1 & (n3 & T2 & T3 & T4) & T5).
    split; [exact T1|]. split; [|exact T5]. exists n3. split; [exact T2|]. split; [exact T3|]. intros Hr. specialize (T4 Hr).
    assert (R3 := adjusted_time _ _ _ _ _ _ _ _ _ T4).
    destruct T4 as (n1 & M & K1 & n2 & G & K2 & Ht). unfold timed in Ht. subst n3.
    split; [|split; [|exact R3]].
    - destruct G as [(G1 & G2 & ->)| ->]; [|unfold chowned; split; reflexivity].
      assert (Hgo : good_owner attr a b n) by (apply (seen_ok s attr a b n h Hac Hof); assumption).
      destruct M as [[_ ->]|(t' & v & _ & _ & ->)]; exact Hgo.
    - assert (Hm1 : exists z, means (s_file_mode attr) z /\ ((z < 4096)%N \/ z = n_mode n) /\ n_mode n1 = z).
      { destruct M as [[Hsm ->]|(t & v & Et & Hv & ->)].
        - exists (n_mode n). split; [|auto]. apply (seen_mode_ok s n h). exact Hsm.
        - exists v. split; [rewrite Et; exists t; split; [reflexivity|apply (gnu_value t v Hv)]|]. split; [left; apply (gnu_value t v Hv)|]. unfold chmoded, gnu_apply. cbn [n_mode]. destruct Hk as [b' ->]. reflexivity. }
      destruct Hm1 as (z & Z1 & Zb & Z2). exists z. split; [exact Z1|]. split; [exact Zb|]. destruct G as [(_ & _ & ->)| ->]; [left; exact Z2|].
      right. unfold chowned. cbn [n_mode]. rewrite K1. destruct Hk as [b' ->]. rewrite Z2. reflexivity.
  Qed.

  (** *** What may be there on the way, and what is there in the end *)
  Definition content_conf (content : bytes) (s : os) (pl : place) (n : node) : Prop :=
    (forall n0, o_fs s !! pl = Some n0 -> is_file (n_kind n0)) /\
    (part_of content (n_kind n) \/ exists n0, o_fs s !! pl = Some n0 /\ n_kind n = n_kind n0).
  (** the content is written if it differs from what is there, or nothing is there *)
  Definition delivered (content : bytes) (s : os) (pl : place) (n : node) : Prop :=
    match o_fs s !! pl with
    | Some n0 => exists b0, n_kind n0 = KFile b0 /\
        ((sha512 b0 = sha512 content /\ n_kind n = KFile b0 /\ n_mtime n = n_mtime n0) \/
         (sha512 b0 <> sha512 content /\ n_kind n = KFile content /\ n_mtime n = o_now s))
    | None => n_kind n = KFile content /\ n_mtime n = o_now s
    end.
  Definition content_good (content : bytes) (s : os) (attr : settings) (a : account) (b : grent) (pl : place) (n : node) : Prop :=
    good_owner attr a b n /\ (exists z, asked (s_file_mode attr) z /\ (n_mode n = z \/ n_mode n = drop_suid z)) /\ recent s pl n /\
    delivered content s pl n.
  Definition content_match (content : bytes) (s : os) (m : option pystr) (attr : settings) (n : node) : Prop :=
    matching s m attr n /\ exists d, n_kind n = KFile d /\ sha512 d = sha512 content.

  Lemma sighted_spot sha s path st : sighted sha is_file s path st -> spot s path.
  Proof. intros [[_ H]|(pl & n & H & [b Hb] & _)]; [left; exact H|right; eauto]. Qed.
  Lemma acceptable_attr s content attr a b : small content -> accounts_ok s -> accounts_of s attr a b -> octal_below 4096 (s_file_mode attr) ->
    acceptable s content (s_file_mode attr) (s_owner attr) (s_group attr).
  Proof.
    intros Hsm (A1 & A2 & A3 & A4) (Ha & Hb & Eo & Eg) (t & z & Et & _ & _ & Hsh & Hv & Hz). split; [exact Hsm|]. rewrite Et, Eo, Eg. cbn.
    split; [split; [exact Hsh|]; exists (Z.of_N z); split; [exact Hv|unfold c_int; lia]|].
    rewrite Forall_forall in A3. rewrite Forall_forall in A4. specialize (A3 _ Ha). specialize (A4 _ Hb). split.
    - split; [apply A3|]. exists a. split; [exact Ha|left; reflexivity].
    - split; [apply A4|]. exists b. split; [exact Hb|left; reflexivity].
  Qed.
  Lemma uploaded_good s pl content attr a b n : accounts_ok s -> accounts_of s attr a b -> s_file_mode attr <> None ->
    fresh s n -> (forall n0, o_fs s !! pl = Some n0 -> exists b0, n_kind n0 = KFile b0 /\ sha512 b0 <> sha512 content) ->
    uploaded s pl content (s_file_mode attr) (s_owner attr) (s_group attr) n -> content_good content s attr a b pl n.
  Proof.
    intros (A1 & A2 & A3 & A4) (Ha & Hb & Eo & Eg) Hm [F1 F2] Hold (U1 & U2 & z & U3 & U4).
    split; [|split; [|split; [split; left; assumption|]]].
    3:{ unfold delivered. destruct (o_fs s !! pl) as [n0|]; [|auto]. destruct (Hold n0 eq_refl) as (b0 & K0 & Hd). exists b0. auto. }
    - rewrite Eo, Eg in U2. cbn in U2. destruct U2 as (x & y & [X1 X2] & [Y1 Y2] & E1 & E2).
      assert (x = a) as ->. { destruct X2 as [X2|[X2 _]]; [apply (unique_key pw_name (o_passwd s)); auto|destruct (X2 a Ha eq_refl)]. }
      assert (y = b) as ->. { destruct Y2 as [Y2|[Y2 _]]; [apply (unique_key gr_name (o_group s)); auto|destruct (Y2 b Hb eq_refl)]. }
      split; assumption.
    - exists z. split; [|exact U4]. unfold base_mode in U3. destruct (s_file_mode attr) as [t|]; [|contradiction]. destruct U3 as (i & I1 & I2). exists t, i. auto.
  Qed.

  Lemma download_or_fine path c st : healthy c -> os_ok (sysof c) -> isabs path = true -> c_string path -> sighted true is_file (sysof c) path st ->
    exists d, download_or exec sha512 path None c = (Ok d, c).
  Proof.
    intros Hhl Hos Ha Hp [[_ Hno]|(pl & n & Hr & [b Hk] & _)].
    - assert (Hhl' := Hhl). destruct Hhl as (Hl & Hfl & _). exists None. unfold download_or, or_default, wtry. unfold mbind, W_bind.
      unfold download, via. unfold sysof in *. destruct (c_remote c) as [s l] eqn:Hrem. cbn [r_os r_link] in *. subst l.
      assert (Hread : sys_read path s = (Err (oserr ENOENT), s)).
      { unfold sys_read. rewrite syscall_calm by exact Hfl. rewrite (isabs_cwd_node _ _ [] _ _ Ha). rewrite (resolve_node_noent _ _ _ Hno). reflexivity. }
      assert (Hh2 : handle exec sha512 (PDownload path) s = (Ok (Reply [] (PInvalidField (lit "file") [])), s)).
      { cbn [handle]. unfold handle_download. rewrite Hread. reflexivity. }
      assert (Hd : encodable (PDownload path)). { apply packet_ok_write. cbn. apply short_ok. apply Hp. }
      unfold conn_download. cbv [mbind C_bind]. rewrite (request_reply exec sha512 _ _ _ _ Hd Hh2) by (apply packet_ok_invalid; [vm_compute; reflexivity|apply short_ok; unfold short; split; [apply Forall_nil; exact I|vm_compute; reflexivity]]).
      change (deliver (Some (PDownload path)) (PInvalidField (lit "file") [])) with (Err (ValueError (lit "Invalid value given for field '" ++ lit "file" ++ lit "': " ++ [])) : result packet).
      cbn [is_ValueError]. unfold mret, W_ret. rewrite <- Hrem, set_remote_self. reflexivity.
    - exists (Some b). unfold download_or, or_default, wtry. unfold mbind, W_bind. rewrite (download_fine exec sha512 path c pl n b); auto.
      apply resolve_node_split in Hr as [_ Hr]. destruct Hos as (_ & _ & _ & _ & _ & O6 & _). destruct (O6 _ _ Hr) as [O _]. rewrite Hk in O. exact O.
  Qed.

  Lemma content_work_any wd content path attr st s c r c' a b : unaffected s (sysof c) -> isabs path = true -> c_string path -> os_ok (sysof c) ->
    accounts_ok s -> accounts_of s attr a b -> s_file_mode attr <> None -> sighted true is_file s path st ->
    content_work exec sha512 false wd content path attr st c = (r, c') ->
    ((unaffected s (sysof c') /\ exists e, r = Err e) \/
     exists pl n, sits path s (sysof c') pl n /\ content_conf content s pl n /\ (r = Ok tt -> content_good content s attr a b pl n)) /\
    (fine c -> small content -> octal_below 4096 (s_file_mode attr) -> (st = None -> creatable s path) -> r = Ok tt /\ fine c').
  Proof.
    intros Hu Ha Hp Hos Hac Hof Hm Hst E. unfold content_work in E.
    assert (Hsp := sighted_spot _ _ _ _ Hst).
    assert (Hfs : o_fs (sysof c) = o_fs s) by (rewrite (unaffected_fs _ _ Hu); reflexivity).
    apply bind_spec in E as [([] & c1 & E1 & E)|(e & E & ->)].
    2:{ destruct wd; [|discriminate]. apply bind_spec in E as [(d & c1 & E & [=])|(e' & E & [= <-])]. split.
        - left. split; [eapply unaffected_trans; [exact Hu|exact (quiet_download_or exec sha512 _ _ _ _ _ E)]|eauto].
        - intros [Hhl _] _ _ _. destruct (download_or_fine path c st Hhl Hos Ha Hp) as [d Hd]; [|congruence]. rewrite Hu. exact Hst. }
    assert (Hc1 : unaffected s (sysof c1) /\ (fine c -> c1 = c)).
    { destruct wd.
      - apply bind_spec in E1 as [(d & c2 & E1 & [= <-])|(e' & E1 & [=])]. split; [eapply unaffected_trans; [exact Hu|exact (quiet_download_or exec sha512 _ _ _ _ _ E1)]|].
        intros [Hhl _]. destruct (download_or_fine path c st Hhl Hos Ha Hp) as [d' Hd]; [|congruence]. rewrite Hu. exact Hst.
      - injection E1 as <-. auto. }
    destruct Hc1 as [Hu1 Hfc]. clear E1.
    destruct (negb (there st) || bdiffer (seen_sha st) (Some (sha512 content))) eqn:Eb.
    - assert (Hsp1 : spot (sysof c1) path) by (rewrite Hu1; exact Hsp).
      destruct (upload_any exec sha512 path content _ _ _ c1 r c' E Ha Hsp1) as [Hset Hup]. split.
      + destruct Hup as [[U1 U2]|(pl & n & U1 & U2 & U3 & U4 & U5)]; [left; split; [eapply unaffected_trans; eassumption|exact U2]|right].
        exists pl, n. split; [eapply sits_from; eassumption|]. unfold target in U4. rewrite (unaffected_fs _ _ Hu1) in U4.
        split; [split; [intros n0 H0; rewrite H0 in U4; apply U4|left; exact U3]|]. intros ->. specialize (U5 eq_refl). rewrite Hu1 in U2, U5. apply uploaded_good; auto.
        intros n0 H0. rewrite H0 in U4. destruct U4 as [U4 [b0 K0]]. exists b0. split; [exact K0|].
        destruct Hst as [[_ Hno]|(pl' & n' & Hr & _ & Hst)]; [congruence|]. rewrite U4 in Hr. injection Hr as <- <-. rewrite Hst in Eb. cbn [there negb orb] in Eb. rewrite <- Hst in Eb.
        destruct (bdiffer_spec (seen_sha st) (Some (sha512 content))) as [H|H]; [|discriminate Eb]. rewrite Hst in H. unfold seen_sha, statres_of, content_hash in H. rewrite K0 in H. cbn in H. congruence.
      + intros Hf Hsm Ho Hcr. rewrite (Hfc Hf) in *. eapply upload_fine; try eassumption.
        * eapply acceptable_attr; eauto; [rewrite Hu; exact Hac|rewrite Hu; exact Hof].
        * intros Hno. rewrite Hu. apply Hcr. destruct Hst as [[-> _]|(pl & n & Hr & _)]; [reflexivity|rewrite Hfs in Hno; congruence].
    - destruct Hst as [[-> _]|(pl & n & Hr & [d Hk] & Hst)]; [discriminate Eb|]. rewrite Hst in Eb. cbn [there negb orb] in Eb.
      assert (Hsha : sha512 d = sha512 content).
      { rewrite <- Hst in Eb. destruct (bdiffer_spec (seen_sha st) (Some (sha512 content))) as [H|H]; [discriminate Eb|]. apply dec_stable in H. rewrite Hst in H.
        unfold seen_sha, statres_of, content_hash in H. rewrite Hk in H. cbn in H. congruence. }
      assert (Hsit : sits path s (sysof c1) pl n) by (apply (sits_unaffected _ _ s); [exact Hu1|]; apply sits_start; exact Hr).
      assert (Hn := Hr). apply resolve_node_split in Hn as [_ Hn].
      destruct (attrs_step path attr st c1 r c' s pl n a b _ Ha Hp (ex_intro _ d Hk) Hac Hof Hm Hst Hsit E) as (T1 & (n3 & T2 & T3 & T4) & T5). split.
      + right. exists pl, n3. split; [exact T2|]. split; [split; [intros n0 H0; assert (n0 = n) as -> by congruence; eexists; exact Hk|right; exists n; auto]|].
        intros Hok. destruct (T4 Hok) as (R1 & (z & Z1 & Z2 & Z3) & R3 & R4). split; [exact R1|]. split; [exists z; split; [|exact Z3]|].
        * apply means_asked; [exact Z1|]. destruct Z2 as [Z2| ->]; [exact Z2|]. rewrite <- Hfs in Hn. destruct Hos as (_ & _ & _ & _ & _ & O6 & _). apply (O6 _ _ Hn).
        * split; [split; [right; exists n; auto|destruct R4 as [R4|R4]; [right; exists n; auto|left; exact R4]]|]. unfold delivered. rewrite Hn. exists d. rewrite T3. auto.
      + intros Hf Hsm Ho Hcr. rewrite (Hfc Hf) in *. apply T5; auto.
  Qed.

  Lemma content_met content attr s n : is_file (n_kind n) ->
    py_eq (VDict (content_report (Some (statres_of s n (content_hash sha512 n true))))) (VDict (content_goal sha512 content attr)) = true <->
    content_match content s (s_file_mode attr) attr n.
  Proof.
    intros [d Hk]. unfold content_report, content_goal. rewrite content_state_eq. cbn [there Bool.eqb andb].
    set (st := statres_of s n (content_hash sha512 n true)).
    assert (Hsha : seen_sha (Some st) = Some (sha512 d)) by (unfold seen_sha, st, statres_of, content_hash; rewrite Hk; reflexivity). rewrite Hsha.
    unfold content_match, matching. change (seen_mode (Some (statres_of s n None))) with (seen_mode (Some st)).
    change (seen_owner (Some (statres_of s n None))) with (seen_owner (Some st)). change (seen_group (Some (statres_of s n None))) with (seen_group (Some st)).
    destruct (differ_spec (seen_mode (Some st)) (s_file_mode attr)) as [D|D]; [cbn [negb andb]; split; [discriminate|intros ((E & _) & _); congruence]|].
    destruct (differ_spec (seen_owner (Some st)) (s_owner attr)) as [D1|D1]; [cbn [negb andb]; split; [discriminate|intros ((_ & E & _) & _); congruence]|].
    destruct (differ_spec (seen_group (Some st)) (s_group attr)) as [D2|D2]; [cbn [negb andb]; split; [discriminate|intros ((_ & _ & E) & _); congruence]|].
    destruct (bdiffer_spec (Some (sha512 d)) (Some (sha512 content))) as [D3|D3]; cbn [negb andb].
    - split; [discriminate|]. intros (_ & d' & K & E). rewrite Hk in K. injection K as <-. congruence.
    - split; [intros _|reflexivity]. repeat match goal with H : ~ _ <> _ |- _ => apply dec_stable in H end. split; [auto|]. exists d. split; [exact Hk|congruence].
  Qed.
  Lemma content_look wd content path attr : content_body exec sha512 false wd content path attr =
    look true (lit "file") (lit "path '" ++ path ++ lit "' exists but is not a file!") (content_goal sha512 content attr) path
      (fun st => conclude (content_report st) (content_goal sha512 content attr) (content_work exec sha512 false wd content path attr st)).
  Proof. reflexivity. Qed.
  Lemma content_body_any wd content path attr s c x c' a b :
    unaffected s (sysof c) -> isabs path = true -> c_string path -> os_ok (sysof c) -> honest (sysof c) ->
    accounts_ok s -> accounts_of s attr a b -> s_file_mode attr <> None ->
    content_body exec sha512 false wd content path attr c = (x, c') ->
    (unaffected s (sysof c') \/ exists pl n, sits path s (sysof c') pl n /\ content_conf content s pl n) /\
    (forall res, x = Ok res -> or_success res = true ->
       exists pl n, sits path s (sysof c') pl n /\ content_conf content s pl n /\ content_good content s attr a b pl n /\ (or_changed res = false -> unaffected s (sysof c'))) /\
    (fine c -> hash_ok sha512 -> small content -> octal_below 4096 (s_file_mode attr) ->
       (resolve_node (o_fs s) [] path false = Err (oserr ENOENT) /\ creatable s path) \/ (exists pl n, resolve_node (o_fs s) [] path false = Ok (pl, n) /\ is_file (n_kind n)) ->
       exists res, x = Ok res /\ or_success res = true /\ fine c' /\
         (or_changed res = false <-> exists pl n, resolve_node (o_fs s) [] path false = Ok (pl, n) /\ content_match content s (s_file_mode attr) attr n)).
  Proof.
    intros Hu Ha Hp Hos Hh Hac Hof Hm E. rewrite content_look in E.
    destruct (look_inv _ _ _ _ _ _ is_file s c x c' Hu Ha Hp Hos Hh is_file_type E) as [(L1 & L2 & L3)|(st & c1 & L0 & L1 & L2 & L3 & L4)].
    { split; [left; exact L1|]. split; [intros res Hx Hs; destruct (L2 res Hx); congruence|]. intros Hf Hha _ _ Hex. destruct (L3 Hf Hha). destruct Hex as [[H _]|H]; auto. }
    clear E. assert (Hos1 := spends_os_ok _ _ L0 Hos).
    unfold conclude in L3. destruct (py_eq (VDict (content_report st)) (VDict (content_goal sha512 content attr))) eqn:Eq.
    - injection L3 as <- <-. destruct L2 as [[-> _]|(pl & n & Hr & Hk & ->)]; [unfold content_report, content_goal in Eq; rewrite content_state_eq in Eq; discriminate Eq|].
      apply (content_met content attr s n Hk) in Eq. assert (Hn := Hr). apply resolve_node_split in Hn as [_ Hn].
      assert (Hsit : sits path s (sysof c1) pl n) by (apply (sits_unaffected _ _ s); [exact L1|]; apply sits_start; exact Hr).
      assert (Hcf : content_conf content s pl n) by (split; [intros n0 H0; assert (n0 = n) as -> by congruence; exact Hk|right; exists n; auto]).
      split; [left; exact L1|]. split.
      + intros res [= <-] _. exists pl, n. split; [exact Hsit|]. split; [exact Hcf|]. split; [|auto].
        destruct Eq as ((M1 & M2 & M3) & d & Kd & Hd). split; [eapply seen_ok; eauto|]. split.
        * exists (n_mode n). split; [|auto]. apply means_asked; [eapply seen_mode_ok; symmetry; exact M1|]. assert (Hn' : o_fs (sysof c) !! pl = Some n) by (rewrite (unaffected_fs _ _ Hu); exact Hn).
          destruct Hos as (_ & _ & _ & _ & _ & O6 & _). apply (O6 _ _ Hn').
        * split; [split; right; exists n; auto|]. unfold delivered. rewrite Hn. exists d. auto.
      + intros Hf Hha _ _ _. eexists. split; [reflexivity|]. split; [reflexivity|]. split; [rewrite (L4 Hf Hha); exact Hf|]. split; [|reflexivity]. intros _. exists pl, n. auto.
    - assert (Hun : forall pl n, resolve_node (o_fs s) [] path false = Ok (pl, n) -> content_match content s (s_file_mode attr) attr n -> False).
      { intros pl n Hr Hmt. destruct L2 as [[-> He]|(pl' & n' & Hr' & Hk & ->)]; [congruence|]. rewrite Hr in Hr'. injection Hr' as <- <-.
        apply (content_met content attr s n Hk) in Hmt. congruence. }
      apply bind_spec in L3 as [([] & c2 & Ew & Ec)|(e & Ew & ->)].
      + injection Ec as <- <-. destruct (content_work_any wd content path attr st s c1 _ c2 a b L1 Ha Hp Hos1 Hac Hof Hm L2 Ew) as [[[_ [e [=]]]|(pl & n & W1 & W2 & W3)] W4]. split; [right; eauto|]. split.
        * intros res [= <-] _. exists pl, n. split; [exact W1|]. split; [exact W2|]. split; [auto|discriminate].
        * intros Hf Hha Hsm Ho Hex. rewrite (L4 Hf Hha) in *. destruct (W4 Hf Hsm Ho) as [_ Hf'].
          { intros ->. destruct Hex as [[_ H]|(pl' & n' & H & _)]; [exact H|]. destruct L2 as [[_ L2]|(pl2 & n2 & _ & _ & [=])]. congruence. }
          eexists. split; [reflexivity|]. split; [reflexivity|]. split; [exact Hf'|]. split; [discriminate|]. intros (pl' & n' & R1 & R2). destruct (Hun _ _ R1 R2).
      + destruct (content_work_any wd content path attr st s c1 _ c' a b L1 Ha Hp Hos1 Hac Hof Hm L2 Ew) as [H W4]. split.
        * destruct H as [[H _]|(pl & n & W1 & W2 & _)]; [left; exact H|right; eauto].
        * split; [discriminate|]. intros Hf Hha Hsm Ho Hex. rewrite (L4 Hf Hha) in *. destruct (W4 Hf Hsm Ho) as [[=] _].
          intros ->. destruct Hex as [[_ H']|(pl' & n' & H' & _)]; [exact H'|]. destruct L2 as [[_ L2]|(pl2 & n2 & _ & _ & [=])]. congruence.
  Qed.
End content.
