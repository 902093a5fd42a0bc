(** Lemmas about uploads. *)
From Coq Require Import Lia ZifyBool ZifyN ZifyNat.
From stdpp Require Import gmap.
From Verif Require Import Base Utf8 Utf8_proofs Codec Spec_Codec Codec_proofs Codec_proofs2 Paths Sys Spec_Sys Sys_proofs Dispatcher Client
  Spec_Session Session_proofs Spec_Remote Remote_safe Remote_proofs.

Lemma perm_bits_refl m : perm_bits m m.
Proof. intros i _. reflexivity. Qed.
Lemma perm_bits_trans a b c : perm_bits a b -> perm_bits b c -> perm_bits a c.
Proof. intros H1 H2 i Hi. rewrite H1, H2 by assumption. reflexivity. Qed.
Lemma ldiff_high m k : (10 <= k)%N -> perm_bits (N.ldiff m (2 ^ k)) m.
Proof.
  intros Hk i Hi. rewrite N.ldiff_spec. rewrite N.pow2_bits_false by lia. rewrite andb_true_r. reflexivity.
Qed.
Lemma drop_suid_perm m : perm_bits (drop_suid m) m.
Proof.
  unfold drop_suid, S_ISUID, S_ISGID. change 2048%N with (2 ^ 11)%N. change 1024%N with (2 ^ 10)%N.
  assert (perm_bits (N.ldiff m (2 ^ 11)) m) by (apply ldiff_high; lia).
  destruct (negb _); [|assumption]. eapply perm_bits_trans; [apply ldiff_high; lia|assumption].
Qed.

Definition is_file (n : node) : Prop := exists b, n_kind n = KFile b.
Lemma is_file_inert n : is_file n -> inert (Some n).
Proof. intros [b H]. cbn. rewrite H. exact I. Qed.

(** the file after it was opened *)
Definition opened (s : os) (pl : place) : node :=
  match o_fs s !! pl with
  | Some n => Node (KFile []) (n_mode n) (n_uid n) (n_gid n) (o_now s) (o_now s)
  | None =>
      let gid := match o_fs s !! parent pl with
                 | Some d => if negb (N.land (n_mode d) S_ISGID =? 0)%N then n_gid d else o_gid s
                 | None => o_gid s end in
      Node (KFile []) 384 (o_uid s) gid (o_now s) (o_now s)
  end.
(** The target is not a device or the like. *)
Definition regular_target (s : os) (f : pystr) : Prop :=
  forall pl n t, names (o_fs s) (o_cwd s) f true pl n -> n_kind n <> KOther t.
Definition plain_target (s : os) (f : pystr) : Prop :=
  forall pl n t, resolve (o_fs s) (o_cwd s) f true = Ok pl -> o_fs s !! pl = Some n -> n_kind n <> KOther t.
Lemma regular_plain s f : regular_target s f -> plain_target s f.
Proof. intros H pl n t H1 H2. eapply H. eapply resolve_names; eassumption. Qed.
(** just written *)
Definition fresh (s : os) (n : node) : Prop := n_mtime n = o_now s /\ n_ctime n = o_now s.
Lemma ldiff_twice m k : N.ldiff (N.ldiff m k) k = N.ldiff m k.
Proof. apply N.bits_inj. intros i. rewrite !N.ldiff_spec. destruct (N.testbit m i), (N.testbit k i); reflexivity. Qed.
Lemma ldiff_swap m j k : N.ldiff (N.ldiff m j) k = N.ldiff (N.ldiff m k) j.
Proof. apply N.bits_inj. intros i. rewrite !N.ldiff_spec. destruct (N.testbit m i), (N.testbit k i), (N.testbit j i); reflexivity. Qed.
Lemma land_ldiff_other m j k : N.land j k = 0%N -> N.land (N.ldiff m j) k = N.land m k.
Proof.
  intros H. apply N.bits_inj. intros i. rewrite !N.land_spec, N.ldiff_spec. assert (Hi : N.testbit (N.land j k) i = false) by (rewrite H; apply N.bits_0).
  rewrite N.land_spec in Hi. destruct (N.testbit m i), (N.testbit j i), (N.testbit k i); try reflexivity; discriminate Hi.
Qed.
Lemma drop_suid_twice m : drop_suid (drop_suid m) = drop_suid m.
Proof.
  unfold drop_suid. destruct (negb (N.land (N.ldiff m S_ISUID) S_IXGRP =? 0)%N) eqn:E.
  - rewrite (ldiff_swap _ S_ISGID S_ISUID), ldiff_twice. rewrite (land_ldiff_other _ S_ISGID S_IXGRP) by reflexivity. rewrite E. apply ldiff_twice.
  - rewrite ldiff_twice, E. reflexivity.
Qed.

(** [s'] is [s] with a file at [pl] *)
Definition holds (s s' : os) (pl : place) (n : node) : Prop := only_files s s' /\ o_fs s' = <[pl := n]> (o_fs s).

Lemma holds_step s s1 s2 pl n1 n2 : holds s s1 pl n1 -> only_files s1 s2 -> o_fs s2 = <[pl := n2]> (o_fs s1) -> holds s s2 pl n2.
Proof.
  intros [H1 H2] H3 H4. split; [eapply only_files_trans; eassumption|]. rewrite H4, H2. apply insert_insert.
Qed.
Lemma holds_unaffected s s1 s2 pl n : holds s s1 pl n -> unaffected s1 s2 -> holds s s2 pl n.
Proof.
  intros [H1 H2] H3. split; [eapply only_files_trans; [eassumption|apply unaffected_only; assumption]|].
  rewrite <- H2. unfold unaffected in H3. rewrite H3. reflexivity.
Qed.
Lemma holds_cwd s s' pl n : holds s s' pl n -> o_cwd s' = o_cwd s.
Proof. intros [H _]. unfold only_files in H. rewrite H. reflexivity. Qed.
Lemma holds_uid s s' pl n : holds s s' pl n -> o_uid s' = o_uid s.
Proof. intros [H _]. unfold only_files in H. rewrite H. reflexivity. Qed.
Lemma holds_now s s' pl n : holds s s' pl n -> o_now s' = o_now s.
Proof. intros [H _]. unfold only_files in H. rewrite H. reflexivity. Qed.

Lemma set_fs_only fs s : only_files s (set_fs fs s).
Proof. destruct s; reflexivity. Qed.

Lemma open_spec f s r s1 : sys_open_write f s = (r, s1) -> plain_target s f ->
  (unaffected s s1 /\ exists e, r = Err e) \/
  exists pl, r = Ok pl /\ resolve (o_fs s) (o_cwd s) f true = Ok pl /\ inert (o_fs s !! pl) /\ holds s s1 pl (opened s pl).
Proof.
  intros H Ht. apply syscall_inv in H as (s0 & Hs0 & [(n & -> & ->)|H]); [left; eauto|].
  assert (Ef : o_fs s0 = o_fs s) by (unfold unaffected in Hs0; rewrite Hs0; reflexivity).
  assert (Ec : o_cwd s0 = o_cwd s) by (unfold unaffected in Hs0; rewrite Hs0; reflexivity).
  assert (En : o_now s0 = o_now s) by (unfold unaffected in Hs0; rewrite Hs0; reflexivity).
  assert (Eu : o_uid s0 = o_uid s) by (unfold unaffected in Hs0; rewrite Hs0; reflexivity).
  assert (Eg : o_gid s0 = o_gid s) by (unfold unaffected in Hs0; rewrite Hs0; reflexivity).
  rewrite Ef, Ec, En, Eu, Eg in H.
  destruct (resolve (o_fs s) (o_cwd s) f true) as [pl|e] eqn:E; [|injection H as <- <-; left; eauto].
  destruct (o_fs s !! pl) as [n|] eqn:El.
  - destruct (n_kind n) eqn:K; try (injection H as <- <-; left; split; [assumption|eauto]; fail).
    + injection H as <- <-. right. exists pl. split_and!; auto; [rewrite El; cbn; rewrite K; exact I|].
      split; [|unfold opened; rewrite El; cbn; reflexivity].
      eapply only_files_trans; [apply unaffected_only; exact Hs0|apply set_fs_only].
    + exfalso. eapply Ht; [eassumption|eassumption|exact K].
  - injection H as <- <-. right. exists pl. split_and!; auto; [rewrite El; exact I|].
    split; [|unfold opened; rewrite El; cbn; reflexivity].
    eapply only_files_trans; [apply unaffected_only; exact Hs0|apply set_fs_only].
Qed.

Definition same_ids (n m : node) : Prop := n_uid n = n_uid m /\ n_gid n = n_gid m.

Lemma write_spec s s1 pl n c r s2 : sys_write pl c s1 = (r, s2) -> holds s s1 pl n -> is_file n ->
  exists n2 k, holds s s2 pl n2 /\ fresh s n2 /\ n_kind n2 = KFile (take k c) /\ (is_ok r = true -> take k c = c) /\ same_ids n2 n /\
    (n_mode n2 = n_mode n \/ n_mode n2 = drop_suid (n_mode n)).
Proof.
  intros H Hh [b Hb]. unfold sys_write in H.
  assert (Hf : exists s0, unaffected s1 s0 /\ (next_fault s1).2 = s0).
  { unfold next_fault. destruct (o_faults s1) as [|fl0 fl]; eexists; (split; [|reflexivity]); [apply unaffected_refl|reflexivity]. }
  destruct Hf as (s0 & Hs0 & E0). destruct (next_fault s1) as [ft s0']. cbn in E0. subst s0'.
  pose proof (holds_unaffected _ _ _ _ _ Hh Hs0) as Hh0.
  assert (El : o_fs s0 !! pl = Some n). { destruct Hh0 as [_ ->]. apply lookup_insert. }
  rewrite El, Hb in H.
  assert (Hput : forall d, let mode := if (o_uid s0 =? 0)%N then n_mode n else match d with [] => n_mode n | _ => drop_suid (n_mode n) end in
    holds s (set_fs (<[pl := Node (KFile d) mode (n_uid n) (n_gid n) (o_now s0) (o_now s0)]> (o_fs s0)) s0) pl (Node (KFile d) mode (n_uid n) (n_gid n) (o_now s0) (o_now s0))
    /\ (mode = n_mode n \/ mode = drop_suid (n_mode n))).
  { intros d mode. split.
    - eapply holds_step; [exact Hh0|apply set_fs_only|reflexivity].
    - subst mode. destruct (_ =? _)%N; [auto|]. destruct d; auto. }
  destruct ft as [|en k].
  - injection H as <- <-. destruct (Hput c) as [H1 H2]. eexists _, (length c).
    split; [exact H1|]. cbn. rewrite firstn_all. split; [split; exact (holds_now _ _ _ _ Hh0)|]. split_and!; auto. split; reflexivity.
  - injection H as <- <-. destruct (Hput (firstn k c)) as [H1 H2]. eexists _, k.
    split; [exact H1|]. cbn. split; [split; exact (holds_now _ _ _ _ Hh0)|]. split_and!; auto; [discriminate|]. split; reflexivity.
Qed.

Lemma chmod_spec s s1 pl n f m r s2 : sys_chmod f m s1 = (r, s2) -> holds s s1 pl n -> is_file n -> inert (o_fs s !! pl) ->
  resolve (o_fs s) (o_cwd s) f true = Ok pl ->
  (exists e, r = Err e /\ holds s s2 pl n) \/
  (r = Ok tt /\ exists n2, holds s s2 pl n2 /\ (fresh s n -> fresh s n2) /\ n_kind n2 = n_kind n /\ same_ids n2 n /\ n_mode n2 = Z.to_N (m mod 4096)).
Proof.
  intros H Hh Hn Hi Hr. unfold sys_chmod in H. destruct (_ || _)%bool; [injection H as <- <-; left; eauto|].
  apply syscall_inv in H as (s0 & Hs0 & [(en & -> & ->)|H]); [left; eexists; split; [reflexivity|]; eapply holds_unaffected; eassumption|].
  pose proof (holds_unaffected _ _ _ _ _ Hh Hs0) as Hh0.
  assert (E : resolve_node (o_fs s0) (o_cwd s0) f true = Ok (pl, n)).
  { unfold resolve_node. rewrite (holds_cwd _ _ _ _ Hh0). destruct Hh0 as [_ ->].
    rewrite (resolve_update _ _ _ _ _ n Hi (is_file_inert _ Hn) Hr). cbn. rewrite lookup_insert. reflexivity. }
  rewrite E in H. injection H as <- <-. right. split; [reflexivity|].
  eexists. split; [eapply holds_step; [exact Hh0|apply set_fs_only|reflexivity]|]. cbn.
  split; [intros [F1 _]; split; [exact F1|exact (holds_now _ _ _ _ Hh0)]|]. split_and!; auto. split; reflexivity.
Qed.
Lemma chown_spec s s1 pl n f u g r s2 : sys_chown f u g s1 = (r, s2) -> holds s s1 pl n -> is_file n -> inert (o_fs s !! pl) ->
  resolve (o_fs s) (o_cwd s) f true = Ok pl ->
  (exists e, r = Err e /\ holds s s2 pl n) \/
  (r = Ok tt /\ exists n2, holds s s2 pl n2 /\ (fresh s n -> fresh s n2) /\ n_kind n2 = n_kind n /\ n_uid n2 = u /\ n_gid n2 = g /\ n_mode n2 = drop_suid (n_mode n)).
Proof.
  intros H Hh Hn Hi Hr. unfold sys_chown in H.
  apply syscall_inv in H as (s0 & Hs0 & [(en & -> & ->)|H]); [left; eexists; split; [reflexivity|]; eapply holds_unaffected; eassumption|].
  pose proof (holds_unaffected _ _ _ _ _ Hh Hs0) as Hh0.
  assert (E : resolve_node (o_fs s0) (o_cwd s0) f true = Ok (pl, n)).
  { unfold resolve_node. rewrite (holds_cwd _ _ _ _ Hh0). destruct Hh0 as [_ ->].
    rewrite (resolve_update _ _ _ _ _ n Hi (is_file_inert _ Hn) Hr). cbn. rewrite lookup_insert. reflexivity. }
  rewrite E in H. injection H as <- <-. right. split; [reflexivity|].
  eexists. split; [eapply holds_step; [exact Hh0|apply set_fs_only|reflexivity]|].
  split; [intros [F1 _]; split; [exact F1|exact (holds_now _ _ _ _ Hh0)]|]. destruct Hn as [b Hb]. cbn. rewrite Hb. auto.
Qed.

(** ** The whole upload *)
Definition put (f : pystr) (c : bytes) (m : option Z) (uid gid : option N) : M reply :=
  pl ← sys_open_write f;
  _ ← sys_write pl c;
  _ ← match m with Some m => sys_chmod f m | None => pure tt end;
  _ ← match uid, gid with
      | None, None => pure tt
      | _, _ => sys_chown f (default 0%N uid) (default 0%N gid)
      end;
  answer POk.

(** how far an upload has come *)
Inductive stage (s : os) (pl : place) (c : bytes) (m : option Z) (uid gid : option N) : result reply -> node -> Prop :=
| sg_writing e n k : n_kind n = KFile (take k c) -> same_ids n (opened s pl) ->
    (n_mode n = n_mode (opened s pl) \/ n_mode n = drop_suid (n_mode (opened s pl))) -> stage s pl c m uid gid (Err e) n
| sg_mode e n z : m = Some z -> n_kind n = KFile c -> same_ids n (opened s pl) -> n_mode n = Z.to_N (z mod 4096) ->
    stage s pl c m uid gid (Err e) n
| sg_done n : n_kind n = KFile c ->
    match uid, gid with
    | None, None => same_ids n (opened s pl)
    | _, _ => n_uid n = default 0%N uid /\ n_gid n = default 0%N gid
    end ->
    match m with
    | Some z => perm_bits (n_mode n) (Z.to_N (z mod 4096))
    | None => perm_bits (n_mode n) (n_mode (opened s pl))
    end ->
    (m = None -> o_fs s !! pl = None -> n_mode n = 384%N) ->
    (let m0 := match m with Some z => Z.to_N (z mod 4096) | None => n_mode (opened s pl) end in n_mode n = m0 \/ n_mode n = drop_suid m0) ->
    stage s pl c m uid gid (Ok (Reply [] POk)) n.

Lemma put_spec f c m uid gid s r s' : put f c m uid gid s = (r, s') -> plain_target s f ->
  (unaffected s s' /\ exists e, r = Err e) \/
  exists pl n, resolve (o_fs s) (o_cwd s) f true = Ok pl /\ inert (o_fs s !! pl) /\ holds s s' pl n /\ fresh s n /\ stage s pl c m uid gid r n.
Proof.
  unfold put. intros H Ht. apply bind_inv in H as [(pl & s1 & H1 & H)|(e & H1 & ->)].
  2:{ apply open_spec in H1 as [[H1 _]|(? & [=] & _)]; [left; eauto|assumption]. }
  apply open_spec in H1 as [[_ [? [=]]]|(? & [= <-] & Hr & Hi & Hh1)]; [|assumption].
  assert (Hf1 : is_file (opened s pl)). { unfold opened. destruct (o_fs s !! pl); exists []; reflexivity. }
  right. exists pl.
  apply bind_inv in H as [([] & s2 & H2 & H)|(e & H2 & ->)].
  2:{ destruct (write_spec _ _ _ _ _ _ _ H2 Hh1 Hf1) as (n & k & Hh2 & Hfr & Hk & _ & Hid & Hm). exists n. split_and!; auto; try apply Hfr.
      eapply sg_writing; eauto. }
  destruct (write_spec _ _ _ _ _ _ _ H2 Hh1 Hf1) as (n2 & k & Hh2 & Hfr2 & Hk & Hfull & Hid & Hm). specialize (Hfull eq_refl).
  assert (Hf2 : is_file n2) by (eexists; exact Hk).
  apply bind_inv in H as [([] & s3 & H3 & H)|(e & H3 & ->)].
  2:{ destruct m as [m|]; [|discriminate].
      destruct (chmod_spec _ _ _ _ _ _ _ _ H3 Hh2 Hf2 Hi Hr) as [(e' & _ & Hh3)|([=] & _)].
      exists n2. split_and!; auto; try apply Hfr2. eapply sg_writing; eauto. }
  assert (H3' : exists n3, holds s s3 pl n3 /\ fresh s n3 /\ n_kind n3 = KFile c /\ same_ids n3 (opened s pl) /\
            match m with Some z => n_mode n3 = Z.to_N (z mod 4096)
                       | None => n_mode n3 = n_mode (opened s pl) \/ n_mode n3 = drop_suid (n_mode (opened s pl)) end).
  { destruct m as [m|].
    - destruct (chmod_spec _ _ _ _ _ _ _ _ H3 Hh2 Hf2 Hi Hr) as [(e' & [=] & _)|(_ & n3 & Hh3 & Hfr3 & Hk3 & Hid3 & Hm3)].
      exists n3. specialize (Hfr3 Hfr2). split_and!; auto; try apply Hfr3; [rewrite Hk3, Hk, Hfull; reflexivity|].
      destruct Hid, Hid3. split; congruence.
    - injection H3 as <-. exists n2. rewrite Hfull in Hk. auto. }
  destruct H3' as (n3 & Hh3 & Hfr3 & Hk3 & Hid3 & Hm3). assert (Hf3 : is_file n3) by (eexists; exact Hk3).
  assert (Hperm : forall n4, (n_mode n4 = n_mode n3 \/ n_mode n4 = drop_suid (n_mode n3)) ->
    match m with
    | Some z => perm_bits (n_mode n4) (Z.to_N (z mod 4096))
    | None => perm_bits (n_mode n4) (n_mode (opened s pl))
    end /\ (m = None -> o_fs s !! pl = None -> n_mode n4 = 384%N) /\
    (let m0 := match m with Some z => Z.to_N (z mod 4096) | None => n_mode (opened s pl) end in n_mode n4 = m0 \/ n_mode n4 = drop_suid m0)).
  { intros n4 H4. split; [|split].
    - assert (perm_bits (n_mode n4) (n_mode n3)). { destruct H4 as [-> | ->]; [apply perm_bits_refl|apply drop_suid_perm]. }
      destruct m; [rewrite Hm3 in *; assumption|].
      eapply perm_bits_trans; [eassumption|]. destruct Hm3 as [-> | ->]; [apply perm_bits_refl|apply drop_suid_perm].
    - intros -> En. assert (Em : n_mode (opened s pl) = 384%N) by (unfold opened; rewrite En; reflexivity).
      rewrite Em in Hm3. change (drop_suid 384) with 384%N in Hm3. assert (n_mode n3 = 384%N) as E3 by tauto.
      rewrite E3 in H4. change (drop_suid 384) with 384%N in H4. tauto.
    - destruct m; [rewrite Hm3 in H4; exact H4|]. cbn. destruct Hm3 as [Hm3|Hm3]; rewrite Hm3 in H4; [exact H4|]. rewrite drop_suid_twice in H4. tauto. }
  destruct uid as [u|], gid as [g|].
  4:{ cbv [mbind M_bind bindM pure answer] in H. injection H as <- <-. exists n3. split_and!; auto; try apply Hfr3.
      destruct (Hperm n3 (or_introl eq_refl)) as (Hp1 & Hp2 & Hp3). apply sg_done; assumption. }
  all: apply bind_inv in H as [([] & s4 & H4 & H)|(e & H4 & ->)];
    [ destruct (chown_spec _ _ _ _ _ _ _ _ _ H4 Hh3 Hf3 Hi Hr) as [(e' & [=] & _)|(_ & n4 & Hh4 & Hfr4 & Hk4 & Hu4 & Hg4 & Hm4)];
      injection H as <- <-; exists n4; specialize (Hfr4 Hfr3); split_and!; auto; try apply Hfr4;
      destruct (Hperm n4 (or_intror Hm4)) as (Hp1 & Hp2 & Hp3);
      apply sg_done; [rewrite Hk4; assumption|split; assumption|assumption|assumption|assumption]
    | destruct (chown_spec _ _ _ _ _ _ _ _ _ H4 Hh3 Hf3 Hi Hr) as [(e' & [= <-] & Hh4)|([=] & _)];
      exists n3; split_and!; auto; try apply Hfr3;
      destruct m as [z|]; [eapply sg_mode; eauto|eapply sg_writing with (k := length c); [rewrite firstn_all; assumption|assumption|assumption]] ].
Qed.

(** when nothing fails *)
Lemma open_ok f s pl : o_faults s = [] -> resolve (o_fs s) (o_cwd s) f true = Ok pl ->
  (o_fs s !! pl = None \/ exists n b, o_fs s !! pl = Some n /\ n_kind n = KFile b) -> exists s1, sys_open_write f s = (Ok pl, s1) /\ o_faults s1 = [].
Proof.
  intros Hf Hr Hn. unfold sys_open_write. rewrite syscall_ok by assumption. rewrite Hr.
  destruct Hn as [-> |(n & b & -> & ->)]; eexists; (split; [reflexivity|exact Hf]).
Qed.
Lemma put_ok f c m uid gid s pl : o_faults s = [] -> resolve (o_fs s) (o_cwd s) f true = Ok pl ->
  (o_fs s !! pl = None \/ exists n b, o_fs s !! pl = Some n /\ n_kind n = KFile b) -> opt_ok c_int m ->
  exists s', put f c m uid gid s = (Ok (Reply [] POk), s') /\ o_faults s' = [].
Proof.
  intros Hf Hr Hn Hm.
  assert (Ht : regular_target s f).
  { intros pl' n' t (_ & _ & H1 & H2) K. assert (pl' = pl) as ->.
    { unfold resolve in Hr. destruct (has_char nul f); [discriminate|]. destruct f as [|f0 f']; [discriminate|].
      destruct (leads_walk _ _ _ _ _ H1 max_links); congruence. }
    destruct Hn as [Hn|(n & b & Hn & Kn)]; congruence. }
  destruct (open_ok f s pl Hf Hr Hn) as (s1 & H1 & Hf1).
  pose proof (open_spec _ _ _ _ H1 (regular_plain _ _ Ht)) as [[_ [? [=]]]|(? & [= <-] & _ & Hi & Hh1)].
  assert (Hfile1 : is_file (opened s pl)). { unfold opened. destruct (o_fs s !! pl); exists []; reflexivity. }
  assert (H2 : exists s2, sys_write pl c s1 = (Ok tt, s2) /\ o_faults s2 = []).
  { unfold sys_write, next_fault. rewrite Hf1. eexists. split; [reflexivity|].
    destruct (o_fs s1 !! pl) as [x|]; [destruct (n_kind x)|]; exact Hf1. }
  destruct H2 as (s2 & H2 & Hf2). destruct (write_spec _ _ _ _ _ _ _ H2 Hh1 Hfile1) as (n2 & k & Hh2 & _ & Hk & _ & _ & _).
  assert (Hfile2 : is_file n2) by (eexists; exact Hk).
  assert (Hres : forall s0 n0, holds s s0 pl n0 -> is_file n0 -> resolve_node (o_fs s0) (o_cwd s0) f true = Ok (pl, n0)).
  { intros s0 n0 Hh0 Hn0. unfold resolve_node. rewrite (holds_cwd _ _ _ _ Hh0). destruct Hh0 as [_ ->].
    rewrite (resolve_update _ _ _ _ _ n0 Hi (is_file_inert _ Hn0) Hr). cbn. rewrite lookup_insert. reflexivity. }
  assert (H3 : exists s3 n3, match m with Some m => sys_chmod f m | None => pure tt end s2 = (Ok tt, s3) /\ holds s s3 pl n3 /\ is_file n3 /\ o_faults s3 = []).
  { destruct m as [z|]; [|exists s2, n2; auto]. cbn in Hm. unfold c_int in Hm.
    unfold sys_chmod. destruct (_ || _)%bool eqn:Ez; [lia|]. rewrite syscall_ok by assumption. rewrite (Hres s2 n2 Hh2 Hfile2).
    eexists _, _. split; [reflexivity|]. split; [eapply holds_step; [exact Hh2|apply set_fs_only|reflexivity]|].
    split; [destruct Hfile2 as [b Hb]; exists b; exact Hb|exact Hf2]. }
  destruct H3 as (s3 & n3 & H3 & Hh3 & Hfile3 & Hf3).
  assert (H4 : exists s4, match uid, gid with None, None => pure tt | _, _ => sys_chown f (default 0%N uid) (default 0%N gid) end s3 = (Ok tt, s4) /\ o_faults s4 = []).
  { assert (Hc : forall u g, exists s4, sys_chown f u g s3 = (Ok tt, s4) /\ o_faults s4 = []).
    { intros u g. unfold sys_chown. rewrite syscall_ok by assumption. rewrite (Hres s3 n3 Hh3 Hfile3). eexists. split; [reflexivity|exact Hf3]. }
    destruct uid, gid; try apply Hc. exists s3. auto. }
  destruct H4 as (s4 & H4 & Hf4).
  exists s4. split; [|assumption]. unfold put. rewrite (bind_ok _ _ _ _ _ H1), (bind_ok _ _ _ _ _ H2), (bind_ok _ _ _ _ _ H3), (bind_ok _ _ _ _ _ H4). reflexivity.
Qed.

Section upload.
  Variable exec : proc -> M xres.
  Variable sha512 : bytes -> bytes.

  (** the fields that were accepted *)
  Definition meaning_mode (m : option pystr) (z : option Z) : Prop :=
    match m, z with None, None => True | Some m, Some z => py_int 8 m = Some z | _, _ => False end.
  Definition meaning_owner (s : os) (o : option pystr) (z : option (N * N)) : Prop :=
    match o, z with
    | None, None => True
    | Some o, Some (u, g) => exists a, denotes_user s o a /\ u = pw_uid a /\ g = pw_gid a
    | _, _ => False end.
  Definition meaning_group (s : os) (o : option pystr) (z : option N) : Prop :=
    match o, z with
    | None, None => True
    | Some o, Some g => exists a, denotes_group s o a /\ g = gr_gid a
    | _, _ => False end.

  Lemma upload_put f c m o g s : 
    (exists p, handle_upload f c m o g s = (Ok (Reply [] p), s) /\ exists fl msg, p = PInvalidField fl msg) \/
    exists z ug gg, meaning_mode m z /\ meaning_owner s o ug /\ meaning_group s g gg /\
      handle_upload f c m o g s = put f c z (fst <$> ug) (match gg with Some g => Some g | None => snd <$> ug end) s.
  Proof.
    assert (Hv : forall A (fl : string) o0 (h : os -> pystr -> result A) k, (forall v e, h s v = Err e -> exists m, e = ValueError m) ->
      (exists p, validated_opt fl o0 h k s = (Ok (Reply [] p), s) /\ exists fl msg, p = PInvalidField fl msg) \/
      exists oa, (match o0, oa with None, None => True | Some v, Some a => h s v = Ok a | _, _ => False end) /\ validated_opt fl o0 h k s = k oa s).
    { intros A fl o0 h k He. destruct o0 as [v|]; cbn [validated_opt]; [|right; exists None; auto]. unfold validated.
      destruct (h s v) as [a|e] eqn:E; [right; exists (Some a); auto|].
      destruct (He v e E) as [msg ->]. left. eexists. split; [reflexivity|eauto]. }
    assert (He1 : forall v e, resolve_oct v = Err e -> exists m, e = ValueError m).
    { intros v e E. unfold resolve_oct in E. destruct (py_int 8 v); [discriminate|]. apply Err_inj in E as <-. eauto. }
    assert (He2 : forall v e, resolve_user_id s v = Err e -> exists m, e = ValueError m).
    { intros v e E. unfold resolve_user_id in E. cbn in E. destruct (getpwnam s v) as [a|e1] eqn:E1; [discriminate|].
      apply getpwnam_err in E1 as [(_ & m' & ->)|(_ & -> & _)]; [apply Err_inj in E as <-; eauto|].
      destruct (py_int 10 v); [|apply Err_inj in E as <-; eauto].
      destruct (getpwuid s z) as [a|e2] eqn:E2; [discriminate|]. apply getpwuid_err in E2 as [-> _]. apply Err_inj in E as <-. eauto. }
    assert (He3 : forall v e, resolve_group_id s v = Err e -> exists m, e = ValueError m).
    { intros v e E. unfold resolve_group_id in E. cbn in E. destruct (getgrnam s v) as [a|e1] eqn:E1; [discriminate|].
      apply getgrnam_err in E1 as [(_ & m' & ->)|(_ & -> & _)]; [apply Err_inj in E as <-; eauto|].
      destruct (py_int 10 v); [|apply Err_inj in E as <-; eauto].
      destruct (getgrgid s z) as [a|e2] eqn:E2; [discriminate|]. apply getgrgid_err in E2 as [-> _]. apply Err_inj in E as <-. eauto. }
    unfold handle_upload.
    match goal with |- context [validated_opt ?fl ?o0 ?h ?k s] => destruct (Hv _ fl o0 h k (fun v e => He1 v e)) as [H|(z & Hz & ->)] end; [left; exact H|].
    match goal with |- context [validated_opt ?fl ?o0 ?h ?k s] => destruct (Hv _ fl o0 h k He2) as [H|(ug & Hug & ->)] end; [left; exact H|].
    match goal with |- context [validated_opt ?fl ?o0 ?h ?k s] => destruct (Hv _ fl o0 h k He3) as [H|(gg & Hgg & ->)] end; [left; exact H|].
    right. exists z, ug, gg. split_and!; [| | |reflexivity].
    - destruct m, z; cbn; auto. unfold resolve_oct in Hz. destruct (py_int 8 _); [injection Hz as <-; reflexivity|discriminate].
    - destruct o, ug as [[u' g']|]; cbn; auto. apply resolve_user_id_in in Hug. exact Hug.
    - destruct g, gg; cbn; auto. apply resolve_group_id_in in Hgg. exact Hgg.
  Qed.

  Lemma upload_owner_ok s o g ug gg pl n : meaning_owner s o ug -> meaning_group s g gg ->
    match fst <$> ug, match gg with Some g => Some g | None => snd <$> ug end with
    | None, None => same_ids n (opened s pl)
    | uid, gid => n_uid n = default 0%N uid /\ n_gid n = default 0%N gid
    end -> upload_owner s (o_fs s !! pl) o g n.
  Proof.
    intros H1 H2 H3. unfold upload_owner.
    destruct o as [o|], ug as [[u' g']|]; try contradiction; destruct g as [g|], gg as [g2|]; try contradiction; cbn in *.
    - destruct H1 as (a & Ha & -> & ->), H2 as (b & Hb & ->). exists a, b. destruct H3. auto.
    - destruct H1 as (a & Ha & -> & ->). exists a. destruct H3. auto.
    - destruct H2 as (b & Hb & ->). exists b. destruct H3. auto.
    - unfold opened in H3. destruct (o_fs s !! pl); destruct H3; auto.
  Qed.
  Lemma upload_mode_ok s m z pl n : meaning_mode m z ->
    match z with
    | Some z => perm_bits (n_mode n) (Z.to_N (z mod 4096))
    | None => perm_bits (n_mode n) (n_mode (opened s pl))
    end -> upload_mode (o_fs s !! pl) m n.
  Proof.
    intros H1 H2. unfold upload_mode. destruct m, z; try contradiction; cbn in *; [eauto|].
    unfold opened in H2. destruct (o_fs s !! pl); exact H2.
  Qed.

  Lemma C10_lemma s f c m o g v' : encodable (PUpload f c m o g) -> regular_target s f ->
    conn_upload exec sha512 f c m o g (Remote s Up) = (Ok tt, v') ->
    r_link v' = Up /\ only_files s (r_os v') /\
    exists pl n, names (o_fs (r_os v')) (o_cwd s) f true pl n /\ n_kind n = KFile c /\ others_same (o_fs s) (o_fs (r_os v')) pl /\
      upload_owner s (o_fs s !! pl) o g n /\ upload_mode (o_fs s !! pl) m n.
  Proof.
    intros Henc Ht E. unfold conn_upload in E. cbv [mbind C_bind] in E.
    destruct (request exec sha512 (PUpload f c m o g) (Remote s Up)) as [[r|e] v1] eqn:Er; [|discriminate].
    assert (Hgood : good_request (PUpload f c m o g)) by (split_and!; [exact I|exact I|assumption]).
    destruct (request_ok exec sha512 _ _ _ _ Hgood Er) as [Hh Hl].
    assert (r = POk) as -> by (destruct r; try discriminate E; reflexivity).
    injection E as <-. split; [assumption|]. cbn [handle] in Hh.
    destruct (upload_put f c m o g s) as [(p & Hp & fl & msg & ->)|(z & ug & gg & Hz & Hug & Hgg & Hp)]; [congruence|].
    rewrite Hp in Hh. destruct (put_spec _ _ _ _ _ _ _ _ Hh (regular_plain _ _ Ht)) as [[_ [? [=]]]|(pl & n & Hr & Hi & [Ho Hfs] & _ & Hst)].
    split; [assumption|]. exists pl, n.
    inversion Hst as [| |n' Hk Hids Hmode _ _]; subst.
    split_and!.
    - assert (E : resolve (o_fs (r_os v1)) (o_cwd s) f true = Ok pl).
      { rewrite Hfs. apply resolve_update; [assumption|cbn; rewrite Hk; exact I|assumption]. }
      apply resolve_names; [assumption|]. rewrite Hfs. apply lookup_insert.
    - assumption.
    - intros pl' Hne. rewrite Hfs. apply lookup_insert_ne. congruence.
    - eapply upload_owner_ok; [eassumption|eassumption|]. destruct (fst <$> ug), (match gg with Some g0 => Some g0 | None => snd <$> ug end); exact Hids.
    - eapply upload_mode_ok; [eassumption|exact Hmode].
  Qed.

  Lemma names_read s f pl n c : o_faults s = [] -> names (o_fs s) (o_cwd s) f true pl n -> n_kind n = KFile c ->
    sys_read f s = (Ok c, s) \/ sys_read f s = (Err (oserr ELOOP), s).
  Proof.
    intros Hf Hn Hk. unfold sys_read. rewrite syscall_ok by assumption.
    destruct (names_resolve _ _ _ _ _ _ Hn) as [-> | ->]; [rewrite Hk; auto|auto].
  Qed.
  Lemma C10_roundtrip_lemma s f c m o g v' : packet_ok (PUpload f c m o g) -> regular_target s f -> o_faults s = [] ->
    conn_upload exec sha512 f c m o g (Remote s Up) = (Ok tt, v') ->
    conn_download exec sha512 f v' = (Ok c, v').
  Proof.
    intros Hok Ht Hfl E. assert (Henc := packet_ok_write _ Hok).
    unfold conn_upload in E. cbv [mbind C_bind] in E.
    destruct (request exec sha512 (PUpload f c m o g) (Remote s Up)) as [[r|e] v1] eqn:Er; [|discriminate].
    assert (Hgood : good_request (PUpload f c m o g)) by (split_and!; [exact I|exact I|assumption]).
    destruct (request_ok exec sha512 _ _ _ _ Hgood Er) as [Hh Hl].
    assert (r = POk) as -> by (destruct r; try discriminate E; reflexivity).
    injection E as <-. cbn [handle] in Hh.
    destruct (upload_put f c m o g s) as [(p & Hp & fl & msg & ->)|(z & ug & gg & Hz & Hug & Hgg & Hp)]; [congruence|].
    rewrite Hp in Hh. destruct (put_spec _ _ _ _ _ _ _ _ Hh (regular_plain _ _ Ht)) as [[_ [? [=]]]|(pl & n & Hr & Hi & [Ho Hfs] & _ & Hst)].
    inversion Hst as [| |n' Hk Hids Hmode _ _]; subst.
    assert (Hf0 : o_faults (r_os v1) = []).
    { clear -Hh Hfl. unfold put in Hh.
      assert (Hs : forall A (m : M A) s r s', syscall m s = (r, s') -> (forall s, o_faults (m s).2 = o_faults s) -> o_faults s = [] -> o_faults s' = []).
      { intros A m s0 r0 s0' H1 H2 H3. rewrite syscall_ok in H1 by assumption. specialize (H2 s0). rewrite H1 in H2. cbn in H2. congruence. }
      apply bind_inv in Hh as [(pl & s1 & H1 & Hh)|(? & _ & [=])].
      assert (F1 : o_faults s1 = []). { eapply Hs; [exact H1| |assumption]. intros s0. cbv beta. destruct (resolve (o_fs s0) (o_cwd s0) f true) as [pl'|]; [|reflexivity].
        destruct (o_fs s0 !! pl') as [x|]; [destruct (n_kind x)|]; reflexivity. }
      apply bind_inv in Hh as [([] & s2 & H2 & Hh)|(? & _ & [=])].
      assert (F2 : o_faults s2 = []). { unfold sys_write, next_fault in H2. rewrite F1 in H2. injection H2 as <-.
        destruct (o_fs s1 !! pl) as [x|]; [destruct (n_kind x)|]; assumption. }
      apply bind_inv in Hh as [([] & s3 & H3 & Hh)|(? & _ & [=])].
      assert (F3 : o_faults s3 = []). { destruct z as [z|]; [|injection H3 as <-; assumption].
        unfold sys_chmod in H3. destruct (_ || _)%bool; [discriminate|]. eapply Hs; [exact H3| |assumption]. intros s0. cbv beta.
        destruct (resolve_node (o_fs s0) (o_cwd s0) f true) as [[? ?]|]; reflexivity. }
      apply bind_inv in Hh as [([] & s4 & H4 & Hh)|(? & _ & [=])]. injection Hh as <-.
      assert (Hc : forall u g, sys_chown f u g s3 = (Ok tt, s4) -> o_faults s4 = []).
      { intros u g' H5. eapply Hs; [exact H5| |assumption]. intros s0. cbv beta. destruct (resolve_node (o_fs s0) (o_cwd s0) f true) as [[? ?]|]; reflexivity. }
      destruct (fst <$> ug), (match gg with Some g => Some g | None => snd <$> ug end); try (eapply Hc; exact H4).
      injection H4 as <-. assumption. }
    assert (E : resolve (o_fs (r_os v1)) (o_cwd (r_os v1)) f true = Ok pl).
    { rewrite (holds_cwd s (r_os v1) pl n) by (split; assumption). rewrite Hfs. apply resolve_update; [assumption|cbn; rewrite Hk; exact I|assumption]. }
    assert (Hread : sys_read f (r_os v1) = (Ok c, r_os v1)).
    { unfold sys_read. rewrite syscall_ok by assumption. unfold resolve_node. rewrite E. cbn. rewrite Hfs, lookup_insert, Hk. reflexivity. }
    assert (Hd : encodable (PDownload f)). { apply packet_ok_write. cbn. apply Hok. }
    assert (Hh2 : handle exec sha512 (PDownload f) (r_os v1) = (Ok (Reply [] (PDownloadResult c)), r_os v1)).
    { cbn [handle]. unfold handle_download. rewrite Hread. reflexivity. }
    unfold conn_download. cbv [mbind C_bind].
    destruct v1 as [s1 l1]. cbn [r_link r_os] in *. subst l1.
    assert (Hp2 : packet_ok (PDownloadResult c)) by apply Hok.
    rewrite (request_reply exec sha512 _ _ _ _ Hd Hh2 Hp2). reflexivity.
  Qed.

  (** valid uploads succeed *)
  Lemma C10_accepts_lemma s f c m o g pl : packet_ok (PUpload f c m o g) -> o_faults s = [] ->
    resolve (o_fs s) (o_cwd s) f true = Ok pl ->
    (o_fs s !! pl = None \/ exists n b, o_fs s !! pl = Some n /\ n_kind n = KFile b) ->
    opt_ok (fun m => exists z, py_int 8 m = Some z /\ c_int z) m ->
    opt_ok (fun u => nul ∉ u /\ exists a, denotes_user s u a) o -> opt_ok (fun g => nul ∉ g /\ exists a, denotes_group s g a) g ->
    exists v', conn_upload exec sha512 f c m o g (Remote s Up) = (Ok tt, v').
  Proof.
    intros Hok Hfl Hr Hn Hm Ho Hg.
    assert (H1 : forall (om : option pystr) k, om = m -> (forall z, opt_ok c_int z -> exists s', k z s = (Ok (Reply [] POk), s')) -> exists s', validated_opt "mode" m (fun _ => resolve_oct) k s = (Ok (Reply [] POk), s')).
    { intros om k -> Hk. destruct m as [x|]; cbn [validated_opt]; [|apply Hk; exact I]. destruct Hm as (z & Hz & Hc).
      unfold validated, resolve_oct. rewrite Hz. cbn. apply Hk. exact Hc. }
    assert (Hfind : forall {A} (f : A -> bool) l a, a ∈ l -> f a = true -> exists b, List.find f l = Some b).
    { intros A h l a Ha Hf. destruct (List.find h l) eqn:E; [eauto|]. pose proof (find_none_spec _ _ E a Ha). congruence. }
    assert (Hu : forall x, nul ∉ x -> (exists a, denotes_user s x a) -> exists p, resolve_user_id s x = Ok p).
    { intros x Hx (a & Ha & Hd). unfold resolve_user_id. cbn. destruct (getpwnam s x) as [a'|e] eqn:E; [cbn; eauto|].
      apply getpwnam_err in E as [[? _]|(_ & -> & Hno)]; [contradiction|].
      destruct Hd as [Hd|[_ Hd]]; [destruct (Hno a Ha Hd)|]. rewrite Hd. unfold getpwuid.
      destruct (Hfind account (fun a0 => (Z.of_N (pw_uid a0) =? Z.of_N (pw_uid a))%Z) (o_passwd s) a Ha ltac:(lia)) as [b ->]. cbn. eauto. }
    assert (Hgr : forall x, nul ∉ x -> (exists a, denotes_group s x a) -> exists p, resolve_group_id s x = Ok p).
    { intros x Hx (a & Ha & Hd). unfold resolve_group_id. cbn. destruct (getgrnam s x) as [a'|e] eqn:E; [cbn; eauto|].
      apply getgrnam_err in E as [[? _]|(_ & -> & Hno)]; [contradiction|].
      destruct Hd as [Hd|[_ Hd]]; [destruct (Hno a Ha Hd)|]. rewrite Hd. unfold getgrgid.
      destruct (Hfind grent (fun a0 => (Z.of_N (gr_gid a0) =? Z.of_N (gr_gid a))%Z) (o_group s) a Ha ltac:(lia)) as [b ->]. cbn. eauto. }
    assert (Hh : exists s', handle exec sha512 (PUpload f c m o g) s = (Ok (Reply [] POk), s')).
    { cbn [handle]. unfold handle_upload. eapply H1; [reflexivity|]. intros z Hz. 
      destruct o as [x|]; cbn [validated_opt].
      - destruct Ho as [Hx Hd]. destruct (Hu x Hx Hd) as [p Hp]. unfold validated at 1. rewrite Hp.
        destruct g as [y|]; cbn [validated_opt].
        + destruct Hg as [Hy Hdy]. destruct (Hgr y Hy Hdy) as [q Hq]. unfold validated. rewrite Hq.
          destruct (put_ok f c z (Some (fst p)) (Some q) s pl Hfl Hr Hn Hz) as (s' & Hs' & _). exists s'. exact Hs'.
        + destruct (put_ok f c z (Some (fst p)) (Some (snd p)) s pl Hfl Hr Hn Hz) as (s' & Hs' & _). exists s'. exact Hs'.
      - destruct g as [y|]; cbn [validated_opt].
        + destruct Hg as [Hy Hdy]. destruct (Hgr y Hy Hdy) as [q Hq]. unfold validated. rewrite Hq.
          destruct (put_ok f c z None (Some q) s pl Hfl Hr Hn Hz) as (s' & Hs' & _). exists s'. exact Hs'.
        + destruct (put_ok f c z None None s pl Hfl Hr Hn Hz) as (s' & Hs' & _). exists s'. exact Hs'. }
    destruct Hh as [s' Hh]. exists (Remote s' Up). unfold conn_upload. cbv [mbind C_bind].
    rewrite (request_reply exec sha512 _ _ _ _ (packet_ok_write _ Hok) Hh I). reflexivity.
  Qed.

  (** crash points *)
  Lemma C11_lemma s f c m o g x v' : encodable (PUpload f c m o g) -> regular_target s f ->
    conn_upload exec sha512 f c m o g (Remote s Up) = (x, v') ->
    unaffected s (r_os v') \/
    exists pl n, names (o_fs (r_os v')) (o_cwd s) f true pl n /\ only_files s (r_os v') /\ others_same (o_fs s) (o_fs (r_os v')) pl /\
      (exists k, n_kind n = KFile (take k c)) /\
      (o_fs s !! pl = None ->
        n_mode n = 384%N \/ (n_kind n = KFile c /\ exists m0 z, m = Some m0 /\ py_int 8 m0 = Some z /\ perm_bits (n_mode n) (Z.to_N (z mod 4096)))).
  Proof.
    intros Henc Ht E. unfold conn_upload in E. cbv [mbind C_bind] in E.
    destruct (request exec sha512 (PUpload f c m o g) (Remote s Up)) as [r v1] eqn:Er.
    assert (v' = v1) as ->. { destruct r as [[]|]; injection E as _ <-; reflexivity. }
    pose proof (request_state exec sha512 _ _ _ _ Henc Er) as Hs. cbn [handle] in Hs.
    destruct (upload_put f c m o g s) as [(p & Hp & fl & msg & ->)|(z & ug & gg & Hz & Hug & Hgg & Hp)].
    { left. rewrite Hs, Hp. apply unaffected_refl. }
    rewrite Hp in Hs. destruct (put _ _ _ _ _ s) as [rr s2] eqn:Hh. cbn [snd] in Hs. subst s2.
    destruct (put_spec _ _ _ _ _ _ _ _ Hh (regular_plain _ _ Ht)) as [[Hu _]|(pl & n & Hr & Hi & [Ho Hfs] & _ & Hst)]; [left; assumption|right].
    exists pl, n. 
    assert (Hk : exists k, n_kind n = KFile (take k c)).
    { inversion Hst; subst; eauto; exists (length c); rewrite firstn_all; assumption. }
    split_and!.
    - assert (E' : resolve (o_fs (r_os v1)) (o_cwd s) f true = Ok pl).
      { rewrite Hfs. destruct Hk as [k Hk]. apply resolve_update; [assumption|cbn; rewrite Hk; exact I|assumption]. }
      apply resolve_names; [assumption|]. rewrite Hfs. apply lookup_insert.
    - assumption.
    - intros pl' Hne. rewrite Hfs. apply lookup_insert_ne. congruence.
    - assumption.
    - intros En. assert (Em : n_mode (opened s pl) = 384%N) by (unfold opened; rewrite En; reflexivity).
      inversion Hst as [e n' k Hk' Hid Hm Er'|e n' z0 -> Hk' Hid Hm Er'|n' Hk' Hid Hm Hm0 _ Er']; subst.
      + left. rewrite Em in Hm. change (drop_suid 384) with 384%N in Hm. tauto.
      + right. split; [assumption|]. destruct m as [m0|]; [|contradiction]. exists m0, z0. split_and!; auto. rewrite Hm. apply perm_bits_refl.
      + destruct z as [z0|]; [|left; apply Hm0; auto]. right. split; [assumption|].
        destruct m as [m0|]; [|contradiction]. exists m0, z0. auto.
  Qed.

  (** files that others cannot read *)
  Lemma testbit_perm a b : perm_bits a b -> N.testbit a 2 = N.testbit b 2.
  Proof. intros H. apply H. lia. Qed.
  Lemma C12_partial_lemma s f c m o g x v' pl n0 n z : encodable (PUpload f c (Some m) o g) -> regular_target s f ->
    conn_upload exec sha512 f c (Some m) o g (Remote s Up) = (x, v') ->
    names (o_fs s) (o_cwd s) f true pl n0 -> N.testbit (n_mode n0) 2 = false ->
    py_int 8 m = Some z -> N.testbit (Z.to_N (z mod 4096)) 2 = false ->
    o_fs (r_os v') !! pl = Some n -> N.testbit (n_mode n) 2 = false.
  Proof.
    intros Henc Ht E Hn0 Hb0 Hz Hbz Hn. unfold conn_upload in E. cbv [mbind C_bind] in E.
    destruct (request exec sha512 (PUpload f c (Some m) o g) (Remote s Up)) as [r v1] eqn:Er.
    assert (v' = v1) as ->. { destruct r as [[]|]; injection E as _ <-; reflexivity. }
    pose proof (request_state exec sha512 _ _ _ _ Henc Er) as Hs. cbn [handle] in Hs.
    assert (Hl0 : o_fs s !! pl = Some n0) by apply Hn0.
    destruct (upload_put f c (Some m) o g s) as [(p & Hp & fl & msg & ->)|(z' & ug & gg & Hz' & Hug & Hgg & Hp)].
    { rewrite Hp in Hs. cbn in Hs. rewrite Hs in Hn. congruence. }
    rewrite Hp in Hs. destruct (put _ _ _ _ _ s) as [rr s2] eqn:Hh. cbn [snd] in Hs. subst s2.
    destruct (put_spec _ _ _ _ _ _ _ _ Hh (regular_plain _ _ Ht)) as [[Hu _]|(pl' & n' & Hr & Hi & [Ho Hfs] & _ & Hst)].
    { unfold unaffected in Hu. rewrite Hu in Hn. cbn in Hn. congruence. }
    assert (pl' = pl) as ->.
    { destruct Hn0 as (H1 & H2 & H3 & _). unfold resolve in Hr. destruct (has_char nul f); [discriminate|]. destruct f as [|f0 f']; [discriminate|].
      destruct (leads_walk _ _ _ _ _ H3 max_links); congruence. }
    rewrite Hfs, lookup_insert in Hn. injection Hn as ->.
    assert (Em : n_mode (opened s pl) = n_mode n0) by (unfold opened; rewrite Hl0; reflexivity).
    assert (Edrop : N.testbit (drop_suid (n_mode n0)) 2 = false) by (rewrite (testbit_perm _ _ (drop_suid_perm _)); assumption).
    destruct z' as [z'|]; [|contradiction]. cbn in Hz'. rewrite Hz in Hz'. injection Hz' as <-.
    inversion Hst as [e n' k Hk' Hid Hm Er'|e n' z0 Ez0 Hk' Hid Hm Er'|n' Hk' Hid Hm Hm0 _ Er']; subst.
    - rewrite Em in Hm. destruct Hm as [-> | ->]; assumption.
    - injection Ez0 as <-. rewrite Hm. assumption.
    - cbn in Hm. rewrite (testbit_perm _ _ Hm). assumption.
  Qed.
End upload.
