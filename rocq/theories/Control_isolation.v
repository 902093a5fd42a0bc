(** The defaults of other scripts do not matter. *)
From Coq Require Import Lia ZifyBool ZifyN ZifyNat.
From stdpp Require Import gmap.
From Verif Require Import Base Utf8 Codec Paths Sys Spec_Sys Dispatcher Client Control Spec_Control Control_proofs.

Local Open Scope nat_scope.
(** states that differ at most in the defaults of the first [k] wrappers *)
Record alike (k : nat) (c1 c2 : ctl) : Prop := {
  al_remote : c_remote c1 = c_remote c2; al_base : c_base c1 = c_base c2; al_script : c_script c1 = c_script c2;
  al_stack : c_stack c1 = c_stack c2; al_cwd : c_cwd c1 = c_cwd c2; al_gone : c_gone c1 = c_gone c2; al_indent : c_indent c1 = c_indent c2;
  al_files : forall i, sw_file <$> c_scripts c1 !! i = sw_file <$> c_scripts c2 !! i;
  al_scripts : forall i, k <= i -> c_scripts c1 !! i = c_scripts c2 !! i;
  al_len : k <= length (c_scripts c1) }.
Lemma alike_length k c1 c2 : alike k c1 c2 -> length (c_scripts c1) = length (c_scripts c2).
Proof.
  intros H. pose proof (al_files _ _ _ H) as Hf.
  assert (forall (l1 l2 : list script), (forall i, sw_file <$> l1 !! i = sw_file <$> l2 !! i) -> length l1 = length l2) as X.
  { induction l1 as [|a l1 IH]; intros [|b l2] G; [reflexivity|specialize (G 0); discriminate|specialize (G 0); discriminate|].
    cbn. f_equal. apply IH. intros i. exact (G (S i)). }
  apply X. exact Hf.
Qed.
Definition inside (k : nat) (c : ctl) : Prop := exists i, c_script c = Some i /\ k <= i.
(** the same result, and alike states afterwards *)
Definition same {A} (k : nat) (x y : result A * ctl) : Prop := fst x = fst y /\ alike k (snd x) (snd y) /\ inside k (snd x).
Definition sim {A} (k : nat) (m : W A) : Prop := forall c1 c2, alike k c1 c2 -> inside k c1 -> same k (m c1) (m c2).

Lemma sim_ret {A} k (a : A) : sim k (mret a). Proof. intros c1 c2 H I. split; auto. Qed.
Lemma sim_raise {A} k e : sim k (wraise e : W A). Proof. intros c1 c2 H I. split; auto. Qed.
Lemma sim_lift {A} k (x : result A) : sim k (liftW x). Proof. intros c1 c2 H I. split; auto. Qed.
Lemma sim_bind {A B} k (m : W A) (f : A -> W B) : sim k m -> (forall a, sim k (f a)) -> sim k (m ≫= f).
Proof.
  intros Hm Hf c1 c2 H I. specialize (Hm c1 c2 H I). unfold mbind, W_bind.
  destruct (m c1) as [r1 d1], (m c2) as [r2 d2]. destruct Hm as (H1 & H2 & H3). cbn in *. subst r2. destruct r1; [apply Hf; assumption|].
  split; auto.
Qed.
(** continuations may look at the parts that are alike *)
Lemma sim_get {A} k (f : ctl -> W A) : (forall c1 c2, alike k c1 c2 -> inside k c1 -> same k (f c1 c1) (f c2 c2)) -> sim k (c ← getW; f c).
Proof. intros H c1 c2 H1 H2. apply H; assumption. Qed.
Lemma sim_try {A} k (m : W A) h : sim k m -> (forall e, sim k (h e)) -> sim k (wtry m h).
Proof.
  intros Hm Hf c1 c2 H I. specialize (Hm c1 c2 H I). unfold wtry.
  destruct (m c1) as [r1 d1], (m c2) as [r2 d2]. destruct Hm as (H1 & H2 & H3). cbn in *. subst r2. destruct r1; [|apply Hf; assumption].
  split; auto.
Qed.
Lemma sim_finally {A} k (m : W A) f : sim k m -> sim k f -> sim k (wfinally m f).
Proof.
  intros Hm Hf c1 c2 H I. specialize (Hm c1 c2 H I). unfold wfinally.
  destruct (m c1) as [r1 d1], (m c2) as [r2 d2]. destruct Hm as (H1 & H2 & H3). cbn in *. subst r2. specialize (Hf d1 d2 H2 H3).
  destruct (f d1) as [s1 e1], (f d2) as [s2 e2]. destruct Hf as (H4 & H5 & H6). cbn in *. subst s2. destruct s1; split; auto.
Qed.
Lemma sim_via {A} k (m : C A) : sim k (via m).
Proof.
  intros c1 c2 H I. unfold via. rewrite (al_remote _ _ _ H). destruct (m (c_remote c2)) as [r v]. split; [reflexivity|]. split; [|exact I].
  destruct H. constructor; cbn; auto.
Qed.
Lemma sim_current_of k i : k <= i -> sim k (current_of i).
Proof. intros Hk c1 c2 H I. unfold current_of. rewrite (al_scripts _ _ _ H i Hk). destruct (c_scripts c2 !! i); split; auto. Qed.
Lemma sim_current k : sim k current_defaults.
Proof.
  intros c1 c2 H I. destruct I as (i & I & Hi). pose proof I as I2. rewrite (al_script _ _ _ H) in I2.
  unfold current_defaults. rewrite I, I2. apply sim_current_of; auto. exists i. auto.
Qed.
Lemma sim_check_mask k m : sim k (check_mask m).
Proof. unfold check_mask. destruct m as [m|]; [destruct (py_int 8 m)|]; first [apply sim_ret|apply sim_raise]. Qed.
Lemma sim_resolved k f o : (forall x, sim k (f x)) -> sim k (resolved f o).
Proof. intros H. destruct o; cbn; [|apply sim_ret]. apply sim_bind; [apply H|]. intros. apply sim_ret. Qed.
Lemma sim_on_script k i f : k <= i -> (forall w, exists x, sw_file (f w) = x) -> sim k (on_script i f).
Proof.
  intros Hk _ c1 c2 H I. split; [reflexivity|]. split; [|exact I]. cbn. destruct H as [? ? ? ? ? ? ? Hf Hs Hl]. constructor; cbn; auto.
  - intros j. destruct (decide (j = i)) as [-> |Hne]; [rewrite !list_lookup_alter, (Hs i Hk); reflexivity|].
    rewrite !list_lookup_alter_ne by congruence. apply Hf.
  - intros j Hj. destruct (decide (j = i)) as [-> |Hne]; [rewrite !list_lookup_alter, (Hs i Hk); reflexivity|].
    rewrite !list_lookup_alter_ne by congruence. apply Hs. exact Hj.
  - rewrite alter_length. exact Hl.
Qed.

Section isolation.
  Variable exec : proc -> M xres.
  Variable sha512 : bytes -> bytes.
  Variable realpath : pystr -> pystr -> pystr.
  Variable isdir : pystr -> bool.
  Variable inode : pystr -> option N.
  Variable code : pystr -> option (params -> prog unit).

  Lemma sim_resolve_defaults k q : sim k (resolve_defaults exec sha512 q).
  Proof.
    unfold resolve_defaults. apply sim_get. intros c1 c2 H I.
    assert (Hscript := al_script _ _ _ H). rewrite Hscript. destruct (c_script c2); [|split; auto].
    match goal with |- same k (?m c1) (?m c2) => enough (Hs : sim k m) by (apply Hs; assumption) end.
    apply sim_bind; [apply sim_current|]. intros cur. cbv zeta.
    repeat (apply sim_bind; [apply sim_resolved; intros; apply sim_via|intros]).
    repeat (apply sim_bind; [apply sim_check_mask|intros]).
    apply sim_bind; [|intros; apply sim_ret].
    destruct (s_cwd (overlay cur q)) as [[|x d]|]; try apply sim_ret.
    apply sim_bind; [apply sim_via|]. intros [st|]; [|apply sim_raise].
    destruct (str_eqb (st_type st) (lit "dir")); first [apply sim_ret|apply sim_raise].
  Qed.
  Lemma sim_defaults k i q : k <= i -> sim k (defaults i q).
  Proof.
    intros Hk. unfold defaults. do 3 (apply sim_bind; [apply sim_lift|intros]). apply sim_get. intros c1 c2 H I.
    rewrite (al_base _ _ _ H). apply (sim_bind k (current_of i) _ (sim_current_of k i Hk)); [|assumption..]. intros. apply sim_ret.
  Qed.
  Lemma sim_enter k i new : k <= i -> sim k (enter_defaults exec sha512 i new).
  Proof.
    intros Hk. unfold enter_defaults. apply sim_bind; [apply sim_resolve_defaults|]. intros r.
    apply sim_bind; [apply sim_on_script; eauto|]. intros _. apply sim_get. intros c1 c2 H I. rewrite (al_base _ _ _ H). split; auto.
  Qed.
  Lemma sim_with {A} k i q (body : settings -> W A) : k <= i -> (forall d, sim k (body d)) -> sim k (with_defaults exec sha512 i q body).
  Proof.
    intros Hk Hb. unfold with_defaults. apply sim_bind; [apply sim_defaults; assumption|]. intros new.
    apply sim_bind; [apply sim_enter; assumption|]. intros d. apply sim_finally; [apply Hb|]. apply sim_on_script; eauto.
  Qed.
  Lemma sim_script_defaults {A} k q (body : settings -> W A) : (forall d, sim k (body d)) -> sim k (script_defaults exec sha512 q body).
  Proof.
    intros Hb c1 c2 H I. destruct I as (i & I & Hi). pose proof I as I2. rewrite (al_script _ _ _ H) in I2.
    unfold script_defaults. rewrite I, I2. apply (sim_with k i q body Hi Hb); auto. exists i. auto.
  Qed.
  Lemma sim_chdir k p : sim k (chdir isdir p).
  Proof.
    intros c1 c2 H I. unfold chdir. rewrite (al_gone _ _ _ H). destruct (isdir p && _); split; auto. split; [|exact I].
    destruct H. constructor; cbn; auto.
  Qed.
  Lemma sim_mod k f : (forall c1 c2, alike k c1 c2 -> inside k c1 -> alike k (f c1) (f c2) /\ inside k (f c1)) -> sim k (modW f).
  Proof. intros H c1 c2 H1 H2. split; [reflexivity|]. apply H; assumption. Qed.

  (** a script, for callers inside and outside *)
  Lemma alike_run_script k load path c1 c2 : (forall p, sim k (load p)) -> alike k c1 c2 ->
    let x := run_script exec sha512 realpath isdir load path c1 in let y := run_script exec sha512 realpath isdir load path c2 in
    fst x = fst y /\ alike k (snd x) (snd y) /\ (inside k c1 -> inside k (snd x)).
  Proof.
    intros Hload H. cbv zeta. unfold run_script.
    pose proof (alike_length _ _ _ H) as Hlen.
    assert (Hk := al_len _ _ _ H). destruct H as [A1 A2 A3 A4 A5 A6 A7 A8 A9 _].
    destruct c1 as [v b sc s st cwd gone ind], c2 as [v2 b2 sc2 s2 st2 cwd2 gone2 ind2]; cbn in A1, A2, A3, A4, A5, A6, A7, A8, A9, Hlen, Hk. subst.
    cbv [mbind W_bind modW wfinally getW set_indent set_stack set_scripts set_script c_indent c_stack c_scripts c_script c_cwd c_remote c_base c_gone].
    rewrite Hlen.
    set (i := length sc2) in *.
    assert (Hch : forall p c, chdir isdir p c = if isdir p && negb (bool_decide (p ∈ c_gone c)) then (Ok tt, set_cwd p c) else (Err (oserr ENOENT), c)) by reflexivity.
    rewrite !(Hch (dirname (realpath cwd2 path))). cbn [c_gone].
    destruct (isdir (dirname (realpath cwd2 path)) && _) eqn:Ed.
    2: { cbn. split; [reflexivity|]. split.
         - constructor; cbn; auto; [| |rewrite app_length; lia].
           + intros j. destruct (decide (j < length sc)) as [Hj|Hj]; [rewrite !lookup_app_l by lia; apply A8|].
             rewrite !lookup_app_r by lia. rewrite Hlen. reflexivity.
           + intros j Hj'. destruct (decide (j < length sc)) as [Hj|Hj]; [rewrite !lookup_app_l by lia; apply A9; lia|].
             rewrite !lookup_app_r by lia. rewrite Hlen. reflexivity.
         - intros (j & Hj & Hkj). exists j. auto. }
    cbn [set_cwd c_remote c_base c_scripts c_script c_stack c_cwd c_gone c_indent].
    set (d1 := Ctl v2 b2 (sc ++ [new_script]) (Some i) (i :: st2) (dirname (realpath cwd2 path)) gone2 (S ind2)).
    set (d2 := Ctl v2 b2 (sc2 ++ [new_script]) (Some i) (i :: st2) (dirname (realpath cwd2 path)) gone2 (S ind2)).
    assert (Hd : alike k d1 d2).
    { constructor; cbn; auto; [| |rewrite app_length; lia].
      + intros j. destruct (decide (j < length sc)) as [Hj|Hj]; [rewrite !lookup_app_l by lia; apply A8|].
        rewrite !lookup_app_r by lia. rewrite Hlen. reflexivity.
      + intros j Hj'. destruct (decide (j < length sc)) as [Hj|Hj]; [rewrite !lookup_app_l by lia; apply A9; lia|].
        rewrite !lookup_app_r by lia. rewrite Hlen. reflexivity. }
    assert (Hin : inside k d1) by (exists i; split; [reflexivity|lia]).
    match goal with |- context [with_defaults exec sha512 i no_settings ?b _] => set (body := b) in * end.
    assert (Hw : sim k (with_defaults exec sha512 i no_settings body)).
    { apply sim_with; [lia|]. intros d. unfold body. intros e1 e2 He Ie.
      pose proof (al_cwd _ _ _ He) as Hcwd. unfold c_cwd in Hcwd. rewrite Hcwd.
      refine (sim_bind k (on_script i _) (fun _ => load _) _ _ e1 e2 He Ie); auto. apply sim_on_script; [lia|eauto]. }
    specialize (Hw d1 d2 Hd Hin).
    destruct (with_defaults exec sha512 i no_settings body d1) as [r1 e1], (with_defaults exec sha512 i no_settings body d2) as [r2 e2].
    destruct Hw as (G1 & G2 & G3). cbn [fst snd] in G1, G2, G3. subst r2.
    unfold chdir. destruct G2 as [B1 B2 B3 B4 B5 B6 B7 B8 B9 B10]. rewrite B6.
    destruct (isdir cwd2 && _).
    - destruct e1, e2; cbn in *; subst. destruct r1; cbn; (split; [reflexivity|]); (split; [constructor; cbn; auto|]);
        intros (j & Hj & Hkj); exists j; auto.
    - destruct e1, e2; cbn in *; subst. cbn; (split; [reflexivity|]); (split; [constructor; cbn; auto|]); intros _; exact G3.
  Qed.
  Lemma sim_run_script k load path : (forall p, sim k (load p)) -> sim k (run_script exec sha512 realpath isdir load path).
  Proof.
    intros Hl c1 c2 H I. destruct (alike_run_script k load path c1 c2 Hl H) as (H1 & H2 & H3). split; auto.
  Qed.
  Lemma alike_check k path c1 c2 : alike k c1 c2 -> forall ws,
    fst (check_recursion realpath inode path ws c1) = fst (check_recursion realpath inode path ws c2) /\
    snd (check_recursion realpath inode path ws c1) = c1 /\ snd (check_recursion realpath inode path ws c2) = c2.
  Proof.
    intros H. induction ws as [|i ws IH]; [auto|]. cbn [check_recursion]. unfold mbind, W_bind, getW, liftW.
    assert (Hfile : match c_scripts c1 !! i with Some w => default (lit "<internal>") (sw_file w) | None => lit "<internal>" end =
                    match c_scripts c2 !! i with Some w => default (lit "<internal>") (sw_file w) | None => lit "<internal>" end).
    { pose proof (al_files _ _ _ H i) as Hf. destruct (c_scripts c1 !! i), (c_scripts c2 !! i); try discriminate; [|reflexivity].
      cbn in Hf. injection Hf as ->. reflexivity. }
    rewrite Hfile. unfold samefile. rewrite (al_cwd _ _ _ H).
    destruct (inode (realpath (c_cwd c2) path)) as [x|]; [|auto]. destruct (inode _) as [y|]; [|auto]. destruct (x =? y)%N; [auto|exact IH].
  Qed.
  Lemma sim_local k load path b : (forall p, sim k (load p)) -> sim k (local_script exec sha512 realpath isdir inode load path b).
  Proof.
    intros Hl. unfold local_script. apply sim_bind; [|intros; apply sim_run_script; assumption].
    destruct b; [apply sim_ret|]. apply sim_get. intros c1 c2 H I. rewrite (al_stack _ _ _ H).
    destruct (alike_check k path c1 c2 H (rev (c_stack c2))) as (H1 & H2 & H3).
    destruct (check_recursion _ _ _ _ c1) as [r1 d1], (check_recursion _ _ _ _ c2) as [r2 d2]. cbn in *. subst. split; auto.
  Qed.
  Lemma sim_step k local {A} (p : prog A) : (forall path b ps, sim k (local path b ps)) -> sim k (step exec sha512 isdir local p).
  Proof.
    intros Hl. induction p; cbn [step].
    - apply sim_ret.
    - apply sim_raise.
    - apply sim_bind; auto.
    - apply sim_try; auto.
    - apply sim_via.
    - apply sim_current.
    - apply sim_script_defaults. auto.
    - apply sim_chdir.
    - apply sim_mod. intros c1 c2 H I. split; [|exact I]. destruct H. constructor; cbn; auto. congruence.
    - apply Hl.
  Qed.
  Lemma sim_interp k depth : forall A (p : prog A), sim k (interp exec sha512 realpath isdir inode code depth A p).
  Proof.
    induction depth as [|d IH]; intros A p; cbn [interp]; apply sim_step; intros path b ps; [apply sim_raise|].
    apply sim_local. intros file. unfold load. destruct (code file); [apply IH|apply sim_raise].
  Qed.

  Lemma same_but_defaults_alike c1 c2 : same_but_defaults c1 c2 -> alike (length (c_scripts c1)) c1 c2.
  Proof.
    intros (H1 & H2 & H3 & H4 & H5 & H6 & H7 & H8).
    assert (Hlen : length (c_scripts c1) = length (c_scripts c2)).
    { apply (f_equal length) in H8. rewrite !map_length in H8. exact H8. }
    constructor; auto.
    - intros i. apply (f_equal (fun l => l !! i)) in H8.
      assert (X : forall l : list script, List.map sw_file l !! i = sw_file <$> l !! i) by (intros l; exact (list_lookup_fmap sw_file l i)).
      rewrite !X in H8. exact H8.
    - intros i Hi. rewrite !lookup_ge_None_2 by lia. reflexivity.
  Qed.
  (** calling a script *)
  Lemma isolation depth path b ps c1 c2 : same_but_defaults c1 c2 ->
    let m := interp exec sha512 realpath isdir inode code (S depth) unit (Local path b ps) in
    fst (m c1) = fst (m c2) /\ same_but_defaults (snd (m c1)) (snd (m c2)) /\
    (forall i, length (c_scripts c1) <= i -> c_scripts (snd (m c1)) !! i = c_scripts (snd (m c2)) !! i).
  Proof.
    intros H. cbn [interp step]. cbv zeta. unfold local_script. assert (Ha := same_but_defaults_alike _ _ H).
    set (k := length (c_scripts c1)) in *.
    assert (X : forall x y : result unit * ctl, fst x = fst y /\ alike k (snd x) (snd y) ->
      fst x = fst y /\ same_but_defaults (snd x) (snd y) /\ (forall i, k <= i -> c_scripts (snd x) !! i = c_scripts (snd y) !! i)).
    { intros x y [X1 X2]. split; [exact X1|]. split; [|exact (al_scripts _ _ _ X2)]. pose proof (alike_length _ _ _ X2) as Hl. destruct X2 as [B1 B2 B3 B4 B5 B6 B7 B8 B9 B10]. unfold same_but_defaults. split_and!; auto.
      apply list_eq. intros i. change (List.map sw_file) with (fmap (M:=list) sw_file). rewrite !list_lookup_fmap. apply B8. }
    apply X. clear X.
    assert (Hrun : forall d1 d2, alike k d1 d2 ->
      fst (run_script exec sha512 realpath isdir (load code (interp exec sha512 realpath isdir inode code depth unit) ps) path d1) =
      fst (run_script exec sha512 realpath isdir (load code (interp exec sha512 realpath isdir inode code depth unit) ps) path d2) /\
      alike k (snd (run_script exec sha512 realpath isdir (load code (interp exec sha512 realpath isdir inode code depth unit) ps) path d1))
        (snd (run_script exec sha512 realpath isdir (load code (interp exec sha512 realpath isdir inode code depth unit) ps) path d2))).
    { intros d1 d2 Hd. destruct (alike_run_script k (load code (interp exec sha512 realpath isdir inode code depth unit) ps) path d1 d2) as (E1 & E2 & _); auto.
      intros p. unfold load. destruct (code p); [apply sim_interp|apply sim_raise]. }
    destruct b.
    - apply Hrun. exact Ha.
    - unfold mbind, W_bind, getW. rewrite (al_stack _ _ _ Ha). destruct (alike_check k path c1 c2 Ha (rev (c_stack c2))) as (H1 & H2 & H3).
      destruct (check_recursion _ _ _ _ c1) as [r1 d1], (check_recursion _ _ _ _ c2) as [r2 d2]. cbn [fst snd] in *. subst.
      destruct r2; [|auto]. apply Hrun. exact Ha.
  Qed.
End isolation.
