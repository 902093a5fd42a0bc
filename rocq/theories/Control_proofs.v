(** Lemmas about default settings and scripts. *)
From Coq Require Import Lia ZifyBool ZifyN ZifyNat.
From stdpp Require Import gmap.
From Verif Require Import Base Utf8 Codec Paths Sys Spec_Sys Dispatcher Client Spec_Session Session_proofs Spec_Remote Remote_proofs Remote_run
  Control Spec_Control.

(** ** What programs leave alone *)
Section kept.
  Variable isdir : pystr -> bool.
  Definition defs (c : ctl) (i : nat) : option (list settings) := sw_defaults <$> c_scripts c !! i.
  Definition kept (c c' : ctl) : Prop :=
    (forall i d, defs c i = Some d -> defs c' i = Some d) /\
    c_stack c' = c_stack c /\ c_indent c' = c_indent c /\ c_base c' = c_base c /\
    (exists l, c_gone c' = l ++ c_gone c) /\
    (dirs_kept c c' -> cwd_ok isdir c -> cwd_ok isdir c' /\ c_script c' = c_script c).
  Lemma kept_refl c : kept c c.
  Proof. split_and!; auto. exists []. reflexivity. Qed.
  Lemma suffix_same {A} (a b l1 l2 : list A) : b = l1 ++ a -> a = l2 ++ b -> a = b.
  Proof.
    intros -> H. apply (f_equal length) in H as Hl. rewrite !app_length in Hl.
    destruct l1; [reflexivity|]. cbn in Hl. lia.
  Qed.
  Lemma kept_trans a b c : kept a b -> kept b c -> kept a c.
  Proof.
    intros (A1 & A2 & A3 & A4 & [l1 A5] & A6) (B1 & B2 & B3 & B4 & [l2 B5] & B6). split_and!; auto; try congruence.
    - exists (l2 ++ l1). rewrite B5, A5, app_assoc. reflexivity.
    - intros Hd Hok. unfold dirs_kept in *.
      assert (E : c_gone b = c_gone a).
      { symmetry. eapply suffix_same; [exact A5|]. rewrite Hd in B5. exact B5. }
      destruct (A6 E Hok) as [H1 H2]. destruct B6 as [H3 H4]; [congruence|assumption|]. split; [assumption|congruence].
  Qed.
  Definition neutral {A} (m : W A) : Prop := forall c r c', m c = (r, c') -> kept c c'.

  Lemma neutral_ret {A} (a : A) : neutral (mret a).
  Proof. intros c r c' [= _ <-]. apply kept_refl. Qed.
  Lemma neutral_raise {A} e : neutral (wraise e : W A).
  Proof. intros c r c' [= _ <-]. apply kept_refl. Qed.
  Lemma neutral_lift {A} (x : result A) : neutral (liftW x).
  Proof. intros c r c' [= _ <-]. apply kept_refl. Qed.
  Lemma neutral_get : neutral getW.
  Proof. intros c r c' [= _ <-]. apply kept_refl. Qed.
  Lemma neutral_bind {A B} (m : W A) (f : A -> W B) : neutral m -> (forall a, neutral (f a)) -> neutral (m ≫= f).
  Proof.
    intros Hm Hf c r c' E. unfold mbind, W_bind in E. destruct (m c) as [[a|e] c1] eqn:E1.
    - eapply kept_trans; [eapply Hm; eassumption|eapply Hf; eassumption].
    - injection E as _ <-. eapply Hm. eassumption.
  Qed.
  Lemma neutral_try {A} (m : W A) h : neutral m -> (forall e, neutral (h e)) -> neutral (wtry m h).
  Proof.
    intros Hm Hh c r c' E. unfold wtry in E. destruct (m c) as [[a|e] c1] eqn:E1.
    - injection E as _ <-. eapply Hm. eassumption.
    - eapply kept_trans; [eapply Hm; eassumption|eapply Hh; eassumption].
  Qed.
  Lemma neutral_via {A} (m : C A) : neutral (via m).
  Proof.
    intros c r c' E. unfold via in E. destruct (m (c_remote c)) as [x v]. injection E as _ <-.
    split_and!; auto. exists []. reflexivity.
  Qed.
  Lemma neutral_current_of i : neutral (current_of i).
  Proof.
    intros c r c' E. unfold current_of in E. destruct (c_scripts c !! i) as [w|]; [destruct (sw_defaults w)|]; injection E as _ <-; apply kept_refl.
  Qed.
  Lemma neutral_current : neutral current_defaults.
  Proof.
    intros c r c' E. unfold current_defaults in E. destruct (c_script c); [eapply neutral_current_of; eassumption|]. injection E as _ <-. apply kept_refl.
  Qed.
  Lemma neutral_chdir p : neutral (chdir isdir p).
  Proof.
    intros c r c' E. unfold chdir in E. destruct (isdir p) eqn:Ed; cbn [andb] in E; [|injection E as _ <-; apply kept_refl].
    case_bool_decide as Hg; cbn [negb] in E; injection E as _ <-; [apply kept_refl|].
    split_and!; auto; [exists []; reflexivity|]. intros _ _. split; [split; assumption|reflexivity].
  Qed.
  Lemma neutral_rmdir p : neutral (modW (fun c => set_gone (p :: c_gone c) c)).
  Proof.
    intros c r c' [= _ <-]. split_and!; auto; [exists [p]; reflexivity|]. unfold dirs_kept. cbn. intros H. exfalso.
    apply (f_equal length) in H. cbn in H. lia.
  Qed.

  (** ** Blocks with defaults *)
  Variable exec : proc -> M xres.
  Variable sha512 : bytes -> bytes.
  Lemma neutral_resolved f o : (forall x, neutral (f x)) -> neutral (resolved f o).
  Proof. intros H. destruct o; cbn; [|apply neutral_ret]. apply neutral_bind; [apply H|]. intros. apply neutral_ret. Qed.
  Lemma neutral_check_mask m : neutral (check_mask m).
  Proof. unfold check_mask. destruct m as [m|]; [destruct (py_int 8 m)|]; first [apply neutral_ret|apply neutral_raise]. Qed.
  Lemma neutral_resolve_defaults q : neutral (resolve_defaults exec sha512 q).
  Proof.
    unfold resolve_defaults. apply neutral_bind; [apply neutral_get|]. intros c. destruct (c_script c); [|apply neutral_raise].
    apply neutral_bind; [apply neutral_current|]. intros cur.
    repeat (apply neutral_bind; [apply neutral_resolved; intros; apply neutral_via|intros]).
    repeat (apply neutral_bind; [apply neutral_check_mask|intros]).
    apply neutral_bind; [|intros; apply neutral_ret].
    destruct (s_cwd (overlay cur q)) as [[|x d]|]; try apply neutral_ret.
    apply neutral_bind; [apply neutral_via|]. intros [st|]; [|apply neutral_raise].
    destruct (str_eqb (st_type st) (lit "dir")); first [apply neutral_ret|apply neutral_raise].
  Qed.
  Lemma neutral_defaults i q : neutral (defaults i q).
  Proof.
    unfold defaults. repeat (apply neutral_bind; [apply neutral_lift|intros]). apply neutral_bind; [apply neutral_get|]. intros.
    apply neutral_bind; [apply neutral_current_of|]. intros. apply neutral_ret.
  Qed.

  Lemma bind_spec {A B} (m : W A) (f : A -> W B) c r c' : (m ≫= f) c = (r, c') ->
    (exists a c1, m c = (Ok a, c1) /\ f a c1 = (r, c')) \/ (exists e, m c = (Err e, c') /\ r = Err e).
  Proof.
    unfold mbind, W_bind. destruct (m c) as [[a|e] c1]; intros E; [left; eauto|right]. injection E as <- <-. eauto.
  Qed.
  Lemma finally_spec {A} (m : W A) f c r c' : wfinally m f c = (r, c') ->
    exists r1 c1, m c = (r1, c1) /\ ((exists u, f c1 = (Ok u, c') /\ r = r1) \/ (exists e, f c1 = (Err e, c') /\ r = Err e)).
  Proof.
    unfold wfinally. destruct (m c) as [r1 c1]. intros E. exists r1, c1. split; [reflexivity|].
    destruct (f c1) as [[u|e] c2]; injection E as <- <-; eauto.
  Qed.
  (** a block that was entered *)
  Lemma with_spec {A} i q (body : settings -> W A) c r c' : with_defaults exec sha512 i q body c = (r, c') ->
    (exists e, r = Err e /\ kept c c') \/
    exists new c0 d c1 r1 c2, defaults i q c = (Ok new, c0) /\ enter_defaults exec sha512 i new c0 = (Ok d, c1) /\
      body d c1 = (r1, c2) /\ exit_defaults i c2 = (Ok tt, c') /\ r = r1.
  Proof.
    intros E. unfold with_defaults in E. apply bind_spec in E as [(new & c0 & E0 & E)|(e & E & ->)].
    2: { left. exists e. split; [reflexivity|]. eapply neutral_defaults. eassumption. }
    apply bind_spec in E as [(d & c1 & E1 & E)|(e & E & ->)].
    - right. apply finally_spec in E as (r1 & c2 & E2 & [(u & E3 & ->)|(e & E3 & ->)]); [|discriminate].
      destruct u. exists new, c0, d, c1, r1, c2. auto.
    - left. exists e. split; [reflexivity|]. eapply kept_trans; [eapply neutral_defaults; eassumption|].
      unfold enter_defaults in E. apply bind_spec in E as [(d & c1 & E1 & E)|(e' & E & [= ->])].
      + discriminate.
      + eapply neutral_resolve_defaults. eassumption.
  Qed.
  Lemma enter_spec i new c d c1 : enter_defaults exec sha512 i new c = (Ok d, c1) ->
    exists res c0, resolve_defaults exec sha512 new c = (Ok res, c0) /\ d = overlay (c_base c0) res /\
      c1 = set_scripts (alter (fun w => Script' (res :: sw_defaults w) (sw_file w)) i (c_scripts c0)) c0.
  Proof.
    intros E. unfold enter_defaults in E. apply bind_spec in E as [(res & c0 & E0 & E)|(e & E & [=])].
    injection E as <- <-. eauto 10.
  Qed.
  Lemma kept_with {A} i q (body : settings -> W A) : (forall d, neutral (body d)) -> neutral (with_defaults exec sha512 i q body).
  Proof.
    intros Hb c r c' E. apply with_spec in E as [(e & -> & H)|(new & c0 & d & c1 & r1 & c2 & E0 & E1 & E2 & E3 & ->)]; [assumption|].
    apply neutral_defaults in E0. eapply kept_trans; [exact E0|]. clear E0.
    apply enter_spec in E1 as (res & c01 & E1 & -> & ->). apply neutral_resolve_defaults in E1.
    eapply kept_trans; [exact E1|]. clear E1. apply Hb in E2. injection E3 as <-.
    destruct E2 as (A1 & A2 & A3 & A4 & A5 & A6). cbn [c_scripts c_stack c_indent c_base c_gone set_scripts] in *.
    split_and!; auto. intros j w Hw. unfold defs in *. cbn [c_scripts set_scripts] in *.
    destruct (decide (j = i)) as [-> |Hne].
    - specialize (A1 i (res :: w)). rewrite list_lookup_alter in A1. destruct (c_scripts c01 !! i) as [w0|]; [|discriminate].
      cbn in A1, Hw. injection Hw as <-. specialize (A1 eq_refl).
      rewrite list_lookup_alter. destruct (c_scripts c2 !! i) as [w2|]; [|discriminate]. cbn in *. injection A1 as ->. reflexivity.
    - rewrite list_lookup_alter_ne by congruence. apply A1. rewrite list_lookup_alter_ne by congruence. assumption.
  Qed.
  Lemma kept_script_defaults {A} q (body : settings -> W A) : (forall d, neutral (body d)) -> neutral (script_defaults exec sha512 q body).
  Proof.
    intros Hb c r c' E. unfold script_defaults in E. destruct (c_script c) as [i|]; [eapply kept_with; eassumption|].
    injection E as _ <-. apply kept_refl.
  Qed.

  (** ** Scripts *)
  Variable realpath : pystr -> pystr -> pystr.
  Variable inode : pystr -> option N.
  Lemma neutral_file i f : neutral (on_script i (fun w => Script' (sw_defaults w) (f w))).
  Proof.
    intros c r c' [= _ <-]. split_and!; auto; [|exists []; reflexivity]. intros j d. unfold defs. cbn.
    destruct (decide (j = i)) as [-> |Hne].
    - rewrite list_lookup_alter. destruct (c_scripts c !! i); [|discriminate]. cbn. auto.
    - rewrite list_lookup_alter_ne by congruence. auto.
  Qed.
  (** everything about running a script *)
  Lemma run_script_spec load path c r c' : (forall p, neutral (load p)) ->
    run_script exec sha512 realpath isdir load path c = (r, c') ->
    kept c c' /\ (dirs_kept c c' -> cwd_ok isdir c -> c_cwd c' = c_cwd c).
  Proof.
    intros Hload E. unfold run_script in E. apply bind_spec in E as [([] & ca & Ea & E)|(e & [=] & _)]. injection Ea as <-.
    apply finally_spec in E as (r1 & cz & E & [(u & Ez & ->)|(e & [=] & _)]). injection Ez as _ <-.
    apply bind_spec in E as [(cb' & cb & Eb & E)|(e & [=] & _)]. injection Eb as <- <-.
    apply bind_spec in E as [([] & cc & Ec & E)|(e & [=] & _)]. injection Ec as <-.
    apply finally_spec in E as (r2 & cy & E & [(u' & Ey & ->)|(e & [=] & _)]). injection Ey as _ <-.
    apply bind_spec in E as [(cd' & cd & Ed & E)|(e & [=] & _)]. injection Ed as <- <-.
    set (cs := set_stack _ _) in E.
    cut ((forall i d, defs c i = Some d -> defs cy i = Some d) /\
      c_stack cy = c_stack cs /\ c_indent cy = S (c_indent c) /\ c_base cy = c_base c /\ (exists l, c_gone cy = l ++ c_gone c) /\
      (dirs_kept c cy -> cwd_ok isdir c -> c_cwd cy = c_cwd c /\ c_script cy = c_script c)).
    { intros (B1 & B2 & B3 & B4 & B5 & B6). split.
      { split; [exact B1|]. split; [cbn; rewrite B2; reflexivity|]. split; [cbn; rewrite B3; reflexivity|]. split; [exact B4|]. split; [exact B5|].
        intros Hd Hok. destruct (B6 Hd Hok) as [B7 B8]. split; [|assumption]. unfold cwd_ok, dirs_kept in *. cbn in *. rewrite B7, Hd. exact Hok. }
      { intros Hd Hok. apply (B6 Hd Hok). } }
    assert (Hcs : forall i d, defs c i = Some d -> defs cs i = Some d).
    { intros i d. unfold defs. cbn. destruct (c_scripts c !! i) as [w|] eqn:Hw; [|discriminate].
      rewrite (lookup_app_l_Some _ _ _ _ Hw). auto. }
    apply bind_spec in E as [([] & ce & Ee & E)|(e & Ee & ->)].
    2: { unfold chdir in Ee. destruct (isdir _ && _) in Ee; [discriminate|]. injection Ee as _ <-.
         split_and!; auto. exists []. reflexivity. }
    unfold chdir in Ee. destruct (isdir _ && _) eqn:Edir in Ee; [|discriminate]. injection Ee as <-.
    apply finally_spec in E as (r3 & cx & E & Hfin).
    apply bind_spec in E as [([] & cf & Ef & E)|(e & [=] & _)]. injection Ef as <-.
    set (cg := set_script _ _) in E.
    assert (Hk : kept cg cx).
    { eapply kept_with; [|exact E]. intros ?. apply neutral_bind; [apply neutral_get|]. intros.
      apply neutral_bind; [apply (neutral_file _ (fun _ => Some _))|]. intros. apply Hload. }
    destruct Hk as (A1 & A2 & A3 & A4 & A5 & A6). clear E.
    assert (Hfin' : (exists u, chdir isdir (c_cwd c) cx = (Ok u, set_cwd (c_cwd c) cx) /\ cy = set_script (c_script c) (set_cwd (c_cwd c) cx)) \/
      (exists e, chdir isdir (c_cwd c) cx = (Err e, cx) /\ cy = cx)).
    { unfold chdir. destruct Hfin as [(u0 & Ef & ->)|(e & Ef & ->)];
        unfold mbind, W_bind, chdir in Ef; cbn [c_cwd cs set_stack set_scripts set_indent] in Ef; destruct (isdir (c_cwd c) && _) in Ef |- *; try discriminate;
        injection Ef as Ef; subst; eauto. }
    destruct Hfin' as [(u0 & Ech & ->)|(e & Ech & ->)].
    - split_and!; auto. intros i d Hd. apply A1, Hcs. exact Hd.
    - split_and!; auto. { intros i d Hd. apply A1, Hcs. exact Hd. }
      intros Hd Hok. exfalso. unfold chdir in Ech. destruct Hok as [H1 H2]. rewrite H1 in Ech. unfold dirs_kept in Hd. rewrite Hd in Ech.
      rewrite bool_decide_eq_false_2 in Ech by assumption. discriminate.
  Qed.
  Lemma neutral_run_script load path : (forall p, neutral (load p)) -> neutral (run_script exec sha512 realpath isdir load path).
  Proof. intros H c r c' E. eapply run_script_spec; eassumption. Qed.
  Lemma neutral_check path ws : neutral (check_recursion realpath inode path ws).
  Proof.
    induction ws as [|i ws IH]; cbn; [apply neutral_ret|]. apply neutral_bind; [apply neutral_get|]. intros c.
    apply neutral_bind; [apply neutral_lift|]. intros [|]; [apply neutral_raise|exact IH].
  Qed.
  Lemma neutral_local load path b : (forall p, neutral (load p)) -> neutral (local_script exec sha512 realpath isdir inode load path b).
  Proof.
    intros H. unfold local_script. apply neutral_bind.
    - destruct b; [apply neutral_ret|]. apply neutral_bind; [apply neutral_get|]. intros. apply neutral_check.
    - intros. apply neutral_run_script. assumption.
  Qed.
  Lemma neutral_step local {A} (p : prog A) : (forall path b ps, neutral (local path b ps)) -> neutral (step exec sha512 isdir local p).
  Proof.
    intros Hl. induction p; cbn [step].
    - apply neutral_ret.
    - apply neutral_raise.
    - apply neutral_bind; auto.
    - apply neutral_try; auto.
    - apply neutral_via.
    - apply neutral_current.
    - apply kept_script_defaults. auto.
    - apply neutral_chdir.
    - apply neutral_rmdir.
    - apply Hl.
  Qed.
  Variable code : pystr -> option (params -> prog unit).
  Lemma neutral_load run ps file : (forall p, neutral (run p)) -> neutral (load code run ps file).
  Proof. intros H. unfold load. destruct (code file); [apply H|apply neutral_raise]. Qed.
  Lemma neutral_interp depth : forall A (p : prog A), neutral (interp exec sha512 realpath isdir inode code depth A p).
  Proof.
    induction depth as [|d IH]; intros A p; cbn [interp]; apply neutral_step; intros path b ps; [apply neutral_raise|].
    apply neutral_local. intros file. apply neutral_load. apply IH.
  Qed.
End kept.
