(** C53: a second files.upload_dir changes nothing. *)
From Coq Require Import Lia ZifyBool ZifyN ZifyNat.
From stdpp Require Import gmap.
From Verif Require Import Base Utf8 Codec Spec_Codec Codec_proofs Paths Sys Spec_Sys Sys_proofs Dispatcher Client Spec_Remote Remote_run Direct Control Spec_Control Control_proofs Control_settle Prop_Control Op Spec_Op Op_proofs Coreutils Files Walk_proofs Files_plain Spec_Files Shell_proofs Thrift Steps Dir_proofs Transfer Converge Content_proofs Remote_examples Files_examples Sound Frugal Spec_Tree Tree_proofs Prop_Files Prop_Content Tree_run Prop_Tree Tree_dry Prop_Tree_dry.
Local Open Scope nat_scope.

(** ** A node that was made as asked is as wanted *)
Lemma bits_asked m z : N.land m 3072 = 0%N -> (z < 1024)%N -> N.ldiff m 3072 = N.ldiff z 3072 -> m = z.
Proof.
  intros H Hz E. assert (Hz' : N.land z 3072 = 0%N).
  { change 3072%N with (N.lor (2 ^ 10) (2 ^ 11)). rewrite N.land_lor_distr_r.
    assert (Hb : forall i, (10 <= i)%N -> N.testbit z i = false).
    { intros i Hi. destruct (decide (z = 0%N)) as [-> |Hn]; [apply N.bits_0|]. apply N.bits_above_log2. apply N.log2_lt_pow2; [lia|]. eapply N.lt_le_trans; [exact Hz|]. change 1024%N with (2 ^ 10)%N. apply N.pow_le_mono_r; lia. }
    apply N.bits_inj. intros i. rewrite N.lor_spec, !N.land_spec, N.bits_0. rewrite !N.pow2_bits_eqb.
    destruct (N.eqb_spec 10 i), (N.eqb_spec 11 i); rewrite ?Hb by lia; rewrite ?andb_false_r; reflexivity. }
  rewrite <- (N.lor_ldiff_and m 3072), <- (N.lor_ldiff_and z 3072), H, Hz', E. reflexivity.
Qed.
Lemma wanted_below base reqs q (msel : settings -> option pystr) attr z : mode_settles (msel base) (innermost (List.map msel (reqs ++ [q]))) (msel attr) ->
  octal_below 1024 (wanted msel base (reqs ++ [q])) -> means (msel attr) z -> (z < 1024)%N.
Proof.
  intros Hse (t & v & Ht & _ & _ & _ & Hv & Hlt) (t' & Ht' & Hv'). unfold wanted in Ht. cbn [innermost] in Ht. unfold mode_settles in Hse.
  destruct (innermost (List.map msel (reqs ++ [q]))) as [m|].
  - injection Ht as <-. destruct Hse as (k & u & K1 & K2 & K3 & _). rewrite K2 in Ht'. injection Ht' as <-. rewrite K3 in Hv'. rewrite K1 in Hv. injection Hv as Hv. injection Hv' as Hv'. lia.
  - destruct Hse as [Hse _]. rewrite Hse, Ht in Ht'. injection Ht' as <-. rewrite Hv in Hv'. injection Hv' as Hv'. lia.
Qed.
Lemma taken_means m z z' : means m z -> (z < 4096)%N -> taken m z' -> z' = z.
Proof. exact (asked_means m z z'). Qed.

Lemma means_unique m z z' : means m z -> means m z' -> z = z'.
Proof. intros (t & -> & H) (t' & [= <-] & H'). rewrite H in H'. injection H' as H'. lia. Qed.

Section again.
  Variable rest : proc -> M xres.
  Variable sha512 : bytes -> bytes.
  Variable want_diff : bool.
  Notation exec := (coreutils rest).
  Notation upload_dir := (upload_dir exec sha512 false want_diff).

  Lemma made_wanted (msel : settings -> option pystr) s0 s base reqs q attr n z : only_files s0 s ->
    mode_settles (msel base) (innermost (List.map msel (reqs ++ [q]))) (msel attr) ->
    owned s0 (s_owner attr) (s_group attr) n -> canonical (msel base) -> octal_below 1024 (wanted msel base (reqs ++ [q])) ->
    means (msel attr) z \/ taken (msel attr) z -> N.ldiff (n_mode n) 3072 = N.ldiff z 3072 -> N.land (n_mode n) 3072 = 0%N ->
    as_wanted s (msel attr) (s_owner attr) (s_group attr) n.
  Proof.
    intros Hof Hse (x & y & O1 & O2 & O3 & O4 & O5 & O6) Hcan Hb Ht Hbits Hcl.
    destruct (mode_settles_canonical _ _ _ Hcan Hse) as (k & K1 & K2). assert (Hk := wanted_below base reqs q msel attr k Hse Hb K2).
    assert (z = k) as -> by (destruct Ht as [Ht|Ht]; [eapply means_unique; eassumption|eapply taken_means; [exact K2|lia|exact Ht]]).
    assert (Hm : n_mode n = k) by (apply bits_asked; assumption).
    exists (oct_tail (Z.of_N k)), (pw_name x), (gr_name y). rewrite Hm. split; [exact K1|].
    destruct (oct_tail_text _ _ (oct_tail_value k)) as (j & J1 & J2). apply N2Z.inj in J1 as <-. split; [exact J2|]. split; [exact O3|].
    split; [left; exists x; rewrite (only_files_passwd _ _ Hof); auto|]. split; [exact O4|]. left. exists y. rewrite (only_files_group _ _ Hof). auto.
  Qed.

  Section items.
    Variables (ns : list pystr) (dm fm owner group : option pystr).
    Hypothesis Hns : Forall file_name ns.
    Hypothesis Hne : ns <> [].
    Notation item_op := (item_op rest sha512 want_diff ns dm fm owner group).
    Notation do_items := (do_items rest sha512 want_diff ns dm fm owner group).
    Notation item_q := (item_q dm fm owner group).
    Notation made := (made sha512 dm fm owner group).
    Definition item_mode (it : item) : settings -> option pystr := match it with IDir _ => s_dir_mode | IFile _ _ => s_file_mode end.
    Definition plain_bits (base : settings) (reqs : list settings) (it : item) : Prop :=
      canonical (item_mode it base) /\ octal_below 1024 (wanted (item_mode it) base (reqs ++ [item_q it])).

    Lemma same_again c c' : healthy c -> healthy c' -> c' = set_remote (c_remote c') c -> unaffected (sysof c) (sysof c') -> c' = c.
    Proof.
      intros (L1 & F1 & _) (L2 & F2 & _) Hset Hun.
      assert (Hrem : c_remote c' = c_remote c).
      { unfold sysof in *. destruct (c_remote c') as [s2 l2], (c_remote c) as [s1 l1]. cbn in *. subst. f_equal. rewrite Hun, F2, <- F1. unfold set_faults. destruct s1; reflexivity. }
      rewrite Hset, Hrem. apply set_remote_self.
    Qed.
    Lemma item_again it s0 c reqs pl n r c' : item_ok ns it -> ready c reqs -> healthy c -> hash_ok sha512 -> only_files s0 (sysof c) -> unaliased s0 ->
      feasible (sysof c) (c_base c) (reqs ++ [item_q it]) -> plain_bits (c_base c) reqs it ->
      sees (sysof c) (item_path ns it) pl n -> made it s0 (c_base c) reqs n -> N.land (n_mode n) 3072 = 0%N ->
      operation NotGiven (item_op it) c = (r, c') -> exists res, r = Ok res /\ or_changed res = false /\ c' = c.
    Proof.
      intros (I1 & I2 & I3) Hrd Hhl Hha Hof Hun Hfe [Hcan Hb] Hsee (attr & Hse & How & Hm) Hcl E.
      assert (Hun' : unaliased (sysof c)) by (unfold unaliased; rewrite (only_files_passwd _ _ Hof), (only_files_group _ _ Hof); exact Hun).
      assert (Hse' := Hse). rewrite (settles_files _ _ _ _ _ Hof) in Hse'.
      destruct it as [rel|rel b].
      - destruct Hm as (Hk & z & Z1 & Z2).
        destruct (C43_directory_works rest sha512 NotGiven c r c' reqs (path_of (ns ++ rel)) false dm owner group Hrd I3 (below_absolute ns Hns Hne rel) Hhl Hha Hun' Hfe) as (res & attr2 & pl2 & n2 & -> & R1 & R2 & R3 & (R4 & _) & R5 & R6); [right; exists pl, n; auto|exact E|].
        assert (attr2 = attr) as -> by (eapply settles_unique; [apply Hrd|exact Hun'|exact R4|exact Hse']).
        exists res. split; [reflexivity|]. assert (Hch : or_changed res = false).
        { apply R5. split; [|reflexivity]. exists pl, n. split; [exact Hsee|].
          eapply (made_wanted s_dir_mode s0); [exact Hof|apply Hse|exact How|exact Hcan|exact Hb|left; exact Z1|exact Z2|exact Hcl]. }
        split; [exact Hch|]. apply same_again; auto.
      - destruct Hm as ((d & Hk & Hd) & z & Z1 & Z2).
        destruct (C46_works rest sha512 want_diff NotGiven c r c' reqs _ (path_of (ns ++ rel)) b fm owner group (delivers_item rest sha512 want_diff ns dm fm owner group Hns Hne rel b I1) Hrd I3 (below_absolute ns Hns Hne rel) Hhl Hha I2 Hun' Hfe) as (res & attr2 & pl2 & n2 & -> & R1 & R2 & R3 & (R4 & _) & R5 & R6); [right; exists pl, n; split; [exact Hsee|eexists; exact Hk]|exact E|].
        assert (attr2 = attr) as -> by (eapply settles_unique; [apply Hrd|exact Hun'|exact R4|exact Hse']).
        exists res. split; [reflexivity|]. assert (Hch : or_changed res = false).
        { apply R5. exists pl, n, d. split; [exact Hsee|]. split.
          - eapply (made_wanted s_file_mode s0); [exact Hof|apply Hse|exact How|exact Hcan|exact Hb|right; exact Z1|exact Z2|exact Hcl].
          - split; [exact Hk|]. destruct Hd as [-> |Hd]; [reflexivity|exact Hd]. }
        split; [exact Hch|]. apply same_again; auto.
    Qed.
    Lemma items_again s0 c reqs l : ready c reqs -> healthy c -> hash_ok sha512 -> only_files s0 (sysof c) -> unaliased s0 ->
      (forall it, it ∈ l -> item_ok ns it /\ feasible (sysof c) (c_base c) (reqs ++ [item_q it]) /\ plain_bits (c_base c) reqs it /\
         exists pl n, sees (sysof c) (item_path ns it) pl n /\ made it s0 (c_base c) reqs n /\ N.land (n_mode n) 3072 = 0%N) ->
      forall o x c', do_items l o c = (x, c') -> c' = c /\ forall o', x = Ok (tt, o') -> exists rs, told ns l o o' rs /\ Forall (fun r => or_changed r = false) rs.
    Proof.
      intros Hrd Hhl Hha Hof Hun. induction l as [|it l IH]; intros Hl o x c' E.
      - injection E as <- <-. split; [reflexivity|]. intros o' [= <-]. exists []. split; [|constructor]. split; [reflexivity|]. split; [constructor|]. unfold entries. cbn. rewrite !app_nil_r. auto.
      - destruct (Hl it (elem_of_list_here _ _)) as (H1 & H2 & H3 & pl & n & H4 & H5 & H6). cbn [Tree_run.do_items] in E.
        apply obind_spec in E as [(res & o1 & c1 & E1 & E)|(e & E1 & ->)].
        + apply bind_spec in E1 as [(res' & c2 & E1 & E2)|(e & E1 & [=])]. injection E2 as <- <- <-.
          assert (Hh : honest (sysof c)) by (intros k Hk; destruct Hhl as (_ & Hf & _); rewrite Hf in Hk; inversion Hk).
          destruct (item_any rest sha512 want_diff ns dm fm owner group Hns Hne it c (Ok res') c2 reqs (proj1 H1) (proj1 (proj2 H1)) (proj2 (proj2 H1)) Hrd Hh E1) as (_ & _ & _ & _ & Hres).
          destruct (Hres res' eq_refl) as (_ & _ & _ & _ & _ & _ & _ & _ & _ & _ & Hho).
          destruct (item_again it s0 c reqs pl n _ c2 H1 Hrd Hhl Hha Hof Hun H2 H3 H4 H5 H6 E1) as (res & [= <-] & Hch & ->).
          apply obind_spec in E as [([] & o2 & c3 & E2 & E)|(e & E2 & ->)].
          * change (add_nested_result (item_path ns it) res') with (call_ (CAdd (item_path ns it) res')) in E2. assert (Hc := E2). apply call_spec in Hc as (-> & _).
            destruct (IH (fun i Hi => Hl i (elem_of_list_further _ _ _ Hi)) o2 x c' E) as [-> Hx]. split; [reflexivity|]. intros o' Ho. destruct (Hx o' Ho) as (rs & T & F).
            exists (res' :: rs). split; [eapply add_told; [exact E2|exact (proj2 Hho)|exact T]|]. constructor; assumption.
          * split; [|discriminate]. unfold add_nested_result in E2. rewrite getO_bind in E2. destruct (negb (op_nested _)); [injection E2 as _ <-; reflexivity|]. cbv zeta in E2. destruct (_ || _); [injection E2 as _ <-; reflexivity|discriminate E2].
        + split; [|discriminate]. apply bind_spec in E1 as [(res' & c2 & E1 & [=])|(e' & E1 & _)].
          destruct (item_again it s0 c reqs pl n _ c' H1 Hrd Hhl Hha Hof Hun H2 H3 H4 H5 H6 E1) as (res & [=] & _).
    Qed.
  End items.

  (** ** C53 *)
  (** Full statement: a second run reports no change and changes nothing.  Missing: set-id bits that are asked for or that the
      directories have or inherit, modes of the connection that are not written canonically, and accounts that share an id; these are
      refuted for single directories and files (C43, C44). *)
  Theorem C53_again_partial a a2 c r c' r2 c2 reqs t src dest ns dm fm owner group :
    transfer t src dest ns -> ready c reqs -> healthy c -> hash_ok sha512 -> unaliased (sysof c) -> canonical_base (c_base c) ->
    feasible (sysof c) (c_base c) (reqs ++ [asking owner group None dm]) -> feasible (sysof c) (c_base c) (reqs ++ [asking owner group fm None]) ->
    octal_below 1024 (wanted s_dir_mode (c_base c) (reqs ++ [asking owner group None dm])) ->
    octal_below 1024 (wanted s_file_mode (c_base c) (reqs ++ [asking owner group fm None])) ->
    attainable (fun k => k = KDir) (sysof c) (path_of ns) ->
    (forall P rel sub n, resolve (o_fs (sysof c)) [] (path_of ns) false = Ok P -> inside t rel sub -> rel <> [] -> o_fs (sysof c) !! (rev rel ++ P) = Some n ->
       (dir_like sub -> n_kind n = KDir) /\ forall b, file_like sub b -> regular (n_kind n)) ->
    operation a (upload_dir (Some t) src dest dm fm owner group) c = (r, c') ->
    (forall rel pl n, sent t rel -> sees (sysof c') (path_of (ns ++ rel)) pl n -> N.land (n_mode n) 3072 = 0%N) ->
    operation a2 (upload_dir (Some t) src dest dm fm owner group) c' = (r2, c2) ->
    exists res2, r2 = Ok res2 /\ or_success res2 = true /\ or_changed res2 = false /\ c2 = c'.
  Proof.
    intros Ht Hr Hhl Hha Hun [Hcf Hcd] F1 F2 B1 B2 Hat Hfit E Hbits E2.
    destruct (C53_works rest sha512 want_diff a c r c' reqs t src dest ns dm fm owner group Ht Hr Hhl Hha Hun F1 F2 Hat Hfit E) as (res & -> & Hhl').
    assert (Hh : honest (sysof c)) by (intros k Hk; destruct Hhl as (_ & Hf & _); rewrite Hf in Hk; inversion Hk).
    destruct (tree_items rest sha512 want_diff t src dest ns dm fm owner group a c _ c' Ht E) as (x & Ed & Hres & _). destruct (Hres res eq_refl) as (o' & i & f & -> & Hi & Hf & ->).
    assert (Hok := transfer_items t src dest ns Ht). assert (HT := Ht). destruct Ht as (T1 & T2 & T3 & T4 & T5 & T6 & T7 & T8).
    destruct (plan_any rest sha512 want_diff ns dm fm owner group T4 T5 c reqs _ (Op true None None []) _ c' (plan_chained t) (plan_nodup t T2) Hok Hr Hh Ed) as [_ H].
    change (IDir [] :: _) with (plan t) in H. destruct (H o' eq_refl) as ((P & Hinv) & _). clear H.
    assert (Hpl := plan_sees sha512 t src dest ns dm fm owner group c reqs P c' HT Hinv).
    destruct Hinv as (Hset & Hrd' & Hh' & ((m & M1 & M2) & Hof & Hg & _) & _).
    assert (Hb : c_base c' = c_base c) by (rewrite Hset; reflexivity).
    assert (Hun' : unaliased (sysof c')) by (unfold unaliased; rewrite (only_files_passwd _ _ Hof), (only_files_group _ _ Hof); exact Hun).
    assert (Hfe : forall it, feasible (sysof c') (c_base c') (reqs ++ [item_q dm fm owner group it])).
    { intros it. rewrite Hb. eapply feasible_grows; [exact Hof|exact Hg|]. destruct it; [exact F1|exact F2]. }
    assert (Hgo : exists res2, r2 = Ok res2).
    { assert (Hat' : attainable (fun k => k = KDir) (sysof c') (path_of ns)) by (right; exists P, m; split; assumption).
      assert (Hw := C53_works rest sha512 want_diff a2 c' r2 c2 reqs t src dest ns dm fm owner group HT Hrd' Hhl' Hha Hun' (Hfe (IDir [])) (Hfe (IFile [] [])) Hat').
      destruct Hw as (res2 & -> & _); [|exact E2|exists res2; reflexivity].
      intros Q rel sub n HQ Hs Hn0 Hn. assert (Q = P) as ->. { apply resolve_node_split in M1 as [M1 _]. congruence. }
      split.
      - intros Hd. destruct (Hpl (IDir rel)) as (k & K1 & K2); [apply plan_in; [exact T1|]; exists sub; auto|]. apply resolve_node_split in K1 as [_ K1]. cbn [rel_of] in K1. rewrite Hn in K1. injection K1 as <-. destruct K2 as (_ & _ & _ & K2 & _). exact K2.
      - intros b Hd. destruct (Hpl (IFile rel b)) as (k & K1 & K2); [apply plan_in; [exact T1|]; exists sub; auto|]. apply resolve_node_split in K1 as [_ K1]. cbn [rel_of] in K1. rewrite Hn in K1. injection K1 as <-. destruct K2 as (_ & _ & _ & (d & K2 & _) & _). exists d. exact K2. }
    destruct Hgo as (res2 & ->). exists res2. split; [reflexivity|].
    destruct (tree_items rest sha512 want_diff t src dest ns dm fm owner group a2 c' _ c2 HT E2) as (x & Ed2 & Hres2 & _). destruct (Hres2 res2 eq_refl) as (o2 & i2 & f2 & -> & Hi2 & Hf2 & ->).
    destruct (items_again ns dm fm owner group T4 T5 (sysof c) c' reqs (plan t) Hrd' Hhl' Hha Hof Hun) with (o := Op true None None []) (x := Ok (tt, o2)) (c' := c2) as [-> Hrs]; [|exact Ed2|].
    { intros it Hit. split; [auto|]. split; [auto|]. split.
      - split; rewrite Hb; destruct it; assumption.
      - destruct (Hpl it Hit) as (n & N1 & N2). exists (rev (rel_of it) ++ P), n. split; [exact N1|]. split; [rewrite Hb; exact N2|].
        eapply Hbits; [|exact N1]. apply sent_plan; eauto. }
    destruct (Hrs o2 eq_refl) as (rs & (L1 & L2 & L3 & L4) & Hall). rewrite Hi2 in L3. rewrite Hf2 in L4. cbn [default from_option id op_initial op_final app] in L3, L4. subst i2 f2.
    split; [reflexivity|]. split; [|reflexivity]. cbn [or_changed]. apply negb_false_iff. apply entries_equal; auto.
    apply (item_paths_nodup ns T4); [|apply plan_nodup; exact T2]. intros it Hit. apply Hok. exact Hit.
  Qed.
End again.
Print Assumptions C53_again_partial.

Lemma ex_text n t : str_eqb (oct_tail (Z.of_N n)) t = true -> octal_text n t.
Proof. intros H. apply bool_decide_eq_true in H. rewrite <- H. destruct (oct_tail_text _ _ (oct_tail_value n)) as (j & J1 & J2). apply N2Z.inj in J1 as <-. exact J2. Qed.
(** ** A case that meets the hypotheses; the others are in [C53_case] *)
Example C53_again_case : let x := send sample (lit "app") (lit "/srv/old/") on_site in
  canonical_base (c_base on_site) /\
  octal_below 1024 (wanted s_dir_mode (c_base on_site) ([] ++ [asking alice None None m755])) /\ octal_below 1024 (wanted s_file_mode (c_base on_site) ([] ++ [asking alice None m755 None])) /\
  (forall rel pl n, sent sample rel -> sees (sysof (snd x)) (path_of ([lit "srv"; lit "old"; lit "app"] ++ rel)) pl n -> N.land (n_mode n) 3072 = 0%N) /\
  or_changed (result_of x) = true /\ or_changed (result_of (send sample (lit "app") (lit "/srv/old/") (snd x))) = false.
Proof.
  cbn zeta. split.
  { split; [exists 384%N, (lit "600")|exists 448%N, (lit "700")]; (split; [reflexivity|]); apply ex_text; vm_compute; reflexivity. }
  split; [apply (octal_below_dec _ _ 493); vm_compute; reflexivity|]. split; [apply (octal_below_dec _ _ 493); vm_compute; reflexivity|]. split; [|split; vm_compute; reflexivity].
  intros rel pl n (sub & H & _) Hs. unfold sample in H. below; vm_compute in Hs; try discriminate Hs; injection Hs as <- <-; reflexivity.
Qed.
