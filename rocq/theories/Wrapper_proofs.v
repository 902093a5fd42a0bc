(** Lemmas about wrappers. *)
From Verif Require Import Base Wrapper Spec_Wrapper Dict_proofs.

Lemma dget_instance w a : a <> lit "module" -> dget a (instance_dict w) = dget a (w_dict w).
Proof. intros H. unfold instance_dict. destruct (w_module w) as [[mo m]|]; [apply dget_dset_other; exact H|reflexivity]. Qed.
Lemma instance_nodup w : wf w -> NoDup (instance_dict w).*1.
Proof. intros [H _]. unfold instance_dict. destruct (w_module w) as [[mo m]|]; [apply dset_nodup, H|exact H]. Qed.
Lemma vars_nodup w : wf w -> NoDup (vars w).*1.
Proof. intros H. unfold vars. destruct (w_module w) as [[mo m]|]; [apply dupdate_nodup|]; apply instance_nodup, H. Qed.
Lemma dget_vars w a : wf w -> dget a (vars w) =
  match w_module w with
  | Some (_, m) => match dget a m with Some v => Some v | None => dget a (instance_dict w) end
  | None => dget a (instance_dict w)
  end.
Proof.
  intros [_ H]. unfold vars. destruct (w_module w) as [[mo m]|]; [|reflexivity].
  apply dget_dupdate_nodup, H.
Qed.
Lemma own_vars w a v : wf w -> a <> lit "module" -> own w a v <-> dget a (vars w) = Some v.
Proof.
  intros Hwf Ha. rewrite dget_vars by assumption. unfold own, module_lacks, in_module, in_instance.
  rewrite dget_instance by assumption. destruct (w_module w) as [[mo m]|]; split.
  - intros [(mo' & m' & [= -> ->] & ->)|[Hl [_ Hd]]]; [reflexivity|].
    destruct (dget a m) as [v'|] eqn:E; [|assumption]. exfalso. apply (Hl v'). eauto.
  - destruct (dget a m) as [v'|] eqn:E; [intros [= ->]; left; eauto|]. intros H. right. split; [|auto].
    intros v' (mo' & m' & [= <- <-] & H'). congruence.
  - intros [(mo' & m' & [=] & _)|[_ [_ H]]]. exact H.
  - intros H. right. split; [|auto]. intros v' (mo' & m' & [=] & _).
Qed.
Lemma no_own_vars w a : wf w -> a <> lit "module" -> no_own w a <-> dget a (vars w) = None.
Proof.
  intros Hwf Ha. unfold no_own. setoid_rewrite own_vars; [|assumption..]. destruct (dget a (vars w)); split; try congruence.
Qed.
Lemma get_attr_vars c w a : wf w -> private a = false -> a <> lit "module" -> get_attr c w a =
  match dget a (vars w) with Some v => Some (FObj v) | None => if str_in a (c_attrs c) then Some (FClass a) else None end.
Proof.
  intros Hwf Hp Ha. rewrite dget_vars by assumption. unfold get_attr, object_get. rewrite Hp.
  destruct (w_module w) as [[mo m]|] eqn:E; [|reflexivity]. destruct (dget a m); reflexivity.
Qed.
Lemma own_fun w a v v' : own w a v -> own w a v' -> v = v'.
Proof.
  intros [H|[Hl H]] [H'|[Hl' H']].
  - destruct H as (? & ? & E & H), H' as (? & ? & E' & H'). rewrite E in E'. injection E' as <- <-. congruence.
  - exfalso. eapply Hl', H.
  - exfalso. eapply Hl, H'.
  - destruct H, H'. congruence.
Qed.

(** ** C36 *)
Lemma set_get c w a v : a <> lit "module" ->
  (private a = true -> dunder a = true \/ module_lacks w a) ->
  get_attr c (set_attr w a v) a = Some (FObj v).
Proof.
  intros Ha Hp. unfold get_attr, set_attr, object_get. destruct (w_module w) as [[mo m]|] eqn:E.
  2: { cbn. unfold instance_dict; cbn. rewrite dget_dset_same. reflexivity. }
  destruct (dunder a || negb (dhas a m)) eqn:Ed; cbn [w_module].
  - assert (G : dget a (instance_dict (Wrapper (dset a v (w_dict w)) (Some (mo, m)))) = Some v).
    { rewrite dget_instance by assumption. apply dget_dset_same. }
    rewrite G. destruct (private a) eqn:Ep; [reflexivity|]. destruct (dget a m) as [o|] eqn:Em; [|reflexivity].
    exfalso. apply orb_prop in Ed as [Ed|Ed].
    + apply startswith_true in Ed as [r ->]. discriminate.
    + unfold dhas in Ed. rewrite Em in Ed. discriminate.
  - apply orb_false_elim in Ed as [Ed Eh]. destruct (private a) eqn:Ep; [|rewrite dget_dset_same; reflexivity].
    exfalso. destruct (Hp eq_refl) as [H|H]; [congruence|].
    unfold dhas in Eh. destruct (dget a m) as [o|] eqn:Em; [|discriminate]. apply (H o). exists mo, m. auto.
Qed.
Lemma set_get_other c w a b v : b <> a -> get_attr c (set_attr w a v) b = get_attr c w b.
Proof.
  intros Hb. unfold get_attr, set_attr, object_get, instance_dict. destruct (w_module w) as [[mo m]|]; cbn [w_module w_dict].
  2: { rewrite dget_dset_other by assumption. reflexivity. }
  destruct (dunder a || negb (dhas a m)); cbn [w_module w_dict].
  - assert (G : dget b (dset (lit "module") mo (dset a v (w_dict w))) = dget b (dset (lit "module") mo (w_dict w))).
    { rewrite !dget_dset. destruct (decide (b = lit "module")); [reflexivity|]. rewrite decide_False by assumption. reflexivity. }
    rewrite G. reflexivity.
  - rewrite (dget_dset_other b a) by assumption. reflexivity.
Qed.

(** ** C37 *)
Lemma script_builtin_b a : (str_in a (c_annot script_cls) || str_in a (c_own script_cls)) = true <-> script_builtin a.
Proof.
  rewrite orb_true_iff, !str_in_true. unfold script_builtin. change (List.map lit ["name"; "_defaults_stack"; "defaults"; "current_defaults"; "Params"]%string)
    with (c_annot script_cls ++ c_own script_cls). rewrite elem_of_app. reflexivity.
Qed.
Lemma host_attrs_b a : str_in a (c_attrs host_cls) = true <-> builtin_name a.
Proof.
  rewrite str_in_true. unfold builtin_name. cbn [c_attrs host_cls]. 
  assert (P : List.map lit ["connector"; "connection"]%string ++ host_methods ++ base_attrs ≡ₚ
    List.map lit ["module"; "is_exported_variable"; "exported_variables"; "is_overloaded"; "is_overridden"; "wrap";
    "definition_file"; "connector"; "connection"; "create_connector"; "vars_hierarchical"]%string).
  { rewrite (app_assoc (List.map lit ["connector"; "connection"]%string)). rewrite Permutation_app_comm. reflexivity. }
  split; intros H; [rewrite <- P|rewrite P]; exact H.
Qed.
Lemma script_attrs_sub a : str_in a (c_attrs script_cls) = true -> script_builtin a \/ builtin_name a.
Proof.
  rewrite str_in_true. cbn [c_attrs script_cls]. rewrite elem_of_app. intros [H|H].
  - left. unfold script_builtin. 
    change (List.map lit ["name"; "_defaults_stack"; "defaults"; "current_defaults"; "Params"]%string)
      with (c_annot script_cls ++ script_methods). apply elem_of_app. right. exact H.
  - right. apply host_attrs_b, str_in_true. cbn [c_attrs host_cls]. rewrite !elem_of_app. auto.
Qed.

Lemma host_get_spec h s a : wf h -> (forall w, s = Some w -> wf w) -> private a = false -> ~ builtin_name a ->
  host_get h s a = match dget a (vars h) with
    | Some v => Some (FObj v)
    | None => match s with
        | Some w => if str_in a (c_annot script_cls) || str_in a (c_own script_cls) then None
            else match dget a (vars w) with Some v => if is_module v then None else Some (FObj v) | None => None end
        | None => None end
    end.
Proof.
  intros Hh Hs Hp Hb. assert (Ha : a <> lit "module").
  { intros ->. apply Hb. left. }
  unfold host_get. rewrite get_attr_vars by assumption.
  destruct (str_in a (c_attrs host_cls)) eqn:E; [apply host_attrs_b in E; contradiction|].
  destruct (dget a (vars h)) as [v|]; [reflexivity|]. unfold host_fallback. rewrite Hp, <- negb_orb.
  destruct (str_in a (c_annot script_cls) || str_in a (c_own script_cls)) eqn:Eb; cbn [negb]; [destruct s; reflexivity|].
  destruct s as [w|]; [|reflexivity]. rewrite get_attr_vars by auto.
  destruct (str_in a (c_attrs script_cls)) eqn:E2.
  { exfalso. destruct (script_attrs_sub a E2) as [H|H]; [apply script_builtin_b in H; congruence|contradiction]. }
  destruct (dget a (vars w)); reflexivity.
Qed.

Lemma script_var_spec s a v : (forall w, s = Some w -> wf w) -> a <> lit "module" ->
  script_var s a v <-> exists w, s = Some w /\ (str_in a (c_annot script_cls) || str_in a (c_own script_cls)) = false
     /\ dget a (vars w) = Some v /\ is_module v = false.
Proof.
  intros Hs Ha. unfold script_var. setoid_rewrite <- script_builtin_b. setoid_rewrite not_true_iff_false.
  split; intros (w & -> & H).
  - exists w. rewrite <- own_vars by auto. tauto.
  - exists w. rewrite own_vars by auto. tauto.
Qed.

Lemma host_get_own h s a v : wf h -> (forall w, s = Some w -> wf w) -> private a = false -> ~ builtin_name a ->
  own h a v -> host_get h s a = Some (FObj v).
Proof.
  intros Hh Hs Hp Hb Ho. assert (Ha : a <> lit "module") by (intros ->; apply Hb; left).
  rewrite host_get_spec by assumption. apply own_vars in Ho; [|assumption..]. rewrite Ho. reflexivity.
Qed.
Lemma host_get_script h s a v : wf h -> (forall w, s = Some w -> wf w) -> private a = false -> ~ builtin_name a ->
  no_own h a -> (host_get h s a = Some (FObj v) <-> script_var s a v).
Proof.
  intros Hh Hs Hp Hb Ho. assert (Ha : a <> lit "module") by (intros ->; apply Hb; left).
  rewrite host_get_spec by assumption. apply no_own_vars in Ho; [|assumption..]. rewrite Ho.
  rewrite script_var_spec by assumption. destruct s as [w|].
  2: { split; [discriminate|intros (w & [=] & _)]. }
  destruct (str_in a (c_annot script_cls) || str_in a (c_own script_cls)) eqn:E.
  { split; [discriminate|intros (w' & [= <-] & [=] & _)]. }
  destruct (dget a (vars w)) as [v'|] eqn:Ev.
  2: { split; [discriminate|intros (w' & [= <-] & _ & H & _); congruence]. }
  destruct (is_module v') eqn:Em; split.
  - discriminate.
  - intros (w' & [= <-] & _ & H & Hm). congruence.
  - intros [= ->]. eauto 6.
  - intros (w' & [= <-] & _ & H & Hm). congruence.
Qed.
Lemma host_get_private h s a : private a = true -> host_get h s a = object_get host_cls h a.
Proof.
  intros Hp. unfold host_get, host_fallback, get_attr. rewrite Hp.
  destruct (w_module h) as [[mo m]|]; destruct (object_get host_cls h a); reflexivity.
Qed.

Lemma exported_nodup c w : wf w -> NoDup (exported c w).*1.
Proof. intros H. apply filter_nodup, vars_nodup, H. Qed.
Lemma dget_exported c w a : wf w -> dget a (exported c w) =
  match dget a (vars w) with Some v => if is_exported c a v then Some v else None | None => None end.
Proof. intros H. unfold exported. rewrite dget_filter by (apply vars_nodup, H). reflexivity. Qed.

Lemma dget_hierarchical h s a : wf h -> (forall w, s = Some w -> wf w) ->
  dget a (vars_hierarchical h s) =
    match dget a (List.filter (fun kv => normal_var kv.1 kv.2) (vars h)) with
    | Some v => Some v
    | None => match s with Some w => dget a (exported script_cls w) | None => None end
    end.
Proof.
  intros Hh Hs. unfold vars_hierarchical. rewrite dget_dupdate_nodup by (apply filter_nodup, vars_nodup, Hh).
  destruct s as [w|]; [|reflexivity].
  rewrite (dget_dupdate_nodup a [] (exported script_cls w)) by (apply exported_nodup; auto).
  destruct (dget a (exported script_cls w)); reflexivity.
Qed.

Lemma hierarchical_agrees h s a v : wf h -> (forall w, s = Some w -> wf w) -> private a = false -> ~ builtin_name a ->
  (forall v', own h a v' -> is_module v' = false) ->
  (dget a (vars_hierarchical h s) = Some v <-> host_get h s a = Some (FObj v)).
Proof.
  intros Hh Hs Hp Hb Hm. assert (Ha : a <> lit "module") by (intros ->; apply Hb; left).
  rewrite dget_hierarchical, host_get_spec by assumption. rewrite dget_filter by (apply vars_nodup, Hh). cbn [fst snd].
  destruct (dget a (vars h)) as [v'|] eqn:E.
  - unfold normal_var. rewrite Hp, (Hm v') by (apply own_vars; assumption). cbn. split; congruence.
  - destruct s as [w|]; [|split; discriminate]. rewrite dget_exported by auto. unfold is_exported. rewrite Hp. cbn [orb].
    destruct (str_in a (c_annot script_cls) || str_in a (c_own script_cls)); cbn [orb negb].
    + destruct (dget a (vars w)); split; discriminate.
    + destruct (dget a (vars w)) as [v'|]; [|split; discriminate]. destruct (is_module v'); cbn; split; congruence.
Qed.
