(** Properties C36-C38: attributes of wrappers and variables of templates. *)
From Verif Require Import Base Wrapper Spec_Wrapper Dict_proofs Wrapper_proofs.

(** C36, full statement: [forall c w a v, a <> lit "module" -> get_attr c (set_attr w a v) a = Some (FObj v)].
    False for names with one leading underscore that the module defines: they are set on the module
    but read from the wrapper. *)
Theorem C36_set_get_refuted : exists c w a v, wf w /\ a <> lit "module" /\
  get_attr c (set_attr w a v) a <> Some (FObj v).
Proof.
  exists host_cls, (Wrapper [] (Some (Obj 1 (VModule 1), [(lit "_x", Obj 2 (VInt 1))]))), (lit "_x"), (Obj 3 (VInt 2)).
  split_and!; [split; cbn; [constructor|apply NoDup_singleton]|discriminate|vm_compute; discriminate].
Qed.
Print Assumptions C36_set_get_refuted.

(** What holds: all other attributes read back what was set ... *)
Theorem C36_set_get_partial : forall c w a v, a <> lit "module" ->
  (startswith a (lit "_") = true -> startswith a (lit "__") = true \/ module_lacks w a) ->
  get_attr c (set_attr w a v) a = Some (FObj v).
Proof. exact set_get. Qed.
Print Assumptions C36_set_get_partial.
(** ... and no other attribute changes. *)
Theorem C36_set_frame : forall c w a b v, b <> a -> get_attr c (set_attr w a v) b = get_attr c w b.
Proof. exact set_get_other. Qed.
Print Assumptions C36_set_frame.
Example C36_example :
  let w := Wrapper [(lit "url", Obj 5 VNone)] (Some (Obj 1 (VModule 1), [(lit "x", Obj 2 (VInt 1))])) in
  get_attr host_cls (set_attr w (lit "x") (Obj 3 (VInt 2))) (lit "x") = Some (FObj (Obj 3 (VInt 2))) /\
  get_attr host_cls (set_attr w (lit "y") (Obj 3 (VInt 2))) (lit "y") = Some (FObj (Obj 3 (VInt 2))) /\
  get_attr host_cls (set_attr w (lit "y") (Obj 3 (VInt 2))) (lit "x") = Some (FObj (Obj 2 (VInt 1))).
Proof. vm_compute. auto. Qed.

(** C37. An ordinary attribute of a host is the host's own value if it has one ... *)
Theorem C37_own_first : forall h s a v, wf h -> (forall w, s = Some w -> wf w) ->
  startswith a (lit "_") = false -> ~ builtin_name a ->
  own h a v -> host_get h s a = Some (FObj v).
Proof. exact host_get_own. Qed.
Print Assumptions C37_own_first.
(** ... otherwise the variable exported by the running script, and nothing else. *)
Theorem C37_script_fallback : forall h s a v, wf h -> (forall w, s = Some w -> wf w) ->
  startswith a (lit "_") = false -> ~ builtin_name a -> no_own h a ->
  (host_get h s a = Some (FObj v) <-> script_var s a v).
Proof. exact host_get_script. Qed.
Print Assumptions C37_script_fallback.
(** Underscored names are never taken from a script. *)
Theorem C37_private_never_from_script : forall h s s' a, startswith a (lit "_") = true ->
  host_get h s a = host_get h s' a.
Proof. intros h s s' a H. rewrite !host_get_private by exact H. reflexivity. Qed.
Print Assumptions C37_private_never_from_script.
(** Templates see the same values, except that modules imported by the host are hidden. *)
Theorem C37_templates_agree : forall h s a v, wf h -> (forall w, s = Some w -> wf w) ->
  startswith a (lit "_") = false -> ~ builtin_name a -> (forall v', own h a v' -> is_module v' = false) ->
  (dget a (vars_hierarchical h s) = Some v <-> host_get h s a = Some (FObj v)).
Proof. exact hierarchical_agrees. Qed.
Print Assumptions C37_templates_agree.

Definition ex_host : wrapper :=
  Wrapper [(lit "name", Obj 10 (VStr (lit "h"))); (lit "inventory", Obj 11 (VOpaque 11))]
    (Some (Obj 1 (VModule 1), [(lit "name", Obj 10 (VStr (lit "h"))); (lit "inventory", Obj 11 (VOpaque 11)); (lit "x", Obj 2 (VInt 1))])).
Definition ex_script : wrapper :=
  Wrapper [(lit "name", Obj 20 (VStr (lit "deploy")))]
    (Some (Obj 21 (VModule 21), [(lit "x", Obj 22 (VInt 7)); (lit "y", Obj 23 (VInt 8)); (lit "_z", Obj 24 (VInt 9)); (lit "os", Obj 25 (VModule 25))])).
Lemma ex_wf : wf ex_host /\ wf ex_script.
Proof. split; split; apply (bool_decide_unpack _); vm_compute; exact I. Qed.
Example C37_example :
  host_get ex_host (Some ex_script) (lit "x") = Some (FObj (Obj 2 (VInt 1))) /\
  host_get ex_host (Some ex_script) (lit "y") = Some (FObj (Obj 23 (VInt 8))) /\
  host_get ex_host (Some ex_script) (lit "_z") = None /\ host_get ex_host (Some ex_script) (lit "os") = None /\
  host_get ex_host (Some ex_script) (lit "defaults") = None /\
  own ex_host (lit "x") (Obj 2 (VInt 1)) /\ no_own ex_host (lit "y") /\ script_var (Some ex_script) (lit "y") (Obj 23 (VInt 8)).
Proof.
  destruct ex_wf as [H1 H2].
  split_and!; try (vm_compute; reflexivity).
  - apply own_vars; [exact H1|discriminate|vm_compute; reflexivity].
  - apply no_own_vars; [exact H1|discriminate|vm_compute; reflexivity].
  - exists ex_script. split_and!; [reflexivity|apply own_vars; [exact H2|discriminate|vm_compute; reflexivity]| |reflexivity].
    intros H. apply script_builtin_b in H. vm_compute in H. discriminate.
Qed.

(** C38. In templates the context overrides the host's variables, and [host] is the current host. *)
Theorem C38_context_wins : forall h this s c a v, NoDup c.*1 -> a <> lit "host" -> a <> lit "inventory" ->
  dget a c = Some v -> dget a (template_vars h this s (Some c)) = Some v.
Proof.
  intros h this s c a v Hc H1 H2 Ha. unfold template_vars. rewrite !dget_dset_other by assumption.
  rewrite dget_dupdate_nodup by exact Hc. rewrite Ha. reflexivity.
Qed.
Print Assumptions C38_context_wins.
Theorem C38_host_variables_kept : forall h this s c a, a <> lit "host" -> a <> lit "inventory" ->
  (forall c', c = Some c' -> a ∉ c'.*1) ->
  dget a (template_vars h this s c) = dget a (vars_hierarchical h s).
Proof.
  intros h this s c a H1 H2 Hc. unfold template_vars. rewrite !dget_dset_other by assumption.
  destruct c as [c|]; [|reflexivity]. rewrite dget_dupdate.
  assert (G : dget a (rev c) = None); [|rewrite G; reflexivity].
  apply dget_None. change ((rev c).*1) with (List.map fst (rev c)). rewrite map_rev, elem_of_list_In, <- in_rev, <- elem_of_list_In.
  apply (Hc c eq_refl).
Qed.
Print Assumptions C38_host_variables_kept.
Theorem C38_host_key : forall h this s c, dget (lit "host") (template_vars h this s c) = Some this.
Proof. intros. unfold template_vars. rewrite dget_dset_other by discriminate. apply dget_dset_same. Qed.
Print Assumptions C38_host_key.
(** Full statement for [inventory]: it is the inventory of the host, i.e.
    [own h (lit "inventory") inv -> dget (lit "inventory") (template_vars h this s c) = Some inv].
    False: the code stores the host under this key. *)
Theorem C38_inventory_key_refuted : exists h this s c inv, wf h /\ own h (lit "inventory") inv /\ this <> inv /\
  dget (lit "inventory") (template_vars h this s c) = Some this.
Proof.
  exists ex_host, (Obj 99 (VOpaque 99)), None, None, (Obj 11 (VOpaque 11)).
  split_and!; [apply ex_wf| |discriminate|vm_compute; reflexivity].
  apply own_vars; [apply ex_wf|discriminate|vm_compute; reflexivity].
Qed.
Print Assumptions C38_inventory_key_refuted.
Example C38_example :
  dget (lit "x") (template_vars ex_host (Obj 99 (VOpaque 99)) (Some ex_script) (Some [(lit "x", Obj 50 (VInt 50))])) = Some (Obj 50 (VInt 50)) /\
  dget (lit "y") (template_vars ex_host (Obj 99 (VOpaque 99)) (Some ex_script) (Some [(lit "x", Obj 50 (VInt 50))])) = Some (Obj 23 (VInt 8)).
Proof. vm_compute. auto. Qed.
