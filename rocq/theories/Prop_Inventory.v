(** Properties C28-C33 and C66: groups, hosts and variables of inventories. *)
From Coq Require Import Lia ZifyBool ZifyNat.
From Verif Require Import Base Paths Urls Wrapper Spec_Wrapper Ranks Spec_Ranks Ranks_proofs Inventory
  Spec_Inventory Inventory_proofs Inventory_proofs2 Inventory_values Inventory_orders Inventory_main Inventory_examples.

(** C28. Declarations are accepted exactly if they make sense ... *)
Theorem C28_accepts : forall e hs gs, set_ok e ->
  (exists l, load_decls e hs gs = Ok l) <-> hosts_ok hs /\ groups_ok hs gs.
Proof. exact load_accepts. Qed.
Print Assumptions C28_accepts.
(** ... and then every group is ordered after all groups it depends on. *)
Theorem C28_order : forall e hs gs l, set_ok e -> load_decls e hs gs = Ok l ->
  let order := o_names (l_order l) in
  NoDup order /\ (forall g, g ∈ order <-> group_exists hs gs g) /\ (forall u v, direct hs gs u v -> precedes order u v).
Proof. exact load_order. Qed.
Print Assumptions C28_order.

(** C29. Every declared host gets the data it declares, under its own name. *)
Theorem C29_hosts : forall e hs gs l, set_ok e -> load_decls e hs gs = Ok l ->
  Forall2 host_entry hs (l_hosts l) /\ NoDup (l_hosts l).*1.
Proof. exact load_hosts. Qed.
Print Assumptions C29_hosts.

(** Once the inventory is loaded, there is one host for each declaration, in the order of the declarations and under its name. *)
Theorem C29_loaded : forall e inv hs gs ws, set_ok e -> load e inv hs gs = Ok ws ->
  Forall2 host_named hs ws.*1 /\ NoDup ws.*1 /\
  exists l, load_decls e hs gs = Ok l /\ Forall (fun nw => exists hist, instanciate_host e inv l nw.1 = Ok (nw.2, hist)) ws.
Proof.
  intros e inv hs gs ws Hset E. unfold load in E. destruct (load_decls e hs gs) as [l|] eqn:El; [|discriminate]. cbn [mbind result_bind] in E.
  assert (K : forall names ws, instanciate_all e inv l names = Ok ws -> ws.*1 = names /\ Forall (fun nw => exists hist, instanciate_host e inv l nw.1 = Ok (nw.2, hist)) ws).
  { clear. induction names as [|n names IH]; intros ws E; cbn [instanciate_all] in E; [injection E as <-; auto|].
    destruct (instanciate_host e inv l n) as [[w hist]|] eqn:Ei; [|discriminate]. cbn [mbind result_bind] in E.
    destruct (instanciate_all e inv l names) as [ws'|] eqn:Ea; [|discriminate]. cbn [mbind result_bind fst] in E. injection E as <-.
    destruct (IH ws' eq_refl) as [<- IH2]. split; [reflexivity|]. constructor; [exists hist; exact Ei|exact IH2]. }
  destruct (K _ _ E) as [K1 K2]. rewrite K1. destruct (load_hosts e hs gs l Hset El) as [HF HN].
  split; [|split; [exact HN|eauto]]. clear - HF. induction HF as [|h [n d] hs ls Hh HF IH]; [constructor|]. cbn [fmap list_fmap fst]. constructor; [|exact IH].
  destruct Hh as (_ & _ & _ & _ & Hh). destruct h; cbn [host_named]; [apply Hh|apply Hh|destruct Hh..].
Qed.
Print Assumptions C29_loaded.

(** examples *)
Definition grp (n : string) (after before : list string) : groupspec :=
  GDecl (GroupDecl (lit n) None (List.map lit after) (List.map lit before)).
Definition hst (n : string) (groups : list string) (vars : ns) : hostspec :=
  HDecl (HostDecl (Some (lit "ssh://web")) (Some (lit n)) None (List.map lit groups) vars).
Definition load_or (e : env) hs gs : loaded :=
  match load_decls e hs gs with Ok l => l | Err _ => Loaded [] [] (Order (fun _ => 0%Z) (fun _ => 0%Z) []) end.
Definition decl_or (l : loaded) (h : string) : hostdecl :=
  match dget (lit h) (l_hosts l) with Some d => d | None => HostDecl None None None [] [] end.
Definition gfile (n : string) : pystr := lit "/inv/groups/" ++ lit n ++ lit ".py".
Definition int (i : N) : obj := Obj i (VInt (Z.of_N i)).

Example C28_example :
  let gs := Some [grp "web" ["base"] []; grp "base" [] ["db"]; grp "db" [] []] in
  let hs := [hst "h" ["web"; "db"] []; HStr (lit "ssh://other")] in
  let l := load_or (ex_env []) hs gs in
  load_decls (ex_env []) hs gs = Ok l /\
  o_names (l_order l) = List.map lit ["early-explicits"; "all"; "base"; "web"; "db"]%string /\
  (l_hosts l).*1 = List.map lit ["h"; "other"]%string /\
  load_decls (ex_env []) hs (Some [grp "web" ["db"] []; grp "db" ["web"] []]) = Err (ValueError (lit "Dependency cycle detected!")) /\
  load_decls (ex_env []) hs (Some [grp "web" ["bd"] []; grp "db" [] []])
    = Err (ValueError (lit "Unknown group 'bd' used in after set of group 'web'")).
Proof. vm_compute. auto. Qed.

(** C30, full statement: [forall e A inv hs gs l host d, simple_host e A inv hs gs l host d -> (forall x, fresh e A inv l d x) ->
    (forall x p q v w, defines e A inv l d x p v -> defines e A inv l d x q w -> p <> q ->
       exists n, path (direct hs gs) p (S n) q \/ p <> s_early /\ path (direct hs gs) q (S n) p) ->
    exists w hist, instanciate_host e inv l host = Ok (w, hist)].
    That is: a group may redefine what the groups it depends on define.  False: the ranks of [x] and [y] overlap
    because a longer chain exists elsewhere. *)
Definition c30_gs := Some [grp "a" [] []; grp "b" ["a"] []; grp "c" ["b"] []; grp "x" [] []; grp "y" ["x"] []].
Definition c30_hs := [hst "h" ["x"; "y"] []].
Definition c30_files := [(gfile "x", [(lit "v", int 1)]); (gfile "y", [(lit "v", int 2)])].
Definition c30_l := load_or (ex_env c30_files) c30_hs c30_gs.
Lemma ex_inv_ok : wf (ex_inv []) /\ exists x, exported_variables inventory_cls (ex_inv []) = Ok x.
Proof. split; [split; [constructor|apply NoDup_singleton]|vm_compute; eauto]. Qed.
Ltac simple := apply simpleb_ok; [vm_compute; reflexivity|vm_compute; reflexivity|apply NoDup_singleton|apply ex_inv_ok|vm_compute; reflexivity].
Lemma path1 {T} (edge : T -> T -> Prop) u v : edge u v -> path edge u 1 v.
Proof. intros H. eapply path_step; [exact H|constructor]. Qed.

Theorem C30_override_refuted : exists e A inv hs gs l host d,
  simple_host e A inv hs gs l host d /\ (forall x, fresh e A inv l d x) /\
  (forall x p q v w, defines e A inv l d x p v -> defines e A inv l d x q w -> p <> q ->
     exists n, path (direct hs gs) p (S n) q \/ p <> s_early /\ path (direct hs gs) q (S n) p) /\
  ~ exists w hist, instanciate_host e inv l host = Ok (w, hist).
Proof.
  exists (ex_env c30_files), (ex_A c30_files), (ex_inv []), c30_hs, c30_gs, c30_l, (lit "h"), (decl_or c30_l "h").
  split_and!.
  - simple.
  - apply freshb_ok. vm_compute. reflexivity.
  - assert (Hxy : path (direct c30_hs c30_gs) (lit "x") 1 (lit "y")).
    { apply path1. left. eexists _, (grp "y" ["x"] []), _, _. split; [reflexivity|].
      split; [do 4 right; left|]. split; [apply declares_decl|]. split; [left|discriminate]. }
    intros x p q v w Dp Dq Hpq. apply ex_defines in Dp, Dq. exists 0.
    assert (Hc : (x = lit "v" /\ (p = lit "x" \/ p = lit "y")) \/ (x = lit "fora_managed" /\ p = s_all)).
    { vm_compute in Dp. apply elem_of_list_In in Dp. cbn in Dp. destruct Dp as [Dp|[Dp|[Dp|[]]]]; inversion Dp; subst; auto. }
    assert (Hd : (x = lit "v" /\ (q = lit "x" \/ q = lit "y")) \/ (x = lit "fora_managed" /\ q = s_all)).
    { vm_compute in Dq. apply elem_of_list_In in Dq. cbn in Dq. destruct Dq as [Dq|[Dq|[Dq|[]]]]; inversion Dq; subst; auto. }
    destruct Hc as [[-> Hp]|[-> ->]], Hd as [[E Hq]|[E ->]]; try discriminate E; [|congruence].
    destruct Hp as [->| ->], Hq as [->| ->]; try congruence; [left; exact Hxy|right; split; [discriminate|exact Hxy]].
  - intros (w & hist & H). vm_compute in H. discriminate H.
Qed.
Print Assumptions C30_override_refuted.
(** What holds: redefinitions are accepted if all groups that define the variable lie on longest chains. *)
Theorem C30_override_partial : forall e A inv hs gs l host d,
  simple_host e A inv hs gs l host d -> (forall x, fresh e A inv l d x) ->
  (forall x p q v w, defines e A inv l d x p v -> defines e A inv l d x q w -> p <> q ->
     on_longest hs gs p /\ on_longest hs gs q /\
     exists n, path (direct hs gs) p (S n) q \/ p <> s_early /\ path (direct hs gs) q (S n) p) ->
  exists w hist, instanciate_host e inv l host = Ok (w, hist).
Proof. exact dependants_override. Qed.
Print Assumptions C30_override_partial.
Lemma on_longest_ranks e hs gs l p : set_ok e -> load_decls e hs gs = Ok l -> p ∈ o_names (l_order l) ->
  o_min (l_order l) p = o_max (l_order l) p -> on_longest hs gs p.
Proof.
  intros Hs El Hp E. pose proof (load_accepted _ _ _ _ Hs El) as Ha. apply (acc_names _ _ _ Ha) in Hp.
  destruct (acc_min _ _ _ Ha p Hp) as (dp & E1 & Hdp). destruct (acc_max _ _ _ Ha) as (N & HN & Hmax).
  destruct (Hmax p Hp) as (hp & Hhp & E2). exists N, dp, hp. split_and!; auto. lia.
Qed.
(** a host for which a group and a dependent group define the same variable, all hypotheses met *)
Definition c30_gs' := Some [grp "x" [] []; grp "y" ["x"] []].
Definition c30_l' := load_or (ex_env c30_files) c30_hs c30_gs'.
Example C30_example :
  simple_host (ex_env c30_files) (ex_A c30_files) (ex_inv []) c30_hs c30_gs' c30_l' (lit "h") (decl_or c30_l' "h") /\
  (forall x, fresh (ex_env c30_files) (ex_A c30_files) (ex_inv []) c30_l' (decl_or c30_l' "h") x) /\
  defines (ex_env c30_files) (ex_A c30_files) (ex_inv []) c30_l' (decl_or c30_l' "h") (lit "v") (lit "x") (int 1) /\
  defines (ex_env c30_files) (ex_A c30_files) (ex_inv []) c30_l' (decl_or c30_l' "h") (lit "v") (lit "y") (int 2) /\
  on_longest c30_hs c30_gs' (lit "x") /\ on_longest c30_hs c30_gs' (lit "y") /\ path (direct c30_hs c30_gs') (lit "x") 1 (lit "y").
Proof.
  assert (El : load_decls (ex_env c30_files) c30_hs c30_gs' = Ok c30_l') by (vm_compute; reflexivity).
  split_and!.
  - simple.
  - apply freshb_ok. vm_compute. reflexivity.
  - right. left. split; [apply elem_of_list_In; vm_compute; auto|vm_compute; reflexivity].
  - right. left. split; [apply elem_of_list_In; vm_compute; auto|vm_compute; reflexivity].
  - eapply on_longest_ranks; [apply ex_set|exact El|apply elem_of_list_In; vm_compute; auto|vm_compute; reflexivity].
  - eapply on_longest_ranks; [apply ex_set|exact El|apply elem_of_list_In; vm_compute; auto|vm_compute; reflexivity].
  - apply path1. left. eexists _, (grp "y" ["x"] []), _, _. split; [reflexivity|].
    split; [right; left|]. split; [apply declares_decl|]. split; [left|discriminate].
Qed.

(** C31, full statement: [forall e A inv hs gs l host d, simple_host e A inv hs gs l host d -> (forall x, fresh e A inv l d x) ->
    forall x p q v w, defines e A inv l d x p v -> defines e A inv l d x q w -> p <> q ->
    (forall n, ~ path (direct hs gs) p n q) -> (forall n, ~ path (direct hs gs) q n p) ->
    ~ exists w hist, instanciate_host e inv l host = Ok (w, hist)].
    That is: if two groups define a variable and none depends on the other, it is a conflict.  False if one of them is
    early and followed by a long chain, the other late. *)
Definition c31_gs := Some [grp "p" [] []; grp "p1" ["p"] []; grp "p2" ["p1"] []; grp "p3" ["p2"] [];
  grp "q1" [] []; grp "q2" ["q1"] []; grp "q3" ["q2"] []; grp "q" ["q3"] []].
Definition c31_hs := [hst "h" ["p"; "q"] []].
Definition c31_files := [(gfile "p", [(lit "v", int 1)]); (gfile "q", [(lit "v", int 2)])].
Definition c31_l := load_or (ex_env c31_files) c31_hs c31_gs.
Theorem C31_conflict_refuted : exists e A inv hs gs l host d x p q v w,
  simple_host e A inv hs gs l host d /\ (forall x, fresh e A inv l d x) /\
  defines e A inv l d x p v /\ defines e A inv l d x q w /\ p <> q /\ p <> s_early /\ q <> s_early /\
  (forall n, ~ path (direct hs gs) p n q) /\ (forall n, ~ path (direct hs gs) q n p) /\
  exists w hist, instanciate_host e inv l host = Ok (w, hist).
Proof.
  exists (ex_env c31_files), (ex_A c31_files), (ex_inv []), c31_hs, c31_gs, c31_l, (lit "h"), (decl_or c31_l "h"),
    (lit "v"), (lit "p"), (lit "q"), (int 1), (int 2).
  split_and!; try discriminate.
  - simple.
  - apply freshb_ok. vm_compute. reflexivity.
  - right. left. split; [apply elem_of_list_In; vm_compute; auto|vm_compute; reflexivity].
  - right. left. split; [apply elem_of_list_In; vm_compute; auto|vm_compute; reflexivity].
  - intros n Hp. apply (closed_path _ _ (List.map lit ["p"; "p1"; "p2"; "p3"]%string)) in Hp; [|vm_compute; reflexivity|left].
    revert Hp. apply (bool_decide_unpack _). vm_compute. exact I.
  - intros n Hp. apply (closed_path _ _ (List.map lit ["q"]%string)) in Hp; [|vm_compute; reflexivity|left].
    revert Hp. apply (bool_decide_unpack _). vm_compute. exact I.
  - vm_compute. eauto.
Qed.
Print Assumptions C31_conflict_refuted.
(** What holds: it is a conflict if the longest chains to the groups are equally long. *)
Theorem C31_conflict_partial : forall e A inv hs gs l host d,
  simple_host e A inv hs gs l host d -> (forall x, fresh e A inv l d x) ->
  forall x p q v w n, defines e A inv l d x p v -> defines e A inv l d x q w -> p <> q -> p <> s_early -> q <> s_early ->
  depth (direct hs gs) p n -> depth (direct hs gs) q n -> ~ exists w hist, instanciate_host e inv l host = Ok (w, hist).
Proof. exact same_depth_conflict. Qed.
Print Assumptions C31_conflict_partial.
Definition c31_gs' := Some [grp "p" [] []; grp "q" [] []].
Definition c31_l' := load_or (ex_env c31_files) c31_hs c31_gs'.
Lemma depth_ranks e hs gs l p n : set_ok e -> load_decls e hs gs = Ok l -> p ∈ o_names (l_order l) ->
  o_min (l_order l) p = Z.of_nat n -> depth (direct hs gs) p n.
Proof.
  intros Hs El Hp E. pose proof (load_accepted _ _ _ _ Hs El) as Ha. apply (acc_names _ _ _ Ha) in Hp.
  destruct (acc_min _ _ _ Ha p Hp) as (dp & E1 & Hdp). replace n with dp by lia. exact Hdp.
Qed.
Example C31_example :
  simple_host (ex_env c31_files) (ex_A c31_files) (ex_inv []) c31_hs c31_gs' c31_l' (lit "h") (decl_or c31_l' "h") /\
  (forall x, fresh (ex_env c31_files) (ex_A c31_files) (ex_inv []) c31_l' (decl_or c31_l' "h") x) /\
  defines (ex_env c31_files) (ex_A c31_files) (ex_inv []) c31_l' (decl_or c31_l' "h") (lit "v") (lit "p") (int 1) /\
  defines (ex_env c31_files) (ex_A c31_files) (ex_inv []) c31_l' (decl_or c31_l' "h") (lit "v") (lit "q") (int 2) /\
  depth (direct c31_hs c31_gs') (lit "p") 2 /\ depth (direct c31_hs c31_gs') (lit "q") 2.
Proof.
  assert (El : load_decls (ex_env c31_files) c31_hs c31_gs' = Ok c31_l') by (vm_compute; reflexivity).
  split_and!.
  - simple.
  - apply freshb_ok. vm_compute. reflexivity.
  - right. left. split; [apply elem_of_list_In; vm_compute; auto|vm_compute; reflexivity].
  - right. left. split; [apply elem_of_list_In; vm_compute; auto|vm_compute; reflexivity].
  - eapply depth_ranks; [apply ex_set|exact El|apply elem_of_list_In; vm_compute; auto|vm_compute; reflexivity].
  - eapply depth_ranks; [apply ex_set|exact El|apply elem_of_list_In; vm_compute; auto|vm_compute; reflexivity].
Qed.

(** C32. The values of variables do not depend on the order in which groups are declared or sets are enumerated. *)
Theorem C32_orders_agree : forall e1 e2 A inv hs gs1 gs2 l1 l2 host d1 d2,
  set_ok e1 -> set_ok e2 -> same_surroundings e1 e2 -> same_groups gs1 gs2 -> files_constant e1 A -> wf inv ->
  load_decls e1 hs gs1 = Ok l1 -> load_decls e2 hs gs2 = Ok l2 ->
  dget host (l_hosts l1) = Some d1 -> dget host (l_hosts l2) = Some d2 ->
  s_early ∉ hd_groups d1 -> NoDup (lit "host" :: (hd_vars d1).*1) ->
  forall x, host_var x -> objects_ok (var_object e1 A inv d1 x) ->
  forall w1 h1 w2 h2, instanciate_host e1 inv l1 host = Ok (w1, h1) -> instanciate_host e2 inv l2 host = Ok (w2, h2) ->
  forall v, own w1 x v <-> own w2 x v.
Proof.
  intros e1 e2 A inv hs gs1 gs2 l1 l2 host d1 d2 S1 S2 Hs Hg HA Hi L1 L2 D1 D2 He Hv x Hx Ho.
  pose proof (load_accepted _ _ _ _ S1 L1) as A1. pose proof (load_accepted _ _ _ _ S2 L2) as A2.
  eapply orders_agree; eassumption.
Qed.
Print Assumptions C32_orders_agree.
Example C32_example :
  let files := [(gfile "p", [(lit "v", int 1); (lit "u", int 3)]); (gfile "q", [(lit "v", int 2)]); (gfile "r", [(lit "w", int 4)])] in
  let hs := [hst "h" ["p"; "q"; "r"] []] in
  let l1 := load_or (ex_env files) hs (Some [grp "p" [] []; grp "q" ["p"] []; grp "r" ["p"] []]) in
  let l2 := load_or (ex_env files) hs (Some [grp "r" ["p"] []; grp "q" ["p"] []; grp "p" [] []]) in
  o_names (l_order l1) <> o_names (l_order l2) /\
  (exists w h, instanciate_host (ex_env files) (ex_inv []) l1 (lit "h") = Ok (w, h) /\ get_attr host_cls w (lit "v") = Some (FObj (int 2))) /\
  (exists w h, instanciate_host (ex_env files) (ex_inv []) l2 (lit "h") = Ok (w, h) /\ get_attr host_cls w (lit "v") = Some (FObj (int 2))) /\
  objectsb (ex_pairs files (ex_inv []) (decl_or l1 "h")) = true.
Proof. split_and!; [vm_compute; discriminate|eexists _, _; split; vm_compute; reflexivity..|vm_compute; reflexivity]. Qed.

Example C29_case : exists ws, load (ex_env []) (ex_inv []) [hst "b" ["p"] []; HStr (lit "root@a")] (Some [grp "p" [] []]) = Ok ws /\ ws.*1 = [lit "b"; lit "a"].
Proof. eexists. split; vm_compute; reflexivity. Qed.

(** C33. The value of a variable: the file of the host, else the last group of the host that sets it, else the declaration
    of the host, else the inventory, else the default of fora. *)
Theorem C33_precedence : forall e A inv hs gs l host d w hist x,
  set_ok e -> files_constant e A -> wf inv -> load_decls e hs gs = Ok l -> dget host (l_hosts l) = Some d ->
  NoDup (lit "host" :: (hd_vars d).*1) -> host_var x -> (forall v, var_object e A inv d x v -> is_module v = false) ->
  instanciate_host e inv l host = Ok (w, hist) ->
  let groups := List.filter (fun g => str_in g (hd_groups d)) (o_names (l_order l)) in
  forall v, own w x v <->
    latest ([inventory_value e inv x; dget x (hd_vars d)] ++
            List.map (fun g => assigned A (group_path e (l_groups l) g) x) groups ++
            [assigned A (host_path e d host) x]) = Some v.
Proof.
  intros e A inv hs gs l host d w hist x Hs HA Hi L D Hv Hx Hm R.
  eapply host_values; try eassumption; [apply load_accepted with (e := e); eassumption|..].
  - intros v p H. apply Hm. left. eauto.
  - intros v [H|H]; apply Hm; right; auto.
Qed.
Print Assumptions C33_precedence.
Example C33_example :
  let files := [(gfile "p", [(lit "v", int 1); (lit "u", int 3)]); (gfile "q", [(lit "v", int 2)]);
                (lit "/inv/hosts/h.py", [(lit "u", int 5)])] in
  let hs := [hst "h" ["p"; "q"] [(lit "s", int 6)]] in
  let gs := Some [grp "p" [] []; grp "q" ["p"] []] in
  let l := load_or (ex_env files) hs gs in
  exists w hist, instanciate_host (ex_env files) (ex_inv [(lit "t", int 7)]) l (lit "h") = Ok (w, hist) /\
    simpleb files (ex_inv [(lit "t", int 7)]) l (decl_or l "h") = true /\
    List.map (get_attr host_cls w) (List.map lit ["v"; "u"; "s"; "t"]%string) =
    [Some (FObj (int 2)); Some (FObj (int 5)); Some (FObj (int 6)); Some (FObj (int 7))].
Proof. eexists _, _. split; [vm_compute; reflexivity|]. split; vm_compute; reflexivity. Qed.

(** C66, full statement: [forall e A inv hs gs1 gs2 l1 l2 host d1 d2, simple_host e A inv hs gs1 l1 host d1 ->
    simple_host e A inv hs gs2 l2 host d2 -> same_groups gs1 gs2 ->
    (exists w hist, instanciate_host e inv l1 host = Ok (w, hist)) -> exists w hist, instanciate_host e inv l2 host = Ok (w, hist)].
    False: the first definition of a variable is not recorded if it is None, ... *)
Definition c66_gs1 := Some [grp "p" [] []; grp "q" [] []].
Definition c66_gs2 := Some [grp "q" [] []; grp "p" [] []].
Definition c66_hs := [hst "h" ["p"; "q"] []].
Definition c66_none := [(gfile "p", [(lit "v", Obj 7 VNone)]); (gfile "q", [(lit "v", int 5)])].
Theorem C66_acceptance_refuted : exists e A inv hs gs1 gs2 l1 l2 host d1 d2,
  simple_host e A inv hs gs1 l1 host d1 /\ simple_host e A inv hs gs2 l2 host d2 /\ same_groups gs1 gs2 /\
  (exists w hist, instanciate_host e inv l1 host = Ok (w, hist)) /\ ~ exists w hist, instanciate_host e inv l2 host = Ok (w, hist).
Proof.
  exists (ex_env c66_none), (ex_A c66_none), (ex_inv []), c66_hs, c66_gs1, c66_gs2,
    (load_or (ex_env c66_none) c66_hs c66_gs1), (load_or (ex_env c66_none) c66_hs c66_gs2), (lit "h"),
    (decl_or (load_or (ex_env c66_none) c66_hs c66_gs1) "h"), (decl_or (load_or (ex_env c66_none) c66_hs c66_gs2) "h").
  split_and!; [simple..|apply perm_swap|vm_compute; eauto|]. intros (w & hist & H). vm_compute in H. discriminate H.
Qed.
Print Assumptions C66_acceptance_refuted.
(** ... and setting a variable to the object it already is goes unnoticed. *)
Definition c66_same := [(gfile "all", [(lit "v", int 5)]); (gfile "p", [(lit "v", int 5)]); (gfile "q", [(lit "v", int 6)])].
Theorem C66_acceptance_identical_refuted : exists e A inv hs gs1 gs2 l1 l2 host d1 d2,
  simple_host e A inv hs gs1 l1 host d1 /\ simple_host e A inv hs gs2 l2 host d2 /\ same_groups gs1 gs2 /\
  (forall x p v, defines e A inv l1 d1 x p v -> oval v <> VNone) /\
  (exists w hist, instanciate_host e inv l1 host = Ok (w, hist)) /\ ~ exists w hist, instanciate_host e inv l2 host = Ok (w, hist).
Proof.
  exists (ex_env c66_same), (ex_A c66_same), (ex_inv []), c66_hs, c66_gs1, c66_gs2,
    (load_or (ex_env c66_same) c66_hs c66_gs1), (load_or (ex_env c66_same) c66_hs c66_gs2), (lit "h"),
    (decl_or (load_or (ex_env c66_same) c66_hs c66_gs1) "h"), (decl_or (load_or (ex_env c66_same) c66_hs c66_gs2) "h").
  split_and!; [simple..|apply perm_swap| |vm_compute; eauto|].
  - intros x p v D. apply ex_defines in D. vm_compute in D. apply elem_of_list_In in D. cbn in D.
    destruct D as [D|[D|[D|[D|[]]]]]; inversion D; discriminate.
  - intros (w & hist & H). vm_compute in H. discriminate H.
Qed.
Print Assumptions C66_acceptance_identical_refuted.
(** What holds if all definitions are different objects and none is None: acceptance depends only on the graph of
    dependencies and on who defines what. *)
Theorem C66_acceptance_partial : forall e A inv hs gs l host d,
  simple_host e A inv hs gs l host d -> (forall x, fresh e A inv l d x) ->
  (exists w hist, instanciate_host e inv l host = Ok (w, hist)) <->
  ~ exists x p q v w, defines e A inv l d x p v /\ defines e A inv l d x q w /\ p <> q /\ clash hs gs p q.
Proof. exact accepted_iff. Qed.
Print Assumptions C66_acceptance_partial.
(** In particular it does not depend on the order of declarations or of sets. *)
Theorem C66_acceptance_order_partial : forall e1 e2 A inv hs gs1 gs2 l1 l2 host d1 d2,
  same_surroundings e1 e2 -> same_groups gs1 gs2 ->
  simple_host e1 A inv hs gs1 l1 host d1 -> simple_host e2 A inv hs gs2 l2 host d2 -> (forall x, fresh e1 A inv l1 d1 x) ->
  (exists w hist, instanciate_host e1 inv l1 host = Ok (w, hist)) <-> (exists w hist, instanciate_host e2 inv l2 host = Ok (w, hist)).
Proof.
  intros e1 e2 A inv hs gs1 gs2 l1 l2 host d1 d2 Hs Hg S1 S2 Hf.
  pose proof (load_accepted _ _ _ _ (sh_set _ _ _ _ _ _ _ _ S1) (sh_load _ _ _ _ _ _ _ _ S1)) as A1.
  pose proof (load_accepted _ _ _ _ (sh_set _ _ _ _ _ _ _ _ S2) (sh_load _ _ _ _ _ _ _ _ S2)) as A2.
  pose proof (sh_host _ _ _ _ _ _ _ _ S1) as D1. pose proof (sh_host _ _ _ _ _ _ _ _ S2) as D2.
  destruct (same_host _ _ _ _ _ A1 A2 _ _ _ D1 D2) as (Ev & Ef & Eg).
  assert (Hdef : forall x p v, defines e1 A inv l1 d1 x p v <-> defines e2 A inv l2 d2 x p v).
  { intros x p v. assert (Hp : group_exists hs gs1 p -> group_path e1 (l_groups l1) p = group_path e2 (l_groups l2) p)
      by (eapply same_path; eassumption).
    assert (Ea : group_path e1 (l_groups l1) s_all = group_path e2 (l_groups l2) s_all) by (eapply same_path; eauto using all_exists).
    split; intros D.
    - assert (Hx : group_exists hs gs1 p) by (eapply defines_exists; eassumption). unfold defines in *.
      rewrite <- (same_inventory e1 e2 Hs inv x), <- Ev, <- Ea, <- (Eg p), <- (Hp Hx). exact D.
    - assert (Hx : group_exists hs gs1 p) by (rewrite (same_exists hs gs1 gs2 Hg l1 l2 A1 A2 p); exact (defines_exists _ _ _ _ _ _ _ _ _ _ _ S2 D)). unfold defines in *.
      rewrite (same_inventory e1 e2 Hs inv x), Ev, Ea, (Eg p), (Hp Hx). exact D. }
  assert (Hf2 : forall x, fresh e2 A inv l2 d2 x).
  { intros x. destruct (Hf x) as [F1 F2]. split.
    - intros p q v w H1 H2. apply (F1 p q v w); apply Hdef; assumption.
    - intros p v H1. apply (F2 p). apply Hdef. exact H1. }
  assert (Hc : forall p q, clash hs gs1 p q <-> clash hs gs2 p q).
  { pose proof (same_direct hs gs1 gs2 Hg l1 l2 A1 A2) as Hd. intros p q. unfold clash.
    setoid_rewrite (longest_equiv _ _ Hd). setoid_rewrite (depth_equiv _ _ Hd). setoid_rewrite (height_equiv _ _ Hd). reflexivity. }
  rewrite (accepted_iff _ _ _ _ _ _ _ _ S1 Hf), (accepted_iff _ _ _ _ _ _ _ _ S2 Hf2).
  setoid_rewrite Hdef. setoid_rewrite Hc. reflexivity.
Qed.
Print Assumptions C66_acceptance_order_partial.
