(** * Programs that do what [shadow_utils] demands: the demands can be met *)
From Coq Require Import Lia ZifyBool ZifyN ZifyNat.
From stdpp Require Import gmap.
From Verif Require Import Base Dict_proofs Codec Spec_Codec Sys Spec_Sys Sys_proofs Dispatcher Client Spec_Remote Control Walk_proofs Op Spec_Files Steps Package_proofs Spec_Commands Spec_Account Query_proofs.
Local Open Scope nat_scope.

Definition set_db (p : list account) (g : list grent) (h : list (pystr * pystr)) (s : os) : os :=
  OS p g h (o_env s) (o_fs s) (o_uid s) (o_gid s) (o_groups s) (o_cwd s) (o_now s) (o_faults s).
Definition exit (n : Z) (s : os) : result xres * os := (Ok (XExit n [] []), s).
Definition names (v : pystr) : list pystr := split_char 44 v.
Definition parse_id (v : pystr) : option N := match py_int 10 v with Some z => if (0 <=? z)%Z then Some (Z.to_N z) else None | None => None end.
Definition find_gid (s : os) (v : pystr) : option N := match parse_id v with Some n => Some n | None => gid_of s v end.
Definition known (s : os) (l : list pystr) : bool := forallb (fun g => match gid_of s g with Some _ => true | None => false end) l.
Definition unused (l : list N) : N := N.succ (foldr N.max 999%N l).
(** [u] is a member of those entries that satisfy [f] *)
Definition regroup (u : pystr) (f : grent -> bool) (l : list grent) : list grent :=
  (fun e => Grent (gr_name e) (gr_gid e) (List.filter (fun v => negb (str_eqb v u)) (gr_mem e) ++ (if f e then [u] else []))) <$> l.
Definition asked_groups (s : os) (opts : list (pystr * pystr)) : option (option (list pystr)) :=
  match dget (lit "--groups") opts with Some v => if known s (names v) then Some (Some (names v)) else None | None => Some None end.

Definition useradd_prog (opts : list (pystr * pystr)) (u : pystr) (s : os) : result xres * os :=
  match entry s u with
  | Some _ => exit 9 s
  | None =>
      let own := dget (lit "--gid") opts in
      match (match dget (lit "--uid") opts with Some v => parse_id v | None => Some (unused (pw_uid <$> o_passwd s)) end),
            (match own with Some v => find_gid s v | None => match gid_of s u with None => Some (unused (gr_gid <$> o_group s)) | Some _ => None end end),
            asked_groups s opts with
      | Some i, Some g, Some gs =>
          exit 0 (set_db
            (o_passwd s ++ [Account u i g (default [] (dget (lit "--comment") opts)) (default (lit "/home") (dget (lit "--home-dir") opts)) (default (lit "/bin/sh") (dget (lit "--shell") opts))])
            ((match gs with Some l => regroup u (fun e => str_in (gr_name e) l || str_in u (gr_mem e)) (o_group s) | None => o_group s end) ++ (match own with Some _ => [] | None => [Grent u g []] end))
            (dset u (default (lit "!") (dget (lit "--password") opts)) (o_shadow s)) s)
      | _, _, _ => exit 1 s
      end
  end.
Definition usermod_prog (opts : list (pystr * pystr)) (u : pystr) (s : os) : result xres * os :=
  match entry s u with
  | None => exit 6 s
  | Some a =>
      match (match dget (lit "--uid") opts with Some v => parse_id v | None => Some (pw_uid a) end),
            (match dget (lit "--gid") opts with Some v => find_gid s v | None => Some (pw_gid a) end),
            asked_groups s opts with
      | Some i, Some g, Some gs =>
          let b := Account u i g (default (pw_gecos a) (dget (lit "--comment") opts)) (default (pw_dir a) (dget (lit "--home") opts)) (default (pw_shell a) (dget (lit "--shell") opts)) in
          exit 0 (set_db ((fun e => if str_eqb (pw_name e) u then b else e) <$> o_passwd s)
            (match gs with Some l => regroup u (fun e => str_in (gr_name e) l) (o_group s) | None => o_group s end)
            (match dget (lit "--password") opts with Some h => dset u h (o_shadow s) | None => o_shadow s end) s)
      | _, _, _ => exit 1 s
      end
  end.
Definition userdel_prog (u : pystr) (s : os) : result xres * os :=
  match entry s u with
  | None => exit 6 s
  | Some _ => exit 0 (set_db (List.filter (fun a => negb (str_eqb (pw_name a) u)) (o_passwd s)) (regroup u (fun _ => false) (o_group s)) (List.filter (fun x => negb (str_eqb x.1 u)) (o_shadow s)) s)
  end.
Definition groupadd_prog (opts : list (pystr * pystr)) (g : pystr) (s : os) : result xres * os :=
  match gid_of s g, (match dget (lit "--gid") opts with Some v => parse_id v | None => Some (unused (gr_gid <$> o_group s)) end) with
  | None, Some n => exit 0 (set_db (o_passwd s) (o_group s ++ [Grent g n []]) (o_shadow s) s)
  | _, _ => exit 9 s
  end.
Definition groupmod_prog (opts : list (pystr * pystr)) (g : pystr) (s : os) : result xres * os :=
  match gid_of s g with
  | None => exit 6 s
  | Some m =>
      match (match dget (lit "--gid") opts with Some v => parse_id v | None => Some m end) with
      | Some n => exit 0 (set_db (o_passwd s) ((fun e => if str_eqb (gr_name e) g then Grent g n (gr_mem e) else e) <$> o_group s) (o_shadow s) s)
      | None => exit 3 s
      end
  end.
Definition groupdel_prog (g : pystr) (s : os) : result xres * os :=
  match gid_of s g with
  | None => exit 6 s
  | Some _ => exit 0 (set_db (o_passwd s) (List.filter (fun e => negb (str_eqb (gr_name e) g)) (o_group s)) (o_shadow s) s)
  end.
Definition shadow (p : proc) : M xres := fun s =>
  match p_argv p with
  | [] => (Ok (XFail (oserr ENOENT)), s)
  | cmd :: args =>
      match getopt args with
      | (opts, [u]) =>
          if str_eqb cmd (lit "useradd") then useradd_prog opts u s else if str_eqb cmd (lit "usermod") then usermod_prog opts u s
          else if str_eqb cmd (lit "userdel") then userdel_prog u s else if str_eqb cmd (lit "groupadd") then groupadd_prog opts u s
          else if str_eqb cmd (lit "groupmod") then groupmod_prog opts u s else if str_eqb cmd (lit "groupdel") then groupdel_prog u s
          else exit 127 s
      | _ => exit 2 s
      end
  end.

(** ** They do *)
Lemma shadow_codes p s rc out err s' : shadow p s = (Ok (XExit rc out err), s') -> (0 <= rc < 128)%Z /\ out = [] /\ err = [].
Proof.
  unfold shadow, useradd_prog, usermod_prog, userdel_prog, groupadd_prog, groupmod_prog, groupdel_prog, exit. intros E.
  repeat match type of E with context [match ?x with _ => _ end] => destruct x end; try discriminate; injection E as <- <- <- _; (split; [lia|auto]).
Qed.
Lemma shadow_bounded : bounded shadow.
Proof. intros p s rc out err s' E. apply shadow_codes in E as (H & -> & ->). unfold in_i32, small. cbn. lia. Qed.

Lemma split_join_names l : l <> [] -> Forall tame l -> names (join_str (lit ",") l) = l.
Proof.
  intros Hl H. induction H as [|x l Hx H IH]; [contradiction|]. unfold names in *. destruct l as [|y l].
  - cbn [join_str]. apply split_no_char. apply Hx.
  - change (join_str (lit ",") (x :: y :: l)) with (x ++ 44%N :: join_str (lit ",") (y :: l)). rewrite split_char_app, IH by discriminate. rewrite split_no_char by apply Hx. reflexivity.
Qed.
Lemma parse_id_spec v n : parse_id v = Some n -> number v n.
Proof. unfold parse_id, number. destruct (py_int 10 v) as [z|]; [|discriminate]. destruct (0 <=? z)%Z eqn:E; [|discriminate]. intros [= <-]. f_equal. lia. Qed.
Lemma find_some_in {A} (f : A -> bool) l x : List.find f l = Some x -> x ∈ l /\ f x = true.
Proof. intros H. apply find_some in H as [H1 H2]. split; [apply elem_of_list_In; exact H1|exact H2]. Qed.
Lemma gid_of_in s g n : gid_of s g = Some n -> (g, n) ∈ gids s.
Proof.
  unfold gid_of. destruct (List.find _ (gids s)) as [[g' n']|] eqn:E; [|discriminate]. intros [= <-]. apply find_some_in in E as [E1 E2]. apply bool_decide_eq_true in E2. cbn in E2. subst. exact E1.
Qed.
Lemma find_gid_spec s v n : find_gid s v = Some n -> group_id s v n.
Proof.
  unfold find_gid, group_id. intros H (_ & _ & Ht). unfold parse_id in H. rewrite Ht in H. apply gid_of_in. exact H.
Qed.
Lemma gids_entry s g n : (g, n) ∈ gids s -> exists e, e ∈ o_group s /\ gr_name e = g.
Proof. unfold gids. intros H. apply elem_of_list_fmap in H as (e & H1 & H2). injection H1 as -> ->. eauto. Qed.
Lemma known_spec s l g : known s l = true -> g ∈ l -> exists e, e ∈ o_group s /\ gr_name e = g.
Proof.
  unfold known. intros H1 H2. rewrite forallb_forall in H1. apply elem_of_list_In in H2. specialize (H1 g H2). destruct (gid_of s g) eqn:E; [|discriminate]. apply gid_of_in in E. eapply gids_entry. exact E.
Qed.
Lemma find_app {A} (f : A -> bool) l r : List.find f (l ++ r) = match List.find f l with Some x => Some x | None => List.find f r end.
Proof. induction l as [|x l IH]; cbn; [reflexivity|]. destruct (f x); auto. Qed.
Lemma find_map {A} (f : A -> bool) h l : (forall x, f (h x) = f x) -> List.find f (h <$> l) = h <$> List.find f l.
Proof. intros H. induction l as [|x l IH]; cbn; [reflexivity|]. rewrite H. destruct (f x); auto. Qed.
Lemma find_filter {A} (f p : A -> bool) l : (forall x, f x = true -> p x = true) -> List.find f (List.filter p l) = List.find f l.
Proof. intros H. induction l as [|x l IH]; cbn; [reflexivity|]. destruct (p x) eqn:Ep; cbn; destruct (f x) eqn:Ef; auto. rewrite H in Ep by exact Ef. discriminate. Qed.

(** members *)
Lemma regroup_gids s p h u f : gids (set_db p (regroup u f (o_group s)) h s) = gids s.
Proof. unfold gids, regroup. cbn. rewrite <- list_fmap_compose. reflexivity. Qed.
Lemma filter_elem (u v : pystr) l : v ∈ List.filter (fun w => negb (str_eqb w u)) l <-> v ∈ l /\ v <> u.
Proof. rewrite !elem_of_list_In, filter_In. destruct (str_eqb_spec v u); cbn; intuition congruence. Qed.
Lemma member_regroup_other s p h u f r g v : v <> u -> Forall (fun e => gr_mem e = []) r ->
  member (set_db p (regroup u f (o_group s) ++ r) h s) g v <-> member s g v.
Proof.
  intros Hv Hr. unfold member. cbn. split.
  - intros (e & H1 & H2 & H3). apply elem_of_app in H1 as [H1|H1]; [|rewrite Forall_forall in Hr; rewrite (Hr e H1) in H3; inversion H3].
    apply elem_of_list_fmap in H1 as (e0 & -> & H1). cbn in *. exists e0. split; [exact H1|]. split; [exact H2|]. apply elem_of_app in H3 as [H3|H3]; [apply filter_elem in H3; apply H3|].
    destruct (f e0); [|inversion H3]. apply elem_of_list_singleton in H3. contradiction.
  - intros (e & H1 & H2 & H3). eexists. split; [apply elem_of_app; left; apply elem_of_list_fmap; exists e; split; [reflexivity|exact H1]|]. cbn. split; [exact H2|]. apply elem_of_app. left. apply filter_elem. auto.
Qed.
Lemma member_regroup s p h u f r g : Forall (fun e => gr_mem e = []) r ->
  member (set_db p (regroup u f (o_group s) ++ r) h s) g u <-> exists e, e ∈ o_group s /\ gr_name e = g /\ f e = true.
Proof.
  intros Hr. unfold member. cbn. split.
  - intros (e & H1 & H2 & H3). apply elem_of_app in H1 as [H1|H1]; [|rewrite Forall_forall in Hr; rewrite (Hr e H1) in H3; inversion H3].
    apply elem_of_list_fmap in H1 as (e0 & -> & H1). cbn in *. exists e0. split; [exact H1|]. split; [exact H2|]. apply elem_of_app in H3 as [H3|H3]; [apply filter_elem in H3 as [_ H3]; contradiction|].
    destruct (f e0); [reflexivity|inversion H3].
  - intros (e & H1 & H2 & H3). eexists. split; [apply elem_of_app; left; apply elem_of_list_fmap; exists e; split; [reflexivity|exact H1]|]. cbn. split; [exact H2|]. apply elem_of_app. right. rewrite H3. constructor.
Qed.
Lemma member_more s p h r g v : Forall (fun e => gr_mem e = []) r -> member (set_db p (o_group s ++ r) h s) g v <-> member s g v.
Proof.
  intros Hr. unfold member. cbn. split.
  - intros (e & H1 & H2). apply elem_of_app in H1 as [H1|H1]; [eauto|]. rewrite Forall_forall in Hr. rewrite (Hr e H1) in H2. destruct H2 as [_ H2]. inversion H2.
  - intros (e & H1 & H2). exists e. split; [apply elem_of_app; auto|exact H2].
Qed.
Lemma asked_spec s opts gs : asked_groups s opts = Some gs -> match dget (lit "--groups") opts with Some v => gs = Some (names v) /\ known s (names v) = true | None => gs = None end.
Proof. unfold asked_groups. destruct (dget _ opts) as [v|]; [|congruence]. destruct (known s (names v)); [|discriminate]. intros [= <-]. auto. Qed.

Lemma shadow_promise cmd (keep : pystr -> os -> os -> Prop) (done : list (pystr * pystr) -> pystr -> os -> os -> Prop) (prog : list (pystr * pystr) -> pystr -> os -> result xres * os) :
  (forall p s args opts u, p_argv p = cmd :: args -> getopt args = (opts, [u]) -> shadow p s = prog opts u s) ->
  (forall u s, keep u s s) ->
  (forall opts u s x s', prog opts u s = (x, s') -> (s' = s /\ exists n, n <> 0%Z /\ x = Ok (XExit n [] [])) \/ (keep u s s' /\ o_uid s' = o_uid s /\ done opts u s s')) ->
  promised shadow cmd keep done.
Proof.
  intros H1 H2 H3 q s x s' args opts u E1 E2 E3. rewrite (H1 _ _ _ _ _ E1 E2) in E3. apply H3 in E3 as [[-> (n & Hn & ->)]|(K1 & K2 & K3)].
  - split; [apply H2|]. split; [reflexivity|]. intros out err [= H _ _]. contradiction.
  - auto.
Qed.
Lemma others_self u s : others u s s. Proof. split; [intros; split; reflexivity|intros; reflexivity]. Qed.
Lemma other_groups_self g s : other_groups g s s. Proof. intros g' _. split; [reflexivity|]. intros v. reflexivity. Qed.
Ltac refused := left; split; [reflexivity|]; eexists; split; [|reflexivity]; discriminate.
Lemma entry_eqb (a : account) u : bool_decide (pw_name a = u) = str_eqb (pw_name a) u. Proof. symmetry. apply str_eqb_decide. Qed.

Lemma shadow_useradd : promised shadow (lit "useradd") others user_added.
Proof.
  apply (shadow_promise _ _ _ useradd_prog); [intros p s args opts u E1 E2; unfold shadow; rewrite E1, E2; reflexivity|intros; apply others_self|].
  intros opts u s x s' E. unfold useradd_prog in E. destruct (entry s u) as [a|] eqn:Ea; [injection E as <- <-; refused|]. cbv zeta in E.
  destruct (match dget (lit "--uid") opts with Some v => parse_id v | None => _ end) as [i|] eqn:Ei; [|injection E as <- <-; refused].
  destruct (match dget (lit "--gid") opts with Some v => find_gid s v | None => _ end) as [n|] eqn:En; [|injection E as <- <-; refused].
  destruct (asked_groups s opts) as [gs|] eqn:Eg; [|injection E as <- <-; refused]. injection E as <- <-. right. apply asked_spec in Eg.
  set (own := match dget (lit "--gid") opts with Some _ => [] | None => [Grent u n []] end).
  assert (Hown : Forall (fun e => gr_mem e = []) own) by (unfold own; destruct (dget (lit "--gid") opts); [constructor|constructor; [reflexivity|constructor]]).
  match goal with |- context [set_db ?p ?g ?h s] => set (s' := set_db p g h s) end.
  assert (Hgids : gids s' = gids s ++ ((fun e => (gr_name e, gr_gid e)) <$> own)).
  { unfold gids, s'. cbn [set_db o_group]. rewrite fmap_app. f_equal. destruct gs; [|reflexivity]. exact (regroup_gids s [] [] u _). }
  split.
  { split.
    - intros v Hv. split.
      + unfold entry, s'. cbn [set_db o_passwd]. rewrite find_app. destruct (List.find _ (o_passwd s)); [reflexivity|]. cbn. rewrite bool_decide_eq_false_2 by congruence. reflexivity.
      + unfold secret, s'. cbn [set_db o_shadow]. apply dget_dset_other. congruence.
    - intros g v Hv. unfold s'. destruct gs; [apply member_regroup_other; [exact Hv|exact Hown]|apply member_more; exact Hown]. }
  split; [reflexivity|]. split; [exact Ea|]. split; [|split].
  - eexists. split.
    { unfold entry, s'. cbn [set_db o_passwd]. rewrite find_app. unfold entry in Ea. rewrite Ea. cbn. rewrite bool_decide_eq_true_2 by reflexivity. reflexivity. }
    cbn [pw_uid pw_gid pw_gecos pw_dir pw_shell]. unfold decides. split_and!.
    + destruct (dget (lit "--uid") opts); [apply parse_id_spec; exact Ei|exact I].
    + rewrite Hgids. unfold own. destruct (dget (lit "--gid") opts); cbn; [rewrite app_nil_r; split; [apply find_gid_spec; exact En|reflexivity]|]. rewrite Permutation_app_comm. reflexivity.
    + destruct (dget (lit "--comment") opts); reflexivity.
    + destruct (dget (lit "--home-dir") opts); [reflexivity|exact I].
    + destruct (dget (lit "--shell") opts); [reflexivity|exact I].
  - eexists. split; [apply dget_dset_same|]. unfold decides. destruct (dget (lit "--password") opts); reflexivity.
  - unfold decides. destruct (dget (lit "--groups") opts) as [v|].
    + destruct Eg as [-> Hk]. intros l Hl Ht Hv g. unfold listing in Hv. subst v. rewrite split_join_names in Hk by assumption. unfold s'. rewrite split_join_names by assumption.
      rewrite member_regroup by exact Hown. split.
      * intros (e & H1 & H2 & H3). rewrite orb_true_iff, !str_in_spec in H3. destruct H3 as [H3|H3]; [left; congruence|right; exists e; auto].
      * intros [H|(e & H1 & H2 & H3)].
        -- destruct (known_spec _ _ _ Hk H) as (e & H1 & H2). exists e. rewrite orb_true_iff, !str_in_spec. subst. auto.
        -- exists e. rewrite orb_true_iff, !str_in_spec. auto.
    + subst gs. intros g. apply member_more. exact Hown.
Qed.

Lemma shadow_usermod : promised shadow (lit "usermod") others user_modified.
Proof.
  apply (shadow_promise _ _ _ usermod_prog); [intros p s args opts u E1 E2; unfold shadow; rewrite E1, E2; reflexivity|intros; apply others_self|].
  intros opts u s x s' E. unfold usermod_prog in E. destruct (entry s u) as [a|] eqn:Ea; [|injection E as <- <-; refused]. cbv zeta in E.
  destruct (match dget (lit "--uid") opts with Some v => parse_id v | None => _ end) as [i|] eqn:Ei; [|injection E as <- <-; refused].
  destruct (match dget (lit "--gid") opts with Some v => find_gid s v | None => _ end) as [n|] eqn:En; [|injection E as <- <-; refused].
  destruct (asked_groups s opts) as [gs|] eqn:Eg; [|injection E as <- <-; refused]. injection E as <- <-. right. apply asked_spec in Eg.
  match goal with |- context [set_db ?p ?g ?h s] => set (s' := set_db p g h s) end.
  assert (Hgids : gids s' = gids s) by (unfold s'; destruct gs; [apply regroup_gids|reflexivity]).
  assert (Hent : forall v, entry s' v = (fun e => if str_eqb (pw_name e) u then Account u i n (default (pw_gecos a) (dget (lit "--comment") opts)) (default (pw_dir a) (dget (lit "--home") opts)) (default (pw_shell a) (dget (lit "--shell") opts)) else e) <$> entry s v).
  { intros v. unfold entry, s'. cbn [set_db o_passwd]. apply find_map. intros e. destruct (str_eqb_spec (pw_name e) u); [|reflexivity]. cbn. subst. reflexivity. }
  assert (Hother : forall g v, v <> u -> member s' g v <-> member s g v).
  { intros g v Hv. unfold s'. destruct gs; [|reflexivity]. rewrite <- (app_nil_r (regroup _ _ _)). apply member_regroup_other; [exact Hv|constructor]. }
  split.
  { split.
    - intros v Hv. split.
      + rewrite Hent. destruct (entry s v) as [e|] eqn:E; [|reflexivity]. cbn. apply entry_some in E as [_ E]. destruct (str_eqb_spec (pw_name e) u); [congruence|reflexivity].
      + unfold secret, s'. cbn [set_db o_shadow]. destruct (dget (lit "--password") opts); [apply dget_dset_other; congruence|reflexivity].
    - exact Hother. }
  split; [reflexivity|]. split; [exact Hgids|]. split; [|split].
  - exists a. eexists. split; [exact Ea|]. split.
    { rewrite Hent, Ea. cbn. apply entry_some in Ea as [_ ->]. rewrite str_eqb_refl. reflexivity. }
    cbn [pw_uid pw_gid pw_gecos pw_dir pw_shell]. unfold decides. split_and!.
    + destruct (dget (lit "--uid") opts); [apply parse_id_spec; exact Ei|congruence].
    + destruct (dget (lit "--gid") opts); [apply find_gid_spec; exact En|congruence].
    + destruct (dget (lit "--comment") opts); reflexivity.
    + destruct (dget (lit "--home") opts); reflexivity.
    + destruct (dget (lit "--shell") opts); reflexivity.
  - unfold decides, secret, s'. cbn [set_db o_shadow]. destruct (dget (lit "--password") opts); [apply dget_dset_same|reflexivity].
  - unfold decides. destruct (dget (lit "--groups") opts) as [v|].
    + destruct Eg as [-> Hk]. intros l Hl Ht Hv g. unfold listing in Hv. subst v. rewrite split_join_names in Hk by assumption. unfold s'. rewrite split_join_names by assumption.
      rewrite <- (app_nil_r (regroup _ _ _)), member_regroup by constructor. split.
      * intros (e & H1 & H2 & H3). rewrite str_in_spec in H3. congruence.
      * intros H. destruct (known_spec _ _ _ Hk H) as (e & H1 & H2). exists e. rewrite str_in_spec. subst. auto.
    + subst gs. intros g. reflexivity.
Qed.
Lemma shadow_userdel : promised shadow (lit "userdel") others (fun _ => user_deleted).
Proof.
  apply (shadow_promise _ _ _ (fun _ => userdel_prog)); [intros p s args opts u E1 E2; unfold shadow; rewrite E1, E2; reflexivity|intros; apply others_self|].
  intros _ u s x s' E. unfold userdel_prog in E. destruct (entry s u) as [a|] eqn:Ea; [|injection E as <- <-; refused]. injection E as <- <-. right.
  match goal with |- context [set_db ?p ?g ?h s] => set (s' := set_db p g h s) end. split; [|split; [reflexivity|]].
  - split; [|intros g v Hv; unfold s'; rewrite <- (app_nil_r (regroup _ _ _)); apply member_regroup_other; [exact Hv|constructor]]. intros v Hv. split.
    + unfold entry, s'. cbn [set_db o_passwd]. apply find_filter. intros e He. apply bool_decide_eq_true in He. destruct (str_eqb_spec (pw_name e) u); [congruence|reflexivity].
    + unfold secret, s'. cbn [set_db o_shadow]. induction (o_shadow s) as [|[k h] l IH]; [reflexivity|]. cbn [List.filter fst]. destruct (str_eqb_spec k u) as [-> |Hk]; cbn [negb].
      * rewrite IH. cbn [dget]. destruct (str_eqb_spec u v); [congruence|]. destruct (str_eqb_spec v u); [congruence|]. reflexivity.
      * cbn [dget]. rewrite IH. reflexivity.
  - split; [|split].
    + unfold entry, s'. cbn [set_db o_passwd]. destruct (List.find _ _) as [e|] eqn:E; [|reflexivity]. apply find_some in E as [E1 E2]. apply filter_In in E1 as [_ E1]. apply bool_decide_eq_true in E2. subst. rewrite str_eqb_refl in E1. discriminate.
    + unfold secret, s'. cbn [set_db o_shadow]. apply dget_None. intros H. apply elem_of_list_fmap in H as ([k h] & H1 & H2). cbn in H1. subst k. apply elem_of_list_In, filter_In in H2 as [_ H2]. cbn in H2. rewrite str_eqb_refl in H2. discriminate.
    + intros g. unfold s'. rewrite <- (app_nil_r (regroup _ _ _)), member_regroup by constructor. intros (e & _ & _ & [=]).
Qed.

Lemma gid_more s p h r g : gid_of (set_db p (o_group s ++ r) h s) g = match gid_of s g with Some n => Some n | None => gr_gid <$> List.find (fun e => bool_decide (gr_name e = g)) r end.
Proof.
  rewrite !gid_of_entry. unfold group_entry_of. cbn [set_db o_group]. rewrite find_app. destruct (List.find _ (o_group s)); reflexivity.
Qed.
Lemma shadow_groupadd : promised shadow (lit "groupadd") other_groups group_added.
Proof.
  apply (shadow_promise _ _ _ groupadd_prog); [intros p s args opts u E1 E2; unfold shadow; rewrite E1, E2; reflexivity|intros; apply other_groups_self|].
  intros opts g s x s' E. unfold groupadd_prog in E. destruct (gid_of s g) as [m|] eqn:Eg; [injection E as <- <-; refused|].
  destruct (match dget (lit "--gid") opts with Some v => parse_id v | None => _ end) as [n|] eqn:En; [|injection E as <- <-; refused]. injection E as <- <-. right.
  split; [|split; [reflexivity|]].
  - intros g' Hg. split; [|intros v; apply member_more; constructor; [reflexivity|constructor]]. rewrite gid_more. destruct (gid_of s g'); [reflexivity|]. cbn. rewrite bool_decide_eq_false_2 by congruence. reflexivity.
  - split; [exact Eg|]. exists n. split; [rewrite gid_more, Eg; cbn; rewrite bool_decide_eq_true_2 by reflexivity; reflexivity|]. unfold decides. destruct (dget (lit "--gid") opts); [apply parse_id_spec; exact En|exact I].
Qed.
Lemma shadow_groupmod : promised shadow (lit "groupmod") other_groups group_modified.
Proof.
  apply (shadow_promise _ _ _ groupmod_prog); [intros p s args opts u E1 E2; unfold shadow; rewrite E1, E2; reflexivity|intros; apply other_groups_self|].
  intros opts g s x s' E. unfold groupmod_prog in E. destruct (gid_of s g) as [m|] eqn:Eg; [|injection E as <- <-; refused].
  destruct (match dget (lit "--gid") opts with Some v => parse_id v | None => _ end) as [n|] eqn:En; [|injection E as <- <-; refused]. injection E as <- <-. right.
  set (f := fun e => if str_eqb (gr_name e) g then Grent g n (gr_mem e) else e). set (s' := set_db _ _ _ _).
  assert (Hf : forall e, gr_name (f e) = gr_name e /\ gr_mem (f e) = gr_mem e) by (intros e; unfold f; destruct (str_eqb_spec (gr_name e) g); cbn; subst; auto).
  assert (Hm : forall g' v, member s' g' v <-> member s g' v).
  { intros g' v. unfold member, s'. cbn [set_db o_group]. split.
    - intros (e & H1 & H2 & H3). apply elem_of_list_fmap in H1 as (e0 & -> & H1). destruct (Hf e0) as [F1 F2]. exists e0. rewrite <- F1, <- F2. auto.
    - intros (e & H1 & H2 & H3). destruct (Hf e) as [F1 F2]. exists (f e). split; [apply elem_of_list_fmap; eauto|]. rewrite F1, F2. auto. }
  assert (Hg : forall g', gid_of s' g' = gr_gid <$> (f <$> group_entry_of s g')).
  { intros g'. rewrite gid_of_entry. unfold group_entry_of, s'. cbn [set_db o_group]. rewrite find_map; [reflexivity|]. intros e. rewrite (proj1 (Hf e)). reflexivity. }
  rewrite gid_of_entry in Eg. destruct (group_entry_of s g) as [e|] eqn:Ee; [|discriminate]. injection Eg as <-.
  assert (Hname : gr_name e = g) by (apply find_some_in in Ee as [_ Ee]; apply bool_decide_eq_true in Ee; exact Ee).
  split; [|split; [reflexivity|]].
  - intros g' Hn. split; [|intros v; apply Hm]. rewrite Hg, gid_of_entry. destruct (group_entry_of s g') as [e'|] eqn:E'; [|reflexivity]. cbn. apply find_some_in in E' as [_ E']. apply bool_decide_eq_true in E'.
    unfold f. destruct (str_eqb_spec (gr_name e') g); [congruence|reflexivity].
  - split; [intros v; apply Hm|]. exists (gr_gid e), n. split; [rewrite gid_of_entry, Ee; reflexivity|]. split.
    + rewrite Hg, Ee. cbn. unfold f. rewrite Hname, str_eqb_refl. reflexivity.
    + unfold decides. destruct (dget (lit "--gid") opts); [apply parse_id_spec; exact En|congruence].
Qed.
Lemma shadow_groupdel : promised shadow (lit "groupdel") other_groups (fun _ => group_deleted).
Proof.
  apply (shadow_promise _ _ _ (fun _ => groupdel_prog)); [intros p s args opts u E1 E2; unfold shadow; rewrite E1, E2; reflexivity|intros; apply other_groups_self|].
  intros _ g s x s' E. unfold groupdel_prog in E. destruct (gid_of s g) as [m|] eqn:Eg; [|injection E as <- <-; refused]. injection E as <- <-. right.
  split; [|split; [reflexivity|]].
  - intros g' Hn. split.
    + rewrite !gid_of_entry. unfold group_entry_of. cbn [set_db o_group]. rewrite find_filter; [reflexivity|]. intros e He. apply bool_decide_eq_true in He. destruct (str_eqb_spec (gr_name e) g); [congruence|reflexivity].
    + intros v. unfold member. cbn [set_db o_group]. split; intros (e & H1 & H2); exists e; (split; [|exact H2]); rewrite elem_of_list_In, ?filter_In in *.
      * apply H1.
      * split; [exact H1|]. destruct H2 as [H2 _]. destruct (str_eqb_spec (gr_name e) g); [congruence|reflexivity].
  - unfold group_deleted. rewrite gid_of_entry. unfold group_entry_of. cbn [set_db o_group]. destruct (List.find _ _) as [e|] eqn:E; [|reflexivity]. apply find_some in E as [E1 E2]. apply filter_In in E1 as [_ E1]. apply bool_decide_eq_true in E2. subst. rewrite str_eqb_refl in E1. discriminate.
Qed.
Lemma shadow_ok : shadow_utils shadow.
Proof. constructor; [exact shadow_useradd|exact shadow_usermod|exact shadow_userdel|exact shadow_groupadd|exact shadow_groupmod|exact shadow_groupdel]. Qed.
