(** Lemmas about the model of the system. *)
From Coq Require Import Lia ZifyBool ZifyN ZifyNat.
From stdpp Require Import gmap.
From Verif Require Import Base Paths Sys Spec_Sys.

Lemma str_eqb_spec a b : reflect (a = b) (str_eqb a b).
Proof. unfold str_eqb. destruct (bool_decide_reflect (a = b)); constructor; assumption. Qed.
Lemma has_char_spec c s : reflect (c ∈ s) (has_char c s).
Proof.
  unfold has_char. destruct (existsb (N.eqb c) s) eqn:E; constructor.
  - apply existsb_exists in E as (x & Hx & ->%N.eqb_eq). apply elem_of_list_In. assumption.
  - intros H%elem_of_list_In. assert (existsb (N.eqb c) s = true); [|congruence].
    apply existsb_exists. exists c. rewrite N.eqb_refl. auto.
Qed.

(** ** The monad *)
Lemma bind_inv {A B} (m : M A) (f : A -> M B) s r s' : (m ≫= f) s = (r, s') ->
  (exists a s1, m s = (Ok a, s1) /\ f a s1 = (r, s')) \/ (exists e, m s = (Err e, s') /\ r = Err e).
Proof.
  cbv [mbind M_bind bindM]. destruct (m s) as [[a|e] s1]; [eauto|]. intros [= <- <-]. eauto.
Qed.
Lemma bind_ok {A B} (m : M A) (f : A -> M B) s a s1 : m s = (Ok a, s1) -> (m ≫= f) s = f a s1.
Proof. cbv [mbind M_bind bindM]. intros ->. reflexivity. Qed.
Lemma bind_err {A B} (m : M A) (f : A -> M B) s e s1 : m s = (Err e, s1) -> (m ≫= f) s = (Err e, s1).
Proof. cbv [mbind M_bind bindM]. intros ->. reflexivity. Qed.

Lemma set_faults_id s : set_faults (o_faults s) s = s.
Proof. destruct s; reflexivity. Qed.
Lemma unaffected_refl s : unaffected s s.
Proof. unfold unaffected. rewrite set_faults_id. reflexivity. Qed.
Lemma unaffected_set s fl : unaffected s (set_faults fl s).
Proof. reflexivity. Qed.
Lemma unaffected_trans s1 s2 s3 : unaffected s1 s2 -> unaffected s2 s3 -> unaffected s1 s3.
Proof. unfold unaffected. intros -> ->. reflexivity. Qed.
Lemma only_files_refl s : only_files s s.
Proof. unfold only_files. destruct s; reflexivity. Qed.
Lemma only_files_trans s1 s2 s3 : only_files s1 s2 -> only_files s2 s3 -> only_files s1 s3.
Proof. unfold only_files. intros -> ->. reflexivity. Qed.
Lemma unaffected_only s s' : unaffected s s' -> only_files s s'.
Proof. unfold unaffected, only_files. intros ->. destruct s; reflexivity. Qed.

Lemma syscall_inv {A} (m : M A) s r s' : syscall m s = (r, s') ->
  exists s0, unaffected s s0 /\
    ((exists n, r = Err (oserr n) /\ s' = s0) \/ m s0 = (r, s')).
Proof.
  unfold syscall, next_fault. destruct (o_faults s) as [|[|n k] fl].
  - intros H. exists s. split; [apply unaffected_refl|auto].
  - intros H. exists (set_faults fl s). split; [reflexivity|auto].
  - intros [= <- <-]. exists (set_faults fl s). split; [reflexivity|]. left. eauto.
Qed.
Lemma syscall_ok {A} (m : M A) s : o_faults s = [] -> syscall m s = m s.
Proof. unfold syscall, next_fault. intros ->. reflexivity. Qed.

(** ** Walking *)
Lemma kind_lookup fs pl k : kind_at fs pl = Some k <-> exists n, fs !! pl = Some n /\ n_kind n = k.
Proof.
  unfold kind_at. destruct (fs !! pl) as [n|]; cbn; split.
  - intros [= <-]. eauto.
  - intros (? & [= <-] & <-). reflexivity.
  - discriminate.
  - intros (? & [=] & _).
Qed.

Definition step_err (fs : fsys) (e : exn) : Prop := e = oserr ENOENT \/ e = oserr ENOTDIR \/ e = oserr ELOOP.

Lemma walk_unfold fs follow budget cur l : walk fs follow budget cur l =
    match l with
    | [] => Ok cur
    | c :: r =>
        if str_eqb c (lit ".") then walk fs follow budget cur r
        else if str_eqb c (lit "..") then walk fs follow budget (parent cur) r
        else
          match fs !! (c :: cur) with
          | None => match r with [] => Ok (c :: cur) | _ => Err (oserr ENOENT) end
          | Some n =>
              match n_kind n with
              | KDir => walk fs follow budget (c :: cur) r
              | KLink t =>
                  if match r with [] => negb follow | _ => false end then Ok (c :: cur)
                  else match budget with
                       | O => Err (oserr ELOOP)
                       | S b => match t with
                                | [] => Err (oserr ENOENT)
                                | _ => walk fs follow b (if isabs t then [] else cur) (comps t ++ r)
                                end
                       end
              | _ => match r with [] => Ok (c :: cur) | _ => Err (oserr ENOTDIR) end
              end
          end
    end.
Proof. destruct budget, l; reflexivity. Qed.

(** Arriving at an existing file *)
Lemma walk_leads fs follow budget : forall l cur pl n,
  walk fs follow budget cur l = Ok pl -> fs !! pl = Some n -> leads fs follow cur l pl.
Proof.
  induction budget as [|b IHb]; induction l as [|c r IH]; intros cur pl n H Hn; rewrite walk_unfold in H;
    try (injection H as <-; constructor);
    destruct (str_eqb_spec c (lit ".")) as [->|Hd]; try (constructor; eapply IH; eassumption);
    destruct (str_eqb_spec c (lit "..")) as [->|Hdd]; try (constructor; eapply IH; eassumption);
    destruct (fs !! (c :: cur)) as [m|] eqn:E;
    try (destruct r; [injection H as <-; congruence|discriminate]);
    destruct (n_kind m) as [x| |t|x] eqn:K.
  1,5: destruct r; [injection H as <-; eapply leads_file; [split; assumption|apply kind_lookup; eauto]|discriminate].
  1,4: eapply leads_dir; [split; assumption|apply kind_lookup; eauto|eapply IH; eassumption].
  2,4: destruct r; [injection H as <-; eapply leads_other; [split; assumption|apply kind_lookup; eauto]|discriminate].
  - destruct r as [|c' r]; [|discriminate]. destruct follow; [discriminate|]. injection H as <-.
    eapply leads_this; [split; assumption|apply kind_lookup; eauto|reflexivity].
  - destruct r as [|c' r].
    + destruct follow; cbn [negb] in H.
      * destruct t as [|t0 t]; [discriminate|].
        eapply leads_link; [split; assumption|apply kind_lookup; eauto|congruence|reflexivity|eapply IHb; eassumption].
      * injection H as <-. eapply leads_this; [split; assumption|apply kind_lookup; eauto|reflexivity].
    + destruct t as [|t0 t]; [discriminate|].
      eapply leads_link; [split; assumption|apply kind_lookup; eauto|congruence|congruence|eapply IHb; eassumption].
Qed.

Lemma leads_walk fs follow cur l pl : leads fs follow cur l pl -> forall budget,
  walk fs follow budget cur l = Ok pl \/ walk fs follow budget cur l = Err (oserr ELOOP).
Proof.
  induction 1 as [cur|cur r pl _ IH|cur r pl _ IH|cur c r pl [H1 H2] K _ IH|cur c b [H1 H2] K|cur c t [H1 H2] K|cur c t [H1 H2] K F|cur c r t pl [H1 H2] K Ht Hr _ IH];
    intros budget; rewrite walk_unfold; [left; reflexivity|apply IH| |..];
    try (destruct (str_eqb_spec c (lit ".")); [contradiction|]; destruct (str_eqb_spec c (lit "..")); [contradiction|];
         let n := fresh "n" in let E := fresh "E" in apply kind_lookup in K as (n & E & K); rewrite E, K).
  - change (str_eqb (lit "..") (lit ".")) with false. apply IH.
  - apply IH.
  - left. reflexivity.
  - left. reflexivity.
  - left. subst. reflexivity.
  - destruct (match r with [] => negb follow | _ => false end) eqn:Ef.
    { destruct r; [|discriminate]. rewrite Hr in Ef by reflexivity. discriminate. }
    destruct budget as [|b]; [right; reflexivity|].
    destruct t as [|t0 t]; [congruence|]. apply IH.
Qed.

(** [leads] is a function *)
Lemma leads_budget fs follow cur l pl : leads fs follow cur l pl -> exists budget, walk fs follow budget cur l = Ok pl.
Proof.
  induction 1 as [cur|cur r pl _ [b IH]|cur r pl _ [b IH]|cur c r pl [H1 H2] K _ [b IH]|cur c b [H1 H2] K|cur c t [H1 H2] K|cur c t [H1 H2] K F|cur c r t pl [H1 H2] K Ht Hr _ [b IH]];
    [exists O; reflexivity|exists b; rewrite walk_unfold; exact IH|exists b; rewrite walk_unfold; exact IH|exists b|exists O|exists O|exists O|exists (S b)];
    rewrite walk_unfold;
    (destruct (str_eqb_spec c (lit ".")); [contradiction|]; destruct (str_eqb_spec c (lit "..")); [contradiction|];
     let n := fresh "n" in let E := fresh "E" in apply kind_lookup in K as (n & E & K); rewrite E, K); try reflexivity; try exact IH.
  - subst. reflexivity.
  - destruct (match r with [] => negb follow | _ => false end) eqn:Ef.
    { destruct r; [|discriminate]. rewrite Hr in Ef by reflexivity. discriminate. }
    destruct t as [|t0 t]; [congruence|]. exact IH.
Qed.
Lemma leads_det fs follow cur l pl1 pl2 : leads fs follow cur l pl1 -> leads fs follow cur l pl2 -> pl1 = pl2.
Proof.
  intros H1 H2. destruct (leads_budget _ _ _ _ _ H1) as [b Hb]. destruct (leads_walk _ _ _ _ _ H2 b) as [E|E]; congruence.
Qed.

Lemma walk_err fs follow budget : forall l cur e, walk fs follow budget cur l = Err e -> e = oserr ENOENT \/ e = oserr ENOTDIR \/ e = oserr ELOOP.
Proof.
  induction budget as [|b IHb]; induction l as [|c r IH]; intros cur e H; rewrite walk_unfold in H; try discriminate H;
    destruct (str_eqb c (lit ".")); try (eapply IH; eassumption);
    destruct (str_eqb c (lit "..")); try (eapply IH; eassumption);
    destruct (fs !! (c :: cur)) as [m|];
    try (destruct r; [discriminate|injection H as <-; auto]);
    destruct (n_kind m) as [x| |t|x];
    try (destruct r; [discriminate|injection H as <-; auto]);
    try (eapply IH; eassumption).
  - destruct (match r with [] => negb follow | _ => false end); [discriminate|]. injection H as <-. auto.
  - destruct (match r with [] => negb follow | _ => false end); [discriminate|].
    destruct t; [injection H as <-; auto|]. eapply IHb; eassumption.
Qed.

(** Changing a place which is not passed through *)
Definition inert (o : option node) : Prop :=
  match o with None => True | Some n => match n_kind n with KFile _ | KOther _ => True | _ => False end end.
Lemma walk_update fs follow budget pl n : inert (fs !! pl) -> inert (Some n) -> forall l cur,
  walk fs follow budget cur l = Ok pl -> walk (<[pl := n]> fs) follow budget cur l = Ok pl.
Proof.
  intros H1 H2. induction budget as [|b IHb]; induction l as [|c r IH]; intros cur H; rewrite walk_unfold in H |- *; try exact H;
    destruct (str_eqb c (lit ".")); try (eapply IH; eassumption);
    destruct (str_eqb c (lit "..")); try (eapply IH; eassumption);
    (destruct (decide (c :: cur = pl)) as [<-|Hne];
     [ rewrite lookup_insert; cbn [inert] in H2; assert (r = []) as ->;
       [destruct (fs !! (c :: cur)) as [m|]; [cbn [inert] in H1; destruct (n_kind m); try contradiction|]; destruct r; congruence
       |destruct (n_kind n); try contradiction; reflexivity]
     | rewrite lookup_insert_ne by congruence ]);
    destruct (fs !! (c :: cur)) as [m|]; try exact H;
    destruct (n_kind m) as [x| |t|x]; try exact H; try (apply IH; assumption).
  destruct (match r with [] => negb follow | _ => false end); [exact H|].
  destruct t; [exact H|]. apply IHb. assumption.
Qed.

Lemma resolve_update fs cwd p follow pl n : inert (fs !! pl) -> inert (Some n) ->
  resolve fs cwd p follow = Ok pl -> resolve (<[pl := n]> fs) cwd p follow = Ok pl.
Proof.
  intros H1 H2. unfold resolve. destruct (has_char nul p); [discriminate|]. destruct p; [discriminate|].
  apply walk_update; assumption.
Qed.

(** ** Resolution and [names] *)
Lemma resolve_names fs cwd p follow pl n : resolve fs cwd p follow = Ok pl -> fs !! pl = Some n -> names fs cwd p follow pl n.
Proof.
  unfold resolve, names. destruct (has_char_spec nul p) as [|Hn]; [discriminate|]. destruct p as [|c p]; [discriminate|].
  intros H1 H2. split_and!; [assumption|congruence|eapply walk_leads; eassumption|assumption].
Qed.
Lemma resolve_node_names fs cwd p follow pl n : resolve_node fs cwd p follow = Ok (pl, n) -> names fs cwd p follow pl n.
Proof.
  unfold resolve_node. cbn. destruct (resolve fs cwd p follow) as [pl'|e] eqn:E; cbn; [|discriminate].
  destruct (fs !! pl') as [n'|] eqn:E'; [|discriminate]. intros [= <- <-]. apply resolve_names; assumption.
Qed.
Lemma names_resolve fs cwd p follow pl n : names fs cwd p follow pl n ->
  resolve_node fs cwd p follow = Ok (pl, n) \/ resolve_node fs cwd p follow = Err (oserr ELOOP).
Proof.
  intros (H1 & H2 & H3 & H4). unfold resolve_node, resolve.
  destruct (has_char_spec nul p); [contradiction|]. destruct p as [|c p]; [congruence|].
  destruct (leads_walk _ _ _ _ _ H3 max_links) as [->| ->]; cbn; [rewrite H4; auto|auto].
Qed.
Lemma names_det fs cwd p follow pl n pl' n' : names fs cwd p follow pl n -> names fs cwd p follow pl' n' -> pl = pl' /\ n = n'.
Proof.
  intros (_ & _ & H1 & H2) (_ & _ & H3 & H4). pose proof (leads_det _ _ _ _ _ _ H1 H3). subst. split; congruence.
Qed.
Lemma resolve_err fs cwd p follow e : resolve fs cwd p follow = Err e ->
  (nul ∈ p /\ exists m, e = ValueError m) \/ (nul ∉ p /\ (e = oserr ENOENT \/ e = oserr ENOTDIR \/ e = oserr ELOOP)).
Proof.
  unfold resolve. destruct (has_char_spec nul p); [intros [= <-]; eauto|].
  destruct p; [intros [= <-]; auto|]. intros H%walk_err. auto.
Qed.
Lemma resolve_node_err fs cwd p follow e : resolve_node fs cwd p follow = Err e ->
  (nul ∈ p /\ exists m, e = ValueError m) \/ (nul ∉ p /\ (e = oserr ENOENT \/ e = oserr ENOTDIR \/ e = oserr ELOOP)).
Proof.
  unfold resolve_node. cbn. destruct (resolve fs cwd p follow) as [pl'|e'] eqn:E; cbn.
  - destruct (fs !! pl') eqn:E'; [discriminate|]. intros [= <-]. right. split; [|auto].
    unfold resolve in E. destruct (has_char_spec nul p); [discriminate|assumption].
  - intros [= <-]. eapply resolve_err; eassumption.
Qed.

(** ** Accounts *)
Lemma find_spec {A} (f : A -> bool) l a : List.find f l = Some a -> a ∈ l /\ f a = true.
Proof. intros H. apply List.find_some in H as [H1 H2]. split; [apply elem_of_list_In|]; assumption. Qed.
Lemma find_none_spec {A} (f : A -> bool) l : List.find f l = None -> forall a, a ∈ l -> f a = false.
Proof. intros H a Ha. eapply List.find_none; [eassumption|apply elem_of_list_In; assumption]. Qed.

Lemma getpwnam_ok s u a : getpwnam s u = Ok a -> a ∈ o_passwd s /\ pw_name a = u.
Proof.
  unfold getpwnam. destruct (has_char nul u); [discriminate|].
  destruct (List.find _ _) as [x|] eqn:E; [|discriminate]. intros [= <-].
  apply find_spec in E as [? E]. destruct (str_eqb_spec (pw_name x) u); [auto|discriminate].
Qed.
Lemma getpwnam_err s u e : getpwnam s u = Err e ->
  (nul ∈ u /\ exists m, e = ValueError m) \/ (nul ∉ u /\ e = KeyError /\ forall a, a ∈ o_passwd s -> pw_name a <> u).
Proof.
  unfold getpwnam. destruct (has_char_spec nul u); [intros [= <-]; eauto|].
  destruct (List.find _ _) as [x|] eqn:E; [discriminate|]. intros [= <-]. right. split_and!; [assumption|reflexivity|].
  intros a Ha Hu. pose proof (find_none_spec _ _ E a Ha) as F. cbn in F. destruct (str_eqb_spec (pw_name a) u); [discriminate|contradiction].
Qed.
Lemma getpwuid_ok s u a : getpwuid s u = Ok a -> a ∈ o_passwd s /\ u = Z.of_N (pw_uid a).
Proof.
  unfold getpwuid. destruct (List.find _ _) as [x|] eqn:E; [|discriminate]. intros [= <-].
  apply find_spec in E as [? E]. split; [assumption|lia].
Qed.
Lemma getpwuid_err s u e : getpwuid s u = Err e -> e = KeyError /\ forall a, a ∈ o_passwd s -> Z.of_N (pw_uid a) <> u.
Proof.
  unfold getpwuid. destruct (List.find _ _) as [x|] eqn:E; [discriminate|]. intros [= <-]. split; [reflexivity|].
  intros a Ha Hu. pose proof (find_none_spec _ _ E a Ha) as F. cbn in F. lia.
Qed.
Lemma getgrnam_ok s u a : getgrnam s u = Ok a -> a ∈ o_group s /\ gr_name a = u.
Proof.
  unfold getgrnam. destruct (has_char nul u); [discriminate|].
  destruct (List.find _ _) as [x|] eqn:E; [|discriminate]. intros [= <-].
  apply find_spec in E as [? E]. destruct (str_eqb_spec (gr_name x) u); [auto|discriminate].
Qed.
Lemma getgrnam_err s u e : getgrnam s u = Err e ->
  (nul ∈ u /\ exists m, e = ValueError m) \/ (nul ∉ u /\ e = KeyError /\ forall a, a ∈ o_group s -> gr_name a <> u).
Proof.
  unfold getgrnam. destruct (has_char_spec nul u); [intros [= <-]; eauto|].
  destruct (List.find _ _) as [x|] eqn:E; [discriminate|]. intros [= <-]. right. split_and!; [assumption|reflexivity|].
  intros a Ha Hu. pose proof (find_none_spec _ _ E a Ha) as F. cbn in F. destruct (str_eqb_spec (gr_name a) u); [discriminate|contradiction].
Qed.
Lemma getgrgid_ok s u a : getgrgid s u = Ok a -> a ∈ o_group s /\ u = Z.of_N (gr_gid a).
Proof.
  unfold getgrgid. destruct (List.find _ _) as [x|] eqn:E; [|discriminate]. intros [= <-].
  apply find_spec in E as [? E]. split; [assumption|lia].
Qed.
Lemma getgrgid_err s u e : getgrgid s u = Err e -> e = KeyError /\ forall a, a ∈ o_group s -> Z.of_N (gr_gid a) <> u.
Proof.
  unfold getgrgid. destruct (List.find _ _) as [x|] eqn:E; [discriminate|]. intros [= <-]. split; [reflexivity|].
  intros a Ha Hu. pose proof (find_none_spec _ _ E a Ha) as F. cbn in F. lia.
Qed.
