(** C91: what the command line says is what is run. *)
From Verif Require Import Base Dict_proofs Options Spec_Options Options_proofs.
Local Open Scope nat_scope.

Lemma table_in s o : dget s table = Some o -> In (s, o) table.
Proof.
  generalize table as d. induction d as [|[k x] d IH]; [done|]. unfold dget; fold (@dget opt).
  destruct (str_eqb s k) eqn:E; [|intros H; right; by apply IH]. apply str_eqb_true in E as ->. intros [= ->]. by left.
Qed.
Lemma partition_false s p r : partition_eq s = (p, false, r) -> s = p.
Proof. revert p r; induction s as [|c s IH]; intros p r; cbn; [by intros [= <-]|]. destruct (N.eqb c 61); [done|]. destruct (partition_eq s) as [[a b] d]. intros [= <- -> <-]. by rewrite (IH a d). Qed.
Lemma partition_true s p r : partition_eq s = (p, true, r) -> s = p ++ 61%N :: r.
Proof.
  revert p r; induction s as [|c s IH]; intros p r; cbn; [done|]. destruct (N.eqb c 61) eqn:E; [apply N.eqb_eq in E as ->; by intros [= <- <-]|].
  destruct (partition_eq s) as [[a b] d]. intros [= <- -> <-]. cbn. by rewrite (IH a d).
Qed.
Lemma partition_no_eq s p b r : partition_eq s = (p, b, r) -> ~ In 61%N p.
Proof.
  revert p b r; induction s as [|c s IH]; intros p b r; cbn; [intros [= <- _ _] []|]. destruct (N.eqb c 61) eqn:E; [intros [= <- _ _] []|].
  destruct (partition_eq s) as [[a b'] d]. intros [= <- _ _] [->|H]; [by rewrite N.eqb_refl in E|]. by eapply IH.
Qed.
Lemma partition_app p v : ~ In 61%N p -> partition_eq (p ++ 61%N :: v) = (p, true, v).
Proof.
  induction p as [|c p IH]; intros H; [done|]. cbn. destruct (N.eqb c 61) eqn:E; [apply N.eqb_eq in E as ->; exfalso; apply H; by left|].
  rewrite IH; [done|]. intros H'. apply H. by right.
Qed.

Lemma marks_option digit argv l s t : marks digit argv = inr l -> In (s, Option t) l -> In s (before_dashes argv) /\ parse_optional digit s = inr (Some t).
Proof.
  revert l; induction argv as [|a r IH]; intros l; cbn; [intros [= <-] []|]. destruct (str_eqb a (lit "--")).
  - intros [= <-] [H|H]; [done|]. apply in_map_iff in H as (? & ? & _). done.
  - destruct (parse_optional digit a) as [|t0] eqn:Ep; [done|]. destruct (marks digit r) as [|l0]; [done|]. intros [= <-] [H|H].
    + destruct t0; [|done]. injection H as -> ->. split; [by left|done].
    + destruct (IH _ eq_refl H). split; [by right|done].
Qed.
Lemma marks_back digit argv l s t : marks digit argv = inr l -> In s (before_dashes argv) -> parse_optional digit s = inr (Some t) -> In (s, Option t) l.
Proof.
  revert l; induction argv as [|a r IH]; intros l; cbn; [done|]. destruct (str_eqb a (lit "--")); [done|].
  destruct (parse_optional digit a) as [|t0] eqn:Ep; [done|]. destruct (marks digit r) as [|l0]; [done|]. intros [= <-] [->|H] Hp.
  - left. rewrite Ep in Hp. by injection Hp as ->.
  - right. by apply IH.
Qed.
Lemma meaning_in l acts ws s t : meaning l acts ws -> In (s, Option t) l ->
  exists g, read_group s t = inr g /\ g_extra g = None /\ (forall a, In a (g_actions g) -> In a acts) /\ (forall o, g_open g = Some o -> exists v, In (o, Some v) acts).
Proof.
  intros M. induction M as [|s0 t0 g l acts ws Eg Eo Ex M IH|s0 t0 g o v l acts ws Eg Eo Ex M IH|l a l1 acts ws E1 M IH]; intros H.
  - done.
  - destruct H as [H|H].
    + injection H as -> ->. exists g. repeat split; [done..| |congruence]. intros a Ha. apply in_or_app. by left.
    + destruct (IH H) as (g1 & ? & ? & H1 & H2). exists g1. repeat split; [done..| |].
      * intros a Ha. apply in_or_app. right. by apply H1.
      * intros o Ho. destruct (H2 o Ho) as [v Hv]. exists v. apply in_or_app. by right.
  - destruct H as [H|[H|H]]; [| done |].
    + injection H as -> ->. exists g. repeat split; [done..| |].
      * intros a Ha. apply in_or_app. left. apply in_or_app. by left.
      * intros o' Ho. exists v. apply in_or_app. left. apply in_or_app. right. left. congruence.
    + destruct (IH H) as (g1 & ? & ? & H1 & H2). exists g1. repeat split; [done..| |].
      * intros a Ha. apply in_or_app. right. by apply H1.
      * intros o' Ho. destruct (H2 o' Ho) as [v' Hv]. exists v'. apply in_or_app. by right.
  - destruct (one_word_split _ _ _ E1) as (_ & _ & _ & p & -> & Hp). apply in_app_or in H as [H|H]; [by apply Hp in H|by apply IH].
Qed.
Lemma meaning_from l acts ws o x : meaning l acts ws -> In (o, x) acts ->
  exists s t g, In (s, Option t) l /\ read_group s t = inr g /\ (In (o, x) (g_actions g) \/ g_open g = Some o /\ exists v, x = Some v /\ In v (List.map fst l)).
Proof.
  intros M. induction M as [|s0 t0 g l acts ws Eg Eo Ex M IH|s0 t0 g o0 v l acts ws Eg Eo Ex M IH|l a l1 acts ws E1 M IH]; intros H.
  - done.
  - apply in_app_or in H as [H|H].
    + exists s0, t0, g. split; [by left|]. split; [done|]. by left.
    + destruct (IH H) as (s & t & g1 & H1 & H2 & H3). exists s, t, g1. split; [by right|]. split; [done|]. destruct H3 as [|(? & v & ? & ?)]; [by left|].
      right. split; [done|]. exists v. split; [done|]. by right.
  - apply in_app_or in H as [H|H].
    + exists s0, t0, g. split; [by left|]. split; [done|]. apply in_app_or in H as [H|[[= <- <-]|[]]]; [by left|]. right. split; [done|]. exists v. split; [done|]. cbn. auto.
    + destruct (IH H) as (s & t & g1 & H1 & H2 & H3). exists s, t, g1. split; [by right; right|]. split; [done|]. destruct H3 as [|(? & v' & ? & ?)]; [by left|].
      right. split; [done|]. exists v'. split; [done|]. cbn. auto.
  - destruct (one_word_split _ _ _ E1) as (_ & _ & _ & p & -> & Hp). destruct (IH H) as (s & t & g1 & H1 & H2 & H3).
    exists s, t, g1. split; [apply in_or_app; by right|]. split; [done|]. destruct H3 as [|(? & v' & ? & ?)]; [by left|].
    right. split; [done|]. exists v'. split; [done|]. rewrite List.map_app. apply in_or_app. by right.
Qed.

(** * What the actions do *)
Lemma actions_dry acts n n' : take_actions acts n = inr n' -> (n_dry n' = true <-> n_dry n = true \/ exists x, In (ODry, x) acts).
Proof.
  revert n; induction acts as [|a acts IH]; intros n; cbn; [intros [= ->]; split; [by left|by intros [|[? []]]]|].
  destruct (take_action a n) as [|n1] eqn:E; [done|]. intros H. rewrite (IH _ H).
  assert (Ha : n_dry n1 = true <-> n_dry n = true \/ exists x, a = (ODry, x)).
  { destruct a as [o x], n; destruct o; unfold take_action in E; try done; injection E as <-; cbn; split; try (by left); try (by intros [|[? ?]]); try done; right; by eexists. }
  rewrite Ha. split.
  - intros [[H1|[x ->]]|[x Hx]]; [by left|right; exists x; by left|right; exists x; by right].
  - intros [H1|[x [->|Hx]]]; [by left; left|left; right; by exists x|right; by exists x].
Qed.
Lemma actions_end acts n n' o x : take_actions acts n = inr n' -> In (o, x) acts -> ~ (o = OHelp \/ o = OVersion \/ o = OInit \/ o = OInspect).
Proof.
  revert n; induction acts as [|a acts IH]; intros n; cbn; [done|]. destruct (take_action a n) as [|n1] eqn:E; [done|]. intros H [->|Hx]; [|by eapply IH].
  destruct n. intros [->|[->|[->| ->]]]; discriminate E.
Qed.
Lemma actions_hosts acts n n' v : take_actions acts n = inr n' -> n_hosts n' = Some v -> n_hosts n = Some v \/ In (OHosts, Some v) acts.
Proof.
  revert n; induction acts as [|a acts IH]; intros n; cbn; [intros [= ->]; by left|]. destruct (take_action a n) as [|n1] eqn:E; [done|]. intros H Hv.
  destruct (IH _ H Hv) as [H1|H1]; [|by right; right].
  destruct a as [o x], n; destruct o; unfold take_action in E; try done; injection E as <-; cbn in *; try (by left). subst x. right. by left.
Qed.

(** * What is attached to an option *)
Lemma short_table c o : dget [45%N; c] table = Some o -> o <> ODry.
Proof. intros H%table_in. unfold table in H. repeat (destruct H as [H|H]; [vm_compute in H; (discriminate H || (injection H as <- <-; discriminate))|]). done. Qed.
Lemma attached_inv arg o long eq g : attached o long eq arg = inr g ->
  (forall v, (In (ODry, v) (g_actions g) \/ g_open g = Some ODry) -> o = ODry /\ long = false /\ eq = false)
  /\ (forall o' v, In (o', Some v) (g_actions g) -> exists p, arg = p ++ v)
  /\ (takes_value o = false \/ In (o, Some arg) (g_actions g)).
Proof.
  remember (length arg) as k eqn:Hk. assert (Hle : length arg <= k) by lia. clear Hk. revert arg o long eq g Hle.
  induction k as [|k IH]; intros arg o long eq g Hle.
  { destruct arg; [|cbn in Hle; lia]. unfold attached. destruct (takes_value o) eqn:Et; [|done]. intros [= <-]. cbn. split; [|split].
    - intros v [[[= -> _]|[]]|]; done.
    - intros o' v [[= _ <-]|[]]. by exists [].
    - right. by left. }
  destruct arg as [|c r].
  { unfold attached. destruct (takes_value o) eqn:Et; [|done]. intros [= <-]. cbn. split; [|split].
    - intros v [[[= -> _]|[]]|]; done.
    - intros o' v [[= _ <-]|[]]. by exists [].
    - right. by left. }
  cbn [attached]. destruct (takes_value o) eqn:Et.
  { intros [= <-]. cbn. split; [|split].
    - intros v [[[= -> _]|[]]|]; done.
    - intros o' v [[= _ <-]|[]]. by exists [].
    - right. by left. }
  destruct (long || eq || N.eqb c 45) eqn:El; [done|]. apply orb_false_iff in El as [[-> ->]%orb_false_iff _].
  assert (Hfin : forall g0 (P : Prop), inr (also (o, None) g0) = @inr course group g ->
     (forall v, (In (ODry, v) (g_actions g0) \/ g_open g0 = Some ODry) -> False) -> (forall o' v, In (o', Some v) (g_actions g0) -> exists p, c :: r = p ++ v) ->
     (forall v, (In (ODry, v) (g_actions g) \/ g_open g = Some ODry) -> o = ODry /\ false = false /\ false = false)
     /\ (forall o' v, In (o', Some v) (g_actions g) -> exists p, c :: r = p ++ v) /\ (false = false \/ In (o, Some (c :: r)) (g_actions g))).
  { intros g0 _ [= <-] H1 H2. cbn. split; [|split; [|by left]].
    - intros v [[[= -> _]|H]|H]; [done|exfalso; eapply H1; by left|exfalso; apply (H1 None); by right].
    - intros o' v [|H]; [done|]. by eapply H2. }
  destruct (dget [45%N; c] table) as [o2|] eqn:E2.
  - pose proof (short_table _ _ E2) as Hd2. destruct r as [|d r2].
    + intros H. apply (Hfin _ True H).
      * destruct (takes_value o2); cbn; intros v [Hv|Hv]; try done; [congruence|]. destruct Hv as [[= ? _]|[]]. done.
      * destruct (takes_value o2); cbn; [done|]. intros o' v [|[]]; done.
    + destruct (if N.eqb d 61 then _ else _) as [|g2] eqn:Eg; [done|]. intros H. apply (Hfin _ True H).
      * intros v Hv. destruct (N.eqb d 61); [destruct (IH r2 _ _ _ _ ltac:(cbn in *; lia) Eg) as (H1 & _)|destruct (IH (d :: r2) _ _ _ _ ltac:(cbn in *; lia) Eg) as (H1 & _)]; destruct (H1 v Hv); done.
      * intros o' v Hv. destruct (N.eqb d 61).
        -- destruct (IH r2 _ _ _ _ ltac:(cbn in *; lia) Eg) as (_ & H1 & _). destruct (H1 _ _ Hv) as [p ->]. exists (c :: d :: p). done.
        -- destruct (IH (d :: r2) _ _ _ _ ltac:(cbn in *; lia) Eg) as (_ & H1 & _). destruct (H1 _ _ Hv) as [p Hp]. exists (c :: p). cbn. by rewrite <- Hp.
  - intros [= <-]. cbn. split; [|split; [|by left]].
    + intros v [[[= -> _]|[]]|]; done.
    + intros o' v [|[]]; done.
Qed.

(** * How an argument is read *)
Definition dry_names : list pystr := List.map lit ["--dry"; "--dry-run"; "--pretend"]%string.
Lemma table_dry k : In (k, ODry) table -> In k dry_names.
Proof. unfold table. intros H. repeat (destruct H as [H|H]; [first [discriminate H | injection H as <-; unfold dry_names; cbn [List.map In]; tauto]|]). done. Qed.
Lemma tuples_in s t o : In t (option_tuples s) -> t_opt t = Some o ->
  exists k, In (k, o) table /\ t_name t = k /\
    ((take 2 s = lit "--" /\ exists p b r, partition_eq s = (p, b, r) /\ startswith k p = true /\ t_eq t = b /\ t_arg t = (if b then Some r else None))
     \/ (k = take 2 s /\ t_eq t = false /\ t_arg t = Some (drop 2 s))
     \/ (startswith k s = true /\ t_eq t = false /\ t_arg t = None)).
Proof.
  unfold option_tuples. case_bool_decide as H2.
  - destruct (partition_eq s) as [[p b] r]. intros Hin Ho. apply elem_of_list_In, elem_of_list_omap in Hin as ([k o'] & Hk & E).
    destruct (startswith k p) eqn:Es; [|done]. injection E as <-. cbn in Ho. injection Ho as ->. exists k. split; [by apply elem_of_list_In|]. split; [done|].
    left. split; [done|]. by exists p, b, r.
  - intros Hin Ho. apply elem_of_list_In, elem_of_list_omap in Hin as ([k o'] & Hk & E). destruct (str_eqb k (take 2 s)) eqn:Ek.
    + injection E as <-. cbn in Ho. injection Ho as ->. exists k. split; [by apply elem_of_list_In|]. split; [done|]. right. left. apply str_eqb_true in Ek. done.
    + destruct (startswith k s) eqn:Es; [|done]. injection E as <-. cbn in Ho. injection Ho as ->. exists k. split; [by apply elem_of_list_In|]. split; [done|]. by right; right.
Qed.
Lemma prefix_take k s : startswith k s = true -> exists i, i <= length k /\ s = take i k.
Proof. intros [r ->]%startswith_true. exists (length s). split; [rewrite app_length; lia|]. by rewrite take_app. Qed.
Definition no_dry (digit : N -> bool) (s : pystr) : Prop := match parse_optional digit s with inr (Some t) => t_opt t <> Some ODry | _ => True end.
Lemma dry_prefixes digit k s : In k dry_names -> startswith k s = true -> In s dry_words \/ no_dry digit s.
Proof.
  intros Hk (i & Hi & ->)%prefix_take.
  assert (Hall : forall k, In k dry_names -> forallb (fun i => existsb (str_eqb (take i k)) dry_words
     || match parse_optional digit (take i k) with inr (Some t) => match t_opt t with Some ODry => false | _ => true end | _ => true end) (seq 0 (S (length k))) = true).
  { intros k0 Hk0. repeat (destruct Hk0 as [<-|Hk0]; [vm_compute; reflexivity|]). done. }
  specialize (Hall k Hk). rewrite forallb_forall in Hall. specialize (Hall i). cbv beta in Hall. rewrite in_seq in Hall.
  destruct (orb_prop _ _ (Hall ltac:(lia))) as [(w & Hw & ->%str_eqb_true)%existsb_exists|H]; [by left|]. right. unfold no_dry.
  destruct (parse_optional digit (take i k)) as [|[t|]]; [done| |done]. intros E. by rewrite E in H.
Qed.
Lemma reading_dry digit s t g v : parse_optional digit s = inr (Some t) -> read_group s t = inr g -> (In (ODry, v) (g_actions g) \/ g_open g = Some ODry) -> In s dry_words.
Proof.
  intros Hp Hg Hd. unfold read_group in Hg. destruct (t_opt t) as [o|] eqn:Eo; [|injection Hg as <-; cbn in Hd; destruct Hd as [[]|]; done].
  assert (o = ODry /\ (t_arg t = None \/ t_arg t <> None /\ bool_decide (take 2 (t_name t) = lit "--") = false /\ t_eq t = false)) as [-> Harg].
  { destruct (t_arg t) as [arg|].
    - destruct (attached_inv _ _ _ _ _ Hg) as (H1 & _). destruct (H1 v Hd) as (-> & ? & ?). split; [done|]. by right.
    - injection Hg as <-. destruct (takes_value o) eqn:Et; cbn in Hd; (destruct Hd as [Hd|Hd]; [|try done]); try done.
      + injection Hd as ->. done.
      + destruct Hd as [[= -> _]|[]]. split; [done|]. by left. }
  assert (Hname : forall k, In (k, ODry) table -> bool_decide (take 2 k = lit "--") = true).
  { intros k Hk%table_dry. repeat (destruct Hk as [<-|Hk]; [vm_compute; reflexivity|]). done. }
  destruct (decide (In s dry_words)) as [|Hno]; [done|]. exfalso.
  assert (Hpre : forall k, In (k, ODry) table -> startswith k s = true -> False).
  { intros k Hk%table_dry Hs. destruct (dry_prefixes digit k s Hk Hs) as [|Hn]; [done|]. unfold no_dry in Hn. rewrite Hp in Hn. done. }
  revert Hp. unfold parse_optional. destruct s as [|c s0] eqn:Es; [done|]. rewrite <- Es in *. destruct (negb _); [done|].
  destruct (dget s table) as [o1|] eqn:E1.
  { intros [= <-]. cbn in Eo. injection Eo as ->. apply table_in in E1. eapply Hpre; [exact E1|]. apply startswith_true. exists []. by rewrite app_nil_r. }
  destruct (length s =? 1); [done|]. destruct (partition_eq s) as [[p b] r] eqn:Ep. destruct (if b then dget p table else None) as [o2|] eqn:E2.
  { intros [= <-]. cbn in *. destruct Harg as [|(_ & _ & ?)]; done. }
  destruct (option_tuples s) as [|t1 [|t2 ts]] eqn:Et.
  { destruct (negative digit s); [done|]. destruct (existsb _ s); [done|]. intros [= <-]. done. }
  2: done.
  intros [= ->]. assert (Hin : In t (option_tuples s)) by (rewrite Et; by left). destruct (tuples_in _ _ _ Hin Eo) as (k & Hk & Hkn & H).
  pose proof (Hname k Hk) as Hlong. rewrite Hkn in Harg.
  destruct H as [(_ & p' & b' & r' & Ep' & Hs & He & Ha)|[(-> & He & Ha)|(Hs & He & Ha)]].
  - destruct Harg as [Harg|(_ & Harg & _)]; [|congruence]. rewrite Ha in Harg. destruct b'; [done|]. apply partition_false in Ep' as ->. by eapply Hpre.
  - destruct Harg as [Harg|(_ & Harg & _)]; congruence.
  - by eapply Hpre.
Qed.
Lemma word_dry digit s : In s dry_words -> exists t, parse_optional digit s = inr (Some t) /\ read_group s t = inr (Group [(ODry, None)] None None).
Proof. intros H. repeat (destruct H as [<-|H]; [eexists; split; vm_compute; reflexivity|]). done. Qed.

(** a long option with a name this parser does not have *)
Lemma table_long k o : In (k, o) table -> take 2 k = lit "--" -> In k long_names.
Proof.
  unfold table. intros H Hl. repeat (destruct H as [H|H]; [injection H as <- <-; first [vm_compute in Hl; discriminate Hl|unfold long_names; cbn [List.map In]; tauto]|]). done.
Qed.
Lemma table_no_eq k o : In (k, o) table -> ~ In 61%N k.
Proof.
  intros H E. assert (Hf : forallb (fun '(k, _) => negb (existsb (N.eqb 61) k)) table = true) by (vm_compute; reflexivity).
  rewrite forallb_forall in Hf. specialize (Hf _ H). cbn in Hf. apply negb_true_iff in Hf. rewrite <- not_true_iff_false in Hf. apply Hf, existsb_exists. by exists 61%N.
Qed.
Lemma startswith_take2 k p : startswith k p = true -> take 2 p = lit "--" -> take 2 k = lit "--".
Proof.
  intros [r ->]%startswith_true H. rewrite take_app_le; [done|]. apply (f_equal length) in H. rewrite take_length in H. change (length (lit "--")) with 2 in H. lia.
Qed.
Lemma misspelled_reading digit s : digit 45%N = false -> misspelled s -> parse_optional digit s = inr (Some (Reading None s false None)).
Proof.
  intros Hd ([r0 Hs] & Hblank & Hno).
  assert (Hcut : forall p b r, partition_eq s = (p, b, r) -> up_to_eq s p).
  { intros p b r E. split; [by eapply partition_no_eq|]. destruct b; [right; exists r; by apply partition_true|left; by eapply partition_false]. }
  assert (H2 : take 2 s = lit "--") by (rewrite Hs; vm_compute; reflexivity).
  assert (Hnone : forall p b r k o, partition_eq s = (p, b, r) -> In (k, o) table -> startswith k p = true -> False).
  { intros p b r k o E Hk Hsw. pose proof (Hno p (Hcut _ _ _ E)) as Hf. rewrite List.Forall_forall in Hf.
    assert (Hp2 : take 2 p = lit "--").
    { destruct b; [|by apply partition_false in E as <-]. apply partition_true in E. rewrite Hs in E. destruct p as [|x [|y p]]; try discriminate E. injection E as <- <- _. vm_compute; reflexivity. }
    pose proof (startswith_take2 _ _ Hsw Hp2) as Hk2. apply startswith_true in Hsw as [r1 Hr]. exact (Hf k (table_long _ _ Hk Hk2) r1 Hr). }
  unfold parse_optional. rewrite Hs at 1. cbn [N.eqb negb]. change (negb (N.eqb 45 45)) with false. cbv iota.
  destruct (partition_eq s) as [[p b] r] eqn:Ep.
  destruct (dget s table) as [o1|] eqn:E1.
  { exfalso. apply table_in in E1. apply (Hnone p b r s o1 eq_refl E1). destruct b.
    - exfalso. apply (table_no_eq _ _ E1). rewrite (partition_true _ _ _ Ep). apply in_or_app. right. by left.
    - apply partition_false in Ep as <-. apply startswith_true. exists []. by rewrite app_nil_r. }
  assert (length s =? 1 = false) as -> by (rewrite Hs; done).
  assert ((if b then dget p table else None) = None) as ->.
  { destruct b; [|done]. destruct (dget p table) eqn:E2; [|done]. exfalso. apply table_in in E2. eapply (Hnone _ _ _ _ _ eq_refl E2).
    apply startswith_true. exists []. by rewrite app_nil_r. }
  assert (option_tuples s = []) as ->.
  { unfold option_tuples. rewrite bool_decide_true by exact H2. rewrite Ep.
    assert (Hall : forall d, (forall k o, In (k, o) d -> startswith k p = false) ->
      omap (fun '(k, o) => if startswith k p then Some (Reading (Some o) k b (if b then Some r else None)) else None) d = []).
    { clear. induction d as [|[k o] d IH]; intros H; [done|]. cbn. rewrite (H k o) by (by left). apply IH. intros ?? ?. eapply H. by right. }
    apply Hall. intros k o Hk. destruct (startswith k p) eqn:E; [|done]. exfalso. eapply Hnone; [reflexivity|exact Hk|exact E]. }
  assert (negative digit s = false) as ->.
  { rewrite Hs. unfold negative. change (N.eqb 45 45) with true.
    assert (Hn : forall r, number digit (45%N :: r) = false).
    { intros r1. unfold number, all_digits. cbn. rewrite Hd. reflexivity. }
    rewrite Hn. cbn [orb andb]. destruct r0 as [|x r0]; [by rewrite andb_false_r|]. change (removelast (45%N :: x :: r0)) with (45%N :: removelast (x :: r0)). rewrite Hn. apply andb_false_r. }
  assert (existsb (N.eqb 32) s = false) as ->; [|done].
  apply not_true_iff_false. intros (x & Hx & E%N.eqb_eq)%existsb_exists. by subst x.
Qed.

(** the options that end the program *)
Lemma eq_reading digit v n o : dget n table = Some o -> takes_value o = true -> hd 0%N n = 45%N -> 1 < length n -> ~ In 61%N n ->
  parse_optional digit (n ++ 61%N :: v) = inr (Some (Reading (Some o) n true (Some v))) /\ read_group (n ++ 61%N :: v) (Reading (Some o) n true (Some v)) = inr (Group [(o, Some v)] None None).
Proof.
  intros H1 H2 H3 H4 H5.
  assert (H6 : dget (n ++ 61%N :: v) table = None).
  { destruct (dget (n ++ 61%N :: v) table) eqn:E; [|done]. exfalso. apply table_in in E. apply (table_no_eq _ _ E), in_or_app. right. by left. }
  destruct n as [|c n]; [cbn in H4; lia|]. cbn in H3. subst c. split.
  - unfold parse_optional. change ((45%N :: n) ++ 61%N :: v) with (45%N :: (n ++ 61%N :: v)) at 1. cbv iota. change (negb (N.eqb 45 45)) with false. cbv iota. rewrite H6.
    assert (length ((45%N :: n) ++ 61%N :: v) =? 1 = false) as -> by (apply Nat.eqb_neq; rewrite app_length; cbn; lia).
    rewrite partition_app by done. cbv iota. by rewrite H1.
  - unfold read_group. cbn [t_opt t_arg t_eq t_name]. destruct v; unfold attached; by rewrite H2.
Qed.
Lemma early_reading digit s : ends_early s -> exists t g o, parse_optional digit s = inr (Some t) /\ read_group s t = inr g
  /\ (o = OHelp \/ o = OVersion \/ o = OInit \/ o = OInspect) /\ ((exists x, In (o, x) (g_actions g)) \/ g_open g = Some o).
Proof.
  intros [H|(v & H)].
  - repeat (destruct H as [<-|H]; [eexists _, _, _; split; [vm_compute; reflexivity|]; split; [vm_compute; reflexivity|];
      first [split; [by left|]; left; eexists; by left|split; [by right; left|]; left; eexists; by left|split; [by right; right; left|]; right; reflexivity|split; [by right; right; right|]; right; reflexivity]|]).
    done.
  - destruct H as [-> | ->].
    + destruct (eq_reading digit v (lit "--init") OInit) as [H1 H2]; [vm_compute; reflexivity|done|vm_compute; reflexivity|vm_compute; lia|intros E; vm_compute in E; repeat (destruct E as [E|E]; [discriminate|]); done|].
      change (lit "--init=" ++ v) with (lit "--init" ++ 61%N :: v). eexists _, _, OInit. split; [exact H1|]. split; [exact H2|]. split; [auto|]. left. eexists. by left.
    + destruct (eq_reading digit v (lit "--inspect-inventory") OInspect) as [H1 H2]; [vm_compute; reflexivity|done|vm_compute; reflexivity|vm_compute; lia|intros E; vm_compute in E; repeat (destruct E as [E|E]; [discriminate|]); done|].
      change (lit "--inspect-inventory=" ++ v) with (lit "--inspect-inventory" ++ 61%N :: v). eexists _, _, OInspect. split; [exact H1|]. split; [exact H2|]. split; [auto|]. left. eexists. by left.
Qed.

(** * Command lines that are spelled out *)
Definition acts_of (i : item) : list (opt * option pystr) :=
  match i with
  | Dry _ => [(ODry, None)] | Verbose _ => [(OVerbose, None)] | No_changes => [(ONoChanges, None)] | Diff => [(ODiff, None)] | Debug => [(ODebug, None)] | No_color => [(ONoColor, None)]
  | Hosts_eq v | Hosts_next _ v => [(OHosts, Some v)]
  | Word _ => []
  end.
Lemma plain_reading digit v : plain_word v -> parse_optional digit v = inr None /\ str_eqb v (lit "--") = false.
Proof.
  intros H. destruct v as [|c v]; [by split|]. split.
  - unfold parse_optional. destruct (N.eqb c 45) eqn:E; [|done]. apply N.eqb_eq in E as ->. by destruct (H v).
  - apply str_eqb_false. intros E. vm_compute in E. injection E as -> ->. by eapply H.
Qed.
Lemma flag_reading digit i w : proper i -> written i = [w] -> (forall v, i <> Word v) ->
  str_eqb w (lit "--") = false /\ exists t, parse_optional digit w = inr (Some t) /\ read_group w t = inr (Group (acts_of i) None None).
Proof.
  intros Hp Hw Hi. destruct i as [x|x| | | | |v|x v|v]; cbn in Hw; try (injection Hw as <-); try done; try (exfalso; by eapply Hi).
  1-2: repeat (destruct Hp as [<-|Hp]; [split; [vm_compute; reflexivity|]; eexists; split; vm_compute; reflexivity|]); done.
  1-4: split; [vm_compute; reflexivity|]; eexists; split; vm_compute; reflexivity.
  change (lit "--hosts=" ++ v) with (lit "--hosts" ++ 61%N :: v). split.
  - apply str_eqb_false. intros E. vm_compute in E. discriminate E.
  - destruct (eq_reading digit v (lit "--hosts") OHosts) as [H1 H2]; [vm_compute; reflexivity|done|vm_compute; reflexivity|vm_compute; lia|intros E; vm_compute in E; repeat (destruct E as [E|E]; [discriminate|]); done|].
    eexists. split; [exact H1|exact H2].
Qed.
Lemma hosts_reading digit w : In w (List.map lit ["-H"; "--hosts"]%string) ->
  str_eqb w (lit "--") = false /\ exists t, parse_optional digit w = inr (Some t) /\ read_group w t = inr (Group [] (Some OHosts) None).
Proof. intros Hp. repeat (destruct Hp as [<-|Hp]; [split; [vm_compute; reflexivity|]; eexists; split; vm_compute; reflexivity|]). done. Qed.

(** the part after "--" *)
Definition tail_of (ws : list pystr) : list pystr := match ws with [] => [] | _ => lit "--" :: ws end.
Definition tail_marks (ws : list pystr) : list (pystr * mark) := match ws with [] => [] | _ => (lit "--", Dashes) :: List.map (fun s => (s, Arg)) ws end.
Definition last_dash (ws : list pystr) : list pystr := match ws with [] => [] | _ => [lit "--"] end.
(** the strings that the words are made of *)
Fixpoint pieces (l : list item) (ws : list pystr) : list (list pystr) :=
  match l with
  | [] => match ws with [] => [] | w :: r => [lit "--"; w] :: List.map (fun w => [w]) r end
  | [Word v] => (v :: last_dash ws) :: List.map (fun w => [w]) ws
  | Word v :: l => [v] :: pieces l ws
  | _ :: l => pieces l ws
  end.
Lemma args_meaning ws : meaning (List.map (fun s => (s, Arg)) ws) [] (List.map (fun w => [w]) ws).
Proof. induction ws as [|w ws IH]; [constructor|]. cbn. eapply m_word; [|exact IH]. unfold one_word. cbn. by destruct ws. Qed.
Lemma spelled_meaning digit items ws : Forall proper items ->
  exists l, marks digit (List.concat (List.map written items) ++ tail_of ws) = inr l /\ meaning l (List.concat (List.map acts_of items)) (pieces items ws).
Proof.
  induction 1 as [|i items Hi Hf IH].
  - cbn [List.map List.concat app]. destruct ws as [|w ws]; [eexists; split; [done|constructor]|].
    exists (tail_marks (w :: ws)). split; [unfold tail_of; cbn [marks]; by rewrite str_eqb_refl|].
    cbn [pieces tail_marks]. eapply m_word; [|apply args_meaning]. unfold one_word. cbn. by destruct ws.
  - destruct IH as (l & El & M). cbn [List.map List.concat]. rewrite <- (assoc_L (++)).
    assert (Hflag : (exists w, written i = [w]) -> (forall v, i <> Word v) ->
       exists l, marks digit (written i ++ List.concat (List.map written items) ++ tail_of ws) = inr l /\ meaning l (acts_of i ++ List.concat (List.map acts_of items)) (pieces items ws)).
    { intros [w Ew] Hw. rewrite Ew. destruct (flag_reading digit i w Hi Ew Hw) as (E1 & t & E2 & E3). cbn [app marks]. rewrite E1, E2, El. eexists. split; [done|]. by eapply (m_flags w t (Group (acts_of i) None None)). }
    destruct i as [x|x| | | | |v|x v|v].
    1-7: destruct Hflag as (l' & E & M'); [by eexists|done|]; exists l'; (split; [exact E|]); exact M'.
    + destruct Hi as [Hx Hv]. destruct (hosts_reading digit x Hx) as (E1 & t & E2 & E3). destruct (plain_reading digit v Hv) as [E4 E5].
      cbn [written app marks]. rewrite E1, E2, E5, E4, El. eexists. split; [done|]. eapply (m_value x t (Group [] (Some OHosts) None)); done.
    + destruct (plain_reading digit v Hi) as [E4 E5]. cbn [written app marks acts_of]. rewrite E5, E4, El. eexists. split; [done|].
      destruct items as [|i2 items].
      * cbn [pieces]. cbn [List.map List.concat app] in *. destruct ws as [|w ws].
        -- cbn in El. injection El as <-. eapply m_word; [unfold one_word; cbn; reflexivity|]. constructor.
        -- unfold tail_of in El. cbn [marks] in El. rewrite str_eqb_refl in El. injection El as <-. eapply m_word; [|apply args_meaning]. unfold one_word. cbn. by destruct ws.
      * cbn [pieces]. eapply m_word; [|exact M].
        assert (Hhd : match l with (_, Dashes) :: _ => False | _ => True end).
        { destruct l as [|[s m] l]; [done|]. destruct m; try done. revert El. inversion Hf as [|? ? Hi2 Hf2]; subst.
          assert (exists w r, written i2 = w :: r /\ str_eqb w (lit "--") = false) as (w & r & Ew & En).
          { destruct i2 as [x|x| | | | |v'|x v'|v']; try (eexists _, []; split; [reflexivity|]; eapply (flag_reading digit); [exact Hi2|reflexivity|done]).
            - eexists _, [v']. split; [reflexivity|]. by apply (hosts_reading digit), Hi2.
            - eexists _, []. split; [reflexivity|]. by apply (plain_reading digit). }
          cbn [List.map List.concat]. rewrite Ew. cbn [app marks]. rewrite En. destruct (parse_optional digit w) as [|t]; [done|]. clear Hflag. destruct (marks digit _) as [e|l2]; [done|].
          intros [= _ E _]. destruct t; discriminate E. }
        unfold one_word. cbn. destruct l as [|[s m] l]; [done|]. destruct m; done.
Qed.
Lemma pieces_values items ws : Forall proper items -> Forall (fun w => w <> lit "--") ws -> List.map word_value (pieces items ws) = List.map Some (words items ++ ws).
Proof.
  intros Hp Hws.
  assert (Hone : forall w, w <> lit "--" -> word_value [w] = Some w).
  { intros w Hw. unfold word_value. cbn [remove_dashes]. apply str_eqb_false in Hw. by rewrite Hw. }
  assert (Hall : List.map word_value (List.map (fun w => [w]) ws) = List.map Some ws).
  { clear Hp. induction Hws as [|w ws Hw Hws IH]; [done|]. cbn [List.map]. by rewrite Hone, IH. }
  induction Hp as [|i items Hi Hf IH].
  - cbn [pieces words omap list_omap app]. destruct ws as [|w ws]; [done|]. cbn [List.map] in *. injection Hall as _ ->. reflexivity.
  - destruct i as [x|x| | | | |v|x v|v]; try exact IH. destruct (plain_reading (fun _ => false) v Hi) as [_ Hv].
    assert (Hv1 : word_value [v] = Some v) by (apply Hone; by apply str_eqb_false).
    destruct items as [|i2 items].
    + cbn [pieces]. change (words [Word v]) with [v]. cbn [List.map app]. rewrite Hall. f_equal.
      destruct ws; [exact Hv1|]. cbn [last_dash]. unfold word_value. cbn [remove_dashes]. rewrite Hv. by rewrite str_eqb_refl.
    + change (pieces (Word v :: i2 :: items) ws) with ([v] :: pieces (i2 :: items) ws). change (words (Word v :: i2 :: items)) with (v :: words (i2 :: items)).
      cbn [List.map app]. by rewrite Hv1, IH.
Qed.

Lemma spelled_acts items n : exists n', take_actions (List.concat (List.map acts_of items)) n = inr n'
  /\ n_hosts n' = match last_hosts items with Some v => Some v | None => n_hosts n end
  /\ (n_dry n' = true <-> n_dry n = true \/ exists w, In (Dry w) items)
  /\ n_verbose n' = n_verbose n + length (List.filter (fun i => match i with Verbose _ => true | _ => false end) items)
  /\ (n_changes n' = false <-> n_changes n = false \/ In No_changes items)
  /\ (n_diff n' = true <-> n_diff n = true \/ In Diff items)
  /\ (n_debug n' = true <-> n_debug n = true \/ In Debug items)
  /\ (n_no_color n' = true <-> n_no_color n = true \/ In No_color items).
Proof.
  revert n; induction items as [|i items IH]; intros n.
  - exists n. cbn. rewrite Nat.add_0_r. repeat split; try (by left); intros [|H]; try done; by destruct H.
  - cbn [List.map List.concat]. rewrite take_actions_app.
    assert (exists n1, take_actions (acts_of i) n = inr n1
      /\ n_hosts n1 = match i with Hosts_eq v | Hosts_next _ v => Some v | _ => n_hosts n end
      /\ (n_dry n1 = true <-> n_dry n = true \/ exists w, i = Dry w)
      /\ n_verbose n1 = n_verbose n + match i with Verbose _ => 1 | _ => 0 end
      /\ (n_changes n1 = false <-> n_changes n = false \/ i = No_changes)
      /\ (n_diff n1 = true <-> n_diff n = true \/ i = Diff)
      /\ (n_debug n1 = true <-> n_debug n = true \/ i = Debug)
      /\ (n_no_color n1 = true <-> n_no_color n = true \/ i = No_color)) as (n1 & -> & H1 & H2 & H3 & H4 & H5 & H6 & H7).
    { destruct n, i; cbn; eexists; (split; [reflexivity|]); cbn; repeat split; try done; try lia; try (by left); try (by intros [|?]); try (by intros [|[? ?]]); try (right; by eexists); by right. }
    destruct (IH n1) as (n' & -> & K1 & K2 & K3 & K4 & K5 & K6 & K7). exists n'. split; [done|]. cbn [last_hosts]. rewrite K1, H1.
    split; [by destruct (last_hosts items), i|].
    split. { rewrite K2, H2. split; [intros [[|[w ->]]|[w Hw]]; [by left|right; exists w; by left|right; exists w; by right]|intros [|[w [->|Hw]]]; [by left; left|left; right; by exists w|right; by exists w]]. }
    split. { rewrite K3, H3. cbn [List.filter]. destruct i; cbn [length]; lia. }
    cbn [In]. rewrite K4, H4, K5, H5, K6, H6, K7, H7. clear. tauto.
Qed.

(** The full property, false because of "--" (see [C91_refuted]):
      forall argv n, parse_args argv = Runs n -> In "--dry" argv -> n_dry n = true.
    What holds: a command line that is spelled out (the options in any order among the words, then perhaps "--" and the remaining words) is run, with exactly what
    it asks for; a run is a dry run exactly if a word for it stands before "--"; with a misspelled long option, or an option that asks for something else, no script is
    run; the inventory and the script are arguments, in this order, and the selection of hosts is the end of one.
    [digit]: the characters that \d matches; the dash is none of them. *)
Theorem C91_partial (digit : N -> bool) : digit 45%N = false ->
  (forall items ws, Forall proper items -> Forall (fun w => w <> lit "--") ws -> length (words items ++ ws) = 2 ->
     exists n, parse_args digit (List.concat (List.map written items) ++ match ws with [] => [] | _ => lit "--" :: ws end) = Runs n
               /\ asks_for items n /\ n_words n = List.map Some (words items ++ ws))
  /\ (forall argv n, parse_args digit argv = Runs n -> (n_dry n = true <-> exists w, In w (before_dashes argv) /\ In w dry_words))
  /\ (forall argv w n, In w (before_dashes argv) -> misspelled w -> parse_args digit argv <> Runs n)
  /\ (forall argv w n, In w (before_dashes argv) -> ends_early w -> parse_args digit argv <> Runs n)
  /\ (forall argv n, parse_args digit argv = Runs n ->
        (exists a b, n_words n = [a; b] /\ omap id [a; b] `sublist_of` argv /\ (~ In (lit "--") argv -> a <> None /\ b <> None))
        /\ (forall v, n_hosts n = Some v -> exists p, In (p ++ v) argv)).
Proof.
  intros Hd. split; [|split; [|split; [|split]]].
  - intros items ws Hp Hws Hlen. destruct (spelled_meaning digit items ws Hp) as (l & El & M). destruct (spelled_acts items no_opts) as (n' & Ht & H).
    pose proof (pieces_values items ws Hp Hws) as Hv. exists (with_words (pieces items ws) n'). split; [|split].
    + apply parse_args_meaning. exists l, (List.concat (List.map acts_of items)), (pieces items ws), n'. split; [exact El|]. split; [done|]. split; [|done].
      apply (f_equal length) in Hv. by rewrite !map_length, Hlen in Hv.
    + assert (Hsame : forall ws n, let n' := with_words ws n in n_hosts n' = n_hosts n /\ n_dry n' = n_dry n /\ n_verbose n' = n_verbose n /\ n_changes n' = n_changes n /\ n_diff n' = n_diff n /\ n_debug n' = n_debug n /\ n_no_color n' = n_no_color n).
      { intros ? []. done. }
      destruct (Hsame (pieces items ws) n') as (S1 & S2 & S3 & S4 & S5 & S6 & S7). unfold asks_for. rewrite S1, S2, S3, S4, S5, S6, S7.
      destruct H as (K1 & K2 & K3 & K4 & K5 & K6 & K7). rewrite K1, K2, K3, K4, K5, K6, K7. cbn. split; [by destruct (last_hosts items)|].
      repeat split; try tauto; try (by intros [|]); by right.
    + rewrite words_with, Hv. by rewrite (take_actions_keeps _ _ _ Ht).
  - intros argv n (l & acts & ws & n0 & El & M & Hc & Ht & ->)%parse_args_meaning.
    assert (n_dry (with_words ws n0) = n_dry n0) as -> by (by destruct n0). rewrite (actions_dry _ _ _ Ht). split.
    + intros [|[x Hx]]; [done|]. destruct (meaning_from _ _ _ _ _ M Hx) as (s & t & g & Hin & Hg & Hor). destruct (marks_option _ _ _ _ _ El Hin) as [Hb Hpo].
      exists s. split; [done|]. eapply (reading_dry digit s t g x); [done|done|]. destruct Hor as [|[? _]]; [by left|by right].
    + intros (w & Hb & Hw). right. destruct (word_dry digit w Hw) as (t & Hpo & Hg). pose proof (marks_back _ _ _ _ _ El Hb Hpo) as Hin.
      destruct (meaning_in _ _ _ _ _ M Hin) as (g & Hg' & _ & Ha & _). rewrite Hg in Hg'. injection Hg' as <-. exists None. apply Ha. by left.
  - intros argv w n Hb Hm (l & acts & ws & n0 & El & M & Hc & Ht & ->)%parse_args_meaning.
    pose proof (misspelled_reading digit w Hd Hm) as Hpo. pose proof (marks_back _ _ _ _ _ El Hb Hpo) as Hin.
    destruct (meaning_in _ _ _ _ _ M Hin) as (g & Hg & Hx & _). cbn in Hg. by injection Hg as <-.
  - intros argv w n Hb Hm (l & acts & ws & n0 & El & M & Hc & Ht & ->)%parse_args_meaning.
    destruct (early_reading digit w Hm) as (t & g & o & Hpo & Hg & Ho & Hor). pose proof (marks_back _ _ _ _ _ El Hb Hpo) as Hin.
    destruct (meaning_in _ _ _ _ _ M Hin) as (g' & Hg' & _ & Ha & Hop). rewrite Hg in Hg'. injection Hg' as <-.
    assert (exists x, In (o, x) acts) as [x Hx].
    { destruct Hor as [[x Hx]|Hx]; [exists x; by apply Ha|]. destruct (Hop _ Hx) as [v Hv]. by exists (Some v). }
    exact (actions_end _ _ _ _ _ Ht Hx Ho).
  - intros argv n (l & acts & ws & n0 & El & M & Hc & Ht & ->)%parse_args_meaning. pose proof (marks_fst _ _ _ El) as Hfst. split.
    + destruct ws as [|a [|b [|]]]; try discriminate Hc. exists (word_value a), (word_value b). rewrite words_with, (take_actions_keeps _ _ _ Ht). split; [done|].
      assert (Hval : forall a, omap id [word_value a] `sublist_of` a).
      { clear. intros a. unfold word_value. assert (Hr : remove_dashes a `sublist_of` a).
        { induction a as [|x a IH]; [constructor|]. cbn. destruct (str_eqb x (lit "--")); by constructor. }
        destruct (remove_dashes a) as [|x [|y r]]; cbn; [apply sublist_nil_l|exact Hr|apply sublist_nil_l]. }
      assert (Hsub : forall l acts ws, meaning l acts ws -> omap id (List.map word_value ws) `sublist_of` List.map fst l).
      { clear -Hval. intros l acts ws M. induction M as [|s0 t0 g l acts ws Eg Eo Ex M IH|s0 t0 g o v l acts ws Eg Eo Ex M IH|l a l1 acts ws E1 M IH].
        - constructor.
        - cbn [List.map fst]. by constructor.
        - cbn [List.map fst]. do 2 constructor. exact IH.
        - destruct (one_word_split _ _ _ E1) as (-> & _). cbn [List.map]. change (word_value a :: List.map word_value ws) with ([word_value a] ++ List.map word_value ws).
          rewrite omap_app. apply sublist_app; [apply Hval|exact IH]. }
      split. { rewrite <- Hfst. exact (Hsub _ _ _ M). }
      intros Hno. rewrite <- Hfst in Hno.
      assert (Hd1 : forall l, ~ In (lit "--") (List.map fst l) -> (forall s, In (s, Dashes) l -> s = lit "--") -> forall a l1, one_word l = Some (a, l1) -> word_value a <> None).
      { clear. intros l Hno Hdash a l1.
        assert (Hn : forall l, ~ In (lit "--") (List.map fst l) -> (forall s, In (s, Dashes) l -> s = lit "--") -> dashes l = ([], l)).
        { intros [|[s m] l0] H H'; [done|]. destruct m; try done. exfalso. apply H. left. apply H'. by left. }
        unfold one_word. rewrite Hn by done. destruct l as [|[s m] l]; [done|]. destruct m; try done. cbn in Hno. rewrite Hn; [|tauto|intros s' Hs'; apply Hdash; by right].
        intros [= <- _]. unfold word_value. cbn [app remove_dashes]. destruct (str_eqb s (lit "--")) eqn:E; [|done]. apply str_eqb_true in E. tauto. }
      assert (Hdash : forall s, In (s, Dashes) l -> s = lit "--").
      { clear -El. revert l El. induction argv as [|x r IH]; intros l; cbn; [intros [= <-] ? []|]. destruct (str_eqb x (lit "--")) eqn:Ex.
        - apply str_eqb_true in Ex as ->. intros [= <-] s [[= <-]|H]; [done|]. apply in_map_iff in H as (? & ? & _). done.
        - destruct (parse_optional digit x) as [|t]; [done|]. destruct (marks digit r) as [|l0]; [done|]. intros [= <-] s [H|H]; [by destruct t|]. by eapply IH. }
      assert (Hall : forall l acts ws, meaning l acts ws -> ~ In (lit "--") (List.map fst l) -> (forall s, In (s, Dashes) l -> s = lit "--") -> Forall (fun a => word_value a <> None) ws).
      { clear -Hd1. intros l acts ws M. induction M as [|s0 t0 g l acts ws Eg Eo Ex M IH|s0 t0 g o v l acts ws Eg Eo Ex M IH|l a l1 acts ws E1 M IH]; intros Hno Hdash.
        - constructor.
        - cbn in Hno. apply IH; [tauto|]. intros s Hs. apply Hdash. by right.
        - cbn in Hno. apply IH; [tauto|]. intros s Hs. apply Hdash. by right; right.
        - constructor; [by eapply Hd1|]. destruct (one_word_split _ _ _ E1) as (_ & _ & _ & p & -> & _). apply IH.
          + intros H. apply Hno. rewrite List.map_app. apply in_or_app. by right.
          + intros s Hs. apply Hdash, in_or_app. by right. }
      specialize (Hall _ _ _ M Hno Hdash). inversion Hall as [|? ? ? Hall2]; subst. inversion Hall2; subst. done.
    + intros v Hv. assert (n_hosts (with_words [] n0) = n_hosts n0) as _ by (by destruct n0). assert (Hv' : n_hosts n0 = Some v) by (by destruct n0).
      destruct (actions_hosts _ _ _ _ Ht Hv') as [|Hin]; [done|]. destruct (meaning_from _ _ _ _ _ M Hin) as (s & t & g & Hl & Hg & Hor).
      destruct (marks_option _ _ _ _ _ El Hl) as [Hb Hpo]. assert (Hs : In s argv) by (rewrite <- Hfst; by apply (in_map fst) in Hl).
      destruct Hor as [Hx|(_ & v' & [= ->] & Hx)]; [|exists []; by rewrite Hfst in Hx].
      unfold read_group in Hg. destruct (t_opt t) as [o|] eqn:Eo; [|injection Hg as <-; done].
      destruct (t_arg t) as [arg|] eqn:Earg; [|injection Hg as <-; destruct (takes_value o); [done|]; destruct Hx as [|[]]; done].
      destruct (attached_inv _ _ _ _ _ Hg) as (_ & Hsuf & _). destruct (Hsuf _ _ Hx) as [p ->].
      assert (exists q, s = q ++ p ++ v) as [q ->]; [|exists (q ++ p); by rewrite <- (assoc_L (++))].
      revert Hpo. unfold parse_optional. destruct s as [|c s0] eqn:Es; [done|]. rewrite <- Es in *. destruct (negb _); [done|].
      destruct (dget s table) as [o1|]; [intros [= <-]; done|]. destruct (length s =? 1); [done|]. destruct (partition_eq s) as [[p1 b1] r1] eqn:Ep.
      destruct (if b1 then dget p1 table else None) as [o2|] eqn:E2.
      { intros [= <-]. cbn in Earg. injection Earg as ->. destruct b1; [|done]. apply partition_true in Ep. exists (p1 ++ [61%N]). rewrite <- (assoc_L (++)). exact Ep. }
      destruct (option_tuples s) as [|t1 [|t2 ts]] eqn:Et.
      { destruct (negative digit s); [done|]. destruct (existsb _ s); [done|]. intros [= <-]. done. }
      2: done.
      intros [= ->]. assert (Hti : In t (option_tuples s)) by (rewrite Et; by left). destruct (tuples_in _ _ _ Hti Eo) as (k & _ & _ & H).
      destruct H as [(_ & p' & b' & r' & Ep' & _ & _ & Ha)|[(_ & _ & Ha)|(_ & _ & Ha)]]; rewrite Earg in Ha; [|injection Ha as Ha; exists (take 2 s); by rewrite Ha, take_drop|done].
      destruct b'; [|done]. injection Ha as <-. apply partition_true in Ep'. exists (p' ++ [61%N]). rewrite <- (assoc_L (++)). exact Ep'.
Qed.
Print Assumptions C91_partial.

(** [fora -- --dry deploy.py] runs the script in earnest (on an inventory of the name --dry). *)
Theorem C91_refuted : exists argv, In (lit "--dry") argv /\ forall digit, exists n, parse_args digit argv = Runs n /\ n_dry n = false.
Proof. exists [lit "--"; lit "--dry"; lit "deploy.py"]. split; [right; by left|]. intros digit. eexists. split; [vm_compute; reflexivity|reflexivity]. Qed.
Print Assumptions C91_refuted.

(** Cases. *)
Example C91_run digit : parse_args digit (List.map lit ["inventory.py"; "-v"; "--hosts"; "a,b"; "deploy.py"; "--pretend"]%string)
  = Runs (Opts (Some (lit "a,b")) true 1 true false false false [Some (lit "inventory.py"); Some (lit "deploy.py")]).
Proof. vm_compute. reflexivity. Qed.
Example C91_items : let items := [Word (lit "inventory.py"); Verbose (lit "-v"); Hosts_next (lit "--hosts") (lit "a,b"); Word (lit "deploy.py"); Dry (lit "--pretend")] in
  Forall proper items /\ length (words items ++ []) = 2 /\ List.concat (List.map written items) = List.map lit ["inventory.py"; "-v"; "--hosts"; "a,b"; "deploy.py"; "--pretend"]%string.
Proof.
  split; [|split; [vm_compute; reflexivity|vm_compute; reflexivity]].
  constructor; [intros r H; vm_compute in H; discriminate|]. constructor; [by left|]. constructor; [split; [right; by left|intros r H; vm_compute in H; discriminate]|].
  constructor; [intros r H; vm_compute in H; discriminate|]. constructor; [right; right; by left|]. constructor.
Qed.
Example C91_wrong : misspelled (lit "--dry-rum").
Proof.
  split; [eexists; vm_compute; reflexivity|]. split; [intros H; vm_compute in H; repeat (destruct H as [H|H]; [discriminate|]); done|].
  intros p [Hp [<-|(v & E)]].
  - apply List.Forall_forall. intros k Hk r. repeat (destruct Hk as [<-|Hk]; [intros E; vm_compute in E; discriminate E|]). done.
  - exfalso. assert (H : In 61%N (lit "--dry-rum")) by (rewrite E; apply in_or_app; right; by left). vm_compute in H. repeat (destruct H as [H|H]; [discriminate|]). done.
Qed.

(** ** What --init takes *)
From Coq Require Import Lia ZifyNat.
Definition known_layouts : list pystr := [lit "minimal"; lit "flat"; lit "dotfiles"; lit "modular"; lit "staging_prod"].
Definition permitted (e : course) : Prop := forall x, e = Initialises x -> x ∈ known_layouts.
Lemma permitted_refuses : permitted Refuses. Proof. intros x [=]. Qed.
Lemma permitted_optional digit s e : parse_optional digit s = inl e -> permitted e.
Proof.
  unfold parse_optional. destruct s as [|c s]; [discriminate|]. destruct (negb _); [discriminate|]. destruct (dget _ table); [discriminate|]. destruct (_ =? 1); [discriminate|].
  destruct (partition_eq (c :: s)) as [[n eq] arg]. destruct (if eq then _ else _); [discriminate|]. destruct (option_tuples _) as [|t [|t' l]]; [|discriminate|intros [= <-]; apply permitted_refuses].
  destruct (negative _ _); [discriminate|]. destruct (existsb _ _); discriminate.
Qed.
Lemma permitted_marks digit argv e : marks digit argv = inl e -> permitted e.
Proof.
  revert e. induction argv as [|s r IH]; intros e; cbn [marks]; [discriminate|]. destruct (str_eqb s (lit "--")); [discriminate|].
  destruct (parse_optional digit s) as [e'|t] eqn:E; [intros [= <-]; eapply permitted_optional, E|]. destruct (marks digit r) as [e'|l]; [intros [= <-]; apply IH; reflexivity|discriminate].
Qed.
Lemma permitted_action a n e : take_action a n = inl e -> permitted e.
Proof.
  destruct n as [h d v ch df db nc w], a as [o x]. assert (Hinj : forall e1 e2 : course, @inl course opts e1 = inl e2 -> e1 = e2) by congruence. unfold take_action. destruct o; try discriminate; intros H; apply Hinj in H; subst e; try (intros y [=]; fail).
  - destruct x as [x|]; [|apply permitted_refuses]. destruct (str_in x layouts) eqn:E; [|apply permitted_refuses]. intros y [= <-]. apply str_in_true in E. exact E.
  - destruct x; [intros y [=]|apply permitted_refuses].
Qed.
Lemma permitted_actions l n e : take_actions l n = inl e -> permitted e.
Proof.
  revert n. induction l as [|a l IH]; intros n; cbn [take_actions]; [discriminate|]. destruct (take_action a n) as [e'|n'] eqn:E; [intros [= <-]; eapply permitted_action, E|apply IH].
Qed.
Lemma attached_refuses o long eq arg e : attached o long eq arg = inl e -> e = Refuses.
Proof.
  revert o long eq e. assert (H : forall k arg, length arg <= k -> forall o long eq e, attached o long eq arg = inl e -> e = Refuses).
  { induction k as [|k IH]; intros [|c r] Hl o long eq e; cbn [attached length] in *; destruct (takes_value o); try discriminate; try (intros [= <-]; reflexivity); [lia|].
    destruct (long || eq || N.eqb c 45); [intros [= <-]; reflexivity|]. destruct (dget [45%N; c] table) as [o2|]; [|discriminate]. destruct r as [|d r2]; [discriminate|].
    destruct (N.eqb d 61).
    - destruct (attached o2 false true r2) as [e'|g] eqn:E; [intros [= <-]; eapply (IH r2); [cbn [length] in Hl; lia|exact E]|discriminate].
    - destruct (attached o2 false false (d :: r2)) as [e'|g] eqn:E; [intros [= <-]; eapply (IH (d :: r2)); [lia|exact E]|discriminate]. }
  intros. eapply H; eauto.
Qed.
Lemma permitted_consume s t rest n extras e : consume_optional s t rest n extras = inl e -> permitted e.
Proof.
  unfold consume_optional. destruct (read_group s t) as [e'|g] eqn:E.
  - intros [= <-]. unfold read_group in E. destruct (t_opt t) as [o|]; [|discriminate]. destruct (t_arg t) as [arg|]; [|discriminate]. apply attached_refuses in E as ->. apply permitted_refuses.
  - destruct (g_open g) as [o|].
    + destruct rest as [|[v []] rest]; try (intros [= <-]; apply permitted_refuses). destruct (take_actions _ n) as [e'|n'] eqn:Ea; [intros [= <-]; eapply permitted_actions, Ea|discriminate].
    + destruct (take_actions _ n) as [e'|n'] eqn:Ea; [intros [= <-]; eapply permitted_actions, Ea|discriminate].
Qed.
Lemma permitted_rounds fuel l n extras : permitted (rounds fuel l n extras).
Proof.
  revert l n extras. induction fuel as [|fuel IH]; intros l n extras; cbn [rounds]; [apply permitted_refuses|].
  assert (Hc : forall s t rest n extras, permitted (match consume_optional s t rest n extras with inl e => e | inr (l, n, extras) => rounds fuel l n extras end)).
  { intros s t rest n0 ex. destruct (consume_optional s t rest n0 ex) as [e|[[l' n'] ex']] eqn:E; [eapply permitted_consume, E|apply IH]. }
  assert (Hp : permitted (let '(l1, n1) := consume_positionals l n in
              if length l1 <? length l then rounds fuel l1 n1 extras
              else let '(a, l2) := to_option l in
                   match l2 with
                   | (s, Option t) :: rest => match consume_optional s t rest n (extras ++ a) with inl e => e | inr (l, n, extras) => rounds fuel l n extras end
                   | _ => Refuses
                   end)).
  { destruct (consume_positionals l n) as [l1 n1]. destruct (length l1 <? length l); [apply IH|]. destruct (to_option l) as [a l2]. destruct l2 as [|[s []] rest]; try apply permitted_refuses. apply Hc. }
  destruct (existsb is_option l).
  - destruct l as [|[s []] rest]; [exact Hp|apply Hc|exact Hp|exact Hp].
  - destruct (consume_positionals l n) as [l1 n1]. destruct (n_words n1) as [|w1 [|w2 [|]]]; try apply permitted_refuses. destruct (extras ++ _); [intros x [=]|apply permitted_refuses].
Qed.
(** C91, about --init: the five layouts are accepted in both notations, and nothing else is, whatever the rest of the command line. *)
Theorem C91_layouts : forall digit,
  (forall argv x, parse_args digit argv = Initialises x -> x ∈ known_layouts) /\
  forall x, x ∈ known_layouts -> parse_args digit [lit "--init"; x] = Initialises x /\ parse_args digit [lit "--init=" ++ x] = Initialises x.
Proof.
  intros digit. split.
  - intros argv x. unfold parse_args. destruct (marks digit argv) as [e|l] eqn:E; [intros H; eapply permitted_marks; eassumption|apply permitted_rounds].
  - intros x Hx. unfold known_layouts in Hx. repeat (apply elem_of_cons in Hx as [-> |Hx]; [split; vm_compute; reflexivity|]). inversion Hx.
Qed.
Print Assumptions C91_layouts.
Example C91_layout digit : parse_args digit [lit "-v"; lit "--init"; lit "flat"; lit "x"] = Initialises (lit "flat") /\ parse_args digit [lit "--init"; lit "flat!"] = Refuses.
Proof. split; vm_compute; reflexivity. Qed.
