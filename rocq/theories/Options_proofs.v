(** Lemmas about the parser: what the rounds accept is a grammar ([meaning]). *)
From Verif Require Import Base Dict_proofs Options.
Local Open Scope nat_scope.

Definition with_words (ws : list (list pystr)) (n : opts) : opts :=
  let '(Opts h d v ch df db nc w) := n in Opts h d v ch df db nc (w ++ List.map word_value ws).
Lemma with_words_nil n : with_words [] n = n.
Proof. destruct n; cbn. by rewrite app_nil_r. Qed.
Lemma with_words_app a b n : with_words (a ++ b) n = with_words b (with_words a n).
Proof. destruct n; cbn. by rewrite List.map_app, (assoc_L (++)). Qed.
Lemma with_words_add a n : with_words [a] n = add_word a n.
Proof. by destruct n. Qed.
Lemma words_with ws n : n_words (with_words ws n) = n_words n ++ List.map word_value ws.
Proof. by destruct n. Qed.
Lemma take_action_words a ws n : take_action a (with_words ws n) = match take_action a n with inl e => inl e | inr n => inr (with_words ws n) end.
Proof. destruct a as [[] ?], n; reflexivity. Qed.
Lemma take_actions_words l ws n : take_actions l (with_words ws n) = match take_actions l n with inl e => inl e | inr n => inr (with_words ws n) end.
Proof. revert n; induction l as [|a l IH]; intros n; [done|]. cbn. rewrite take_action_words. destruct (take_action a n); [done|]. apply IH. Qed.
Lemma take_actions_app l1 l2 n : take_actions (l1 ++ l2) n = match take_actions l1 n with inl e => inl e | inr n => take_actions l2 n end.
Proof. revert n; induction l1 as [|a l IH]; intros n; [done|]. cbn. destruct (take_action a n); [done|]. apply IH. Qed.
Lemma take_action_keeps a n n' : take_action a n = inr n' -> n_words n' = n_words n.
Proof. destruct a as [[] ?], n; cbn; intros [= <-]; reflexivity. Qed.
Lemma take_actions_keeps l n n' : take_actions l n = inr n' -> n_words n' = n_words n.
Proof.
  revert n; induction l as [|a l IH]; intros n; cbn; [by intros [= ->]|].
  destruct (take_action a n) as [|n1] eqn:E; [done|]. intros H. rewrite (IH _ H). by eapply take_action_keeps.
Qed.

(** The grammar. *)
Inductive meaning : list (pystr * mark) -> list (opt * option pystr) -> list (list pystr) -> Prop :=
| m_nil : meaning [] [] []
| m_flags s t g l acts ws : read_group s t = inr g -> g_open g = None -> g_extra g = None -> meaning l acts ws ->
    meaning ((s, Option t) :: l) (g_actions g ++ acts) ws
| m_value s t g o v l acts ws : read_group s t = inr g -> g_open g = Some o -> g_extra g = None -> meaning l acts ws ->
    meaning ((s, Option t) :: (v, Arg) :: l) ((g_actions g ++ [(o, Some v)]) ++ acts) ws
| m_word l a l1 acts ws : one_word l = Some (a, l1) -> meaning l1 acts ws -> meaning l acts (a :: ws).

Lemma dashes_split l a b : dashes l = (a, b) -> List.map fst l = a ++ List.map fst b /\ length l = length a + length b /\ existsb is_option l = existsb is_option b
   /\ exists p, l = p ++ b /\ forall s t, ~ In (s, Option t) p.
Proof.
  revert a b; induction l as [|[s m] l IH]; intros a b; cbn.
  - intros [= <- <-]. repeat split; [done..|]. exists []. split; [done|]. intros ?? [].
  - destruct m; [intros [= <- <-]; repeat split; try done; exists []; (split; [done|]; intros ?? [])..|].
    destruct (dashes l) as [a0 b0]. intros [= <- <-]. destruct (IH _ _ eq_refl) as (H1 & H2 & H3 & p & -> & Hp). cbn.
    rewrite H1, H2. repeat split; [exact H3|]. exists ((s, Dashes) :: p). split; [done|]. intros s' t' [E|E]; [discriminate|by eapply Hp].
Qed.
Lemma one_word_split l a b : one_word l = Some (a, b) -> List.map fst l = a ++ List.map fst b /\ length b < length l /\ existsb is_option l = existsb is_option b
   /\ exists p, l = p ++ b /\ forall s t, ~ In (s, Option t) p.
Proof.
  unfold one_word. destruct (dashes l) as [a0 l0] eqn:E0. destruct l0 as [|[s m] l0]; [done|]. destruct m; try done.
  destruct (dashes l0) as [b1 l1] eqn:E1. intros [= <- <-].
  destruct (dashes_split _ _ _ E0) as (H1 & H2 & H3 & p & -> & Hp). destruct (dashes_split _ _ _ E1) as (K1 & K2 & K3 & q & -> & Hq).
  rewrite H1. cbn. cbn in K1. rewrite K1. rewrite <- (assoc_L (++)). cbn. cbn in *. repeat split; [lia|exact (eq_trans H3 K3)|].
  exists (p ++ (s, Arg) :: q). rewrite <- (assoc_L (++)). split; [done|]. intros s' t' [H|[H|H]]%in_app_or; [by eapply Hp|discriminate|by eapply Hq].
Qed.
Lemma one_word_option s t l : one_word ((s, Option t) :: l) = None.
Proof. done. Qed.
Lemma meaning_word l a l1 acts ws : one_word l = Some (a, l1) -> meaning l acts ws -> exists ws', ws = a :: ws' /\ meaning l1 acts ws'.
Proof. intros H M. destruct M; try (cbn in H; discriminate). exists ws. split; congruence. Qed.

Lemma positionals_split l n l1 n1 : consume_positionals l n = (l1, n1) ->
  exists ws, n1 = with_words ws n /\ length l1 + length ws <= length l /\ (forall acts ws', meaning l1 acts ws' -> meaning l acts (ws ++ ws'))
             /\ (length (n_words n) <= 2 -> length (n_words n) + length ws <= 2).
Proof.
  unfold consume_positionals. destruct (n_words n) as [|x [|y r]] eqn:En.
  - destruct (one_word l) as [[a l2]|] eqn:E1.
    + destruct (one_word_split _ _ _ E1) as (_ & L1 & _).
      destruct (one_word l2) as [[b l3]|] eqn:E2.
      * destruct (one_word_split _ _ _ E2) as (_ & L2 & _). intros [= <- <-]. exists [a; b].
        split; [by rewrite <- !with_words_add, <- with_words_app|]. split; [cbn; lia|]. split; [|cbn; lia]. intros acts ws' M. cbn. eapply m_word; [done|]. by eapply m_word.
      * intros [= <- <-]. exists [a]. split; [by destruct n|]. split; [cbn; lia|]. split; [|cbn; lia]. intros acts ws' M. cbn. by eapply m_word.
    + intros [= <- <-]. exists []. rewrite with_words_nil. split; [done|]. split; [cbn; lia|]. split; [done|cbn; lia].
  - destruct (one_word l) as [[a l2]|] eqn:E1.
    + destruct (one_word_split _ _ _ E1) as (_ & L1 & _). intros [= <- <-]. exists [a]. split; [by destruct n|]. split; [cbn; lia|]. split; [|cbn; lia].
      intros acts ws' M. cbn. by eapply m_word.
    + intros [= <- <-]. exists []. rewrite with_words_nil. split; [done|]. split; [cbn; lia|]. split; [done|cbn; lia].
  - intros [= <- <-]. exists []. rewrite with_words_nil. split; [done|]. split; [cbn; lia|]. split; [done|cbn; lia].
Qed.

Lemma optional_sound s t rest n extras l n1 extras1 : consume_optional s t rest n extras = inr (l, n1, extras1) ->
  (exists e, extras1 = extras ++ e) /\ length l <= length rest
  /\ (extras1 = [] -> exists acts, take_actions acts n = inr n1 /\ forall acts' ws, meaning l acts' ws -> meaning ((s, Option t) :: rest) (acts ++ acts') ws).
Proof.
  unfold consume_optional. destruct (read_group s t) as [|g] eqn:Eg; [done|]. destruct (g_open g) as [o|] eqn:Eo.
  - destruct rest as [|[v m] rest]; [done|]. destruct m; try done.
    destruct (take_actions _ n) as [|n2] eqn:Et; [done|]. intros [= <- <- <-]. split; [by eexists|]. split; [cbn; lia|].
    intros [-> He]%app_nil. exists (g_actions g ++ [(o, Some v)]). split; [done|]. intros acts' ws M. eapply m_value; try done. by destruct (g_extra g).
  - destruct (take_actions _ n) as [|n2] eqn:Et; [done|]. intros [= <- <- <-]. split; [by eexists|]. split; [cbn; lia|].
    intros [-> He]%app_nil. exists (g_actions g). split; [done|]. intros acts' ws M. eapply m_flags; try done. by destruct (g_extra g).
Qed.

Lemma attached_refuses arg o b c e : attached o b c arg = inl e -> e = Refuses.
Proof.
  remember (length arg) as k eqn:Hk. assert (Hle : length arg <= k) by lia. clear Hk. revert arg o b c e Hle.
  induction k as [|k IH]; intros arg o b c e Hle; (destruct arg as [|x arg]; [cbn; destruct (takes_value o); [done|]; by intros [= <-]|]); [cbn in Hle; lia|].
  cbn [attached]. destruct (takes_value o); [done|]. destruct (_ || _); [by intros [= <-]|]. destruct (dget _ _) as [o2|]; [|done].
  destruct arg as [|d r2]; [done|]. cbn [length] in Hle. destruct (N.eqb d 61).
  - destruct (attached o2 false true r2) eqn:E; [|done]. intros [= <-]. eapply IH; [|exact E]. lia.
  - destruct (attached o2 false false (d :: r2)) eqn:E; [|done]. intros [= <-]. eapply IH; [|exact E]. cbn [length]. lia.
Qed.
Lemma rounds_sound fuel l n extras n' : length (n_words n) <= 2 -> rounds fuel l n extras = Runs n' ->
  extras = [] /\ exists acts ws n0, meaning l acts ws /\ length (n_words n) + length ws = 2 /\ take_actions acts n = inr n0 /\ n' = with_words ws n0.
Proof.
  revert l n extras. induction fuel as [|fuel IH]; [done|]. intros l n extras Hn. cbn [rounds].
  assert (Hopt : forall s t rest extras1 , 
    match consume_optional s t rest n extras1 with inl e => e | inr (l, n, extras) => rounds fuel l n extras end = Runs n' ->
    extras1 = [] /\ exists acts ws n0, meaning ((s, Option t) :: rest) acts ws /\ length (n_words n) + length ws = 2 /\ take_actions acts n = inr n0 /\ n' = with_words ws n0).
  { intros s t rest extras1. destruct (consume_optional s t rest n extras1) as [e|[[l2 n2] ex2]] eqn:Ec.
    - intros ->. exfalso. revert Ec. unfold consume_optional, read_group.
      assert (Ht : forall l n e, take_actions l n = inl e -> forall n', e <> Runs n').
      { clear. induction l as [|a l IH]; intros n e; cbn; [done|]. destruct (take_action a n) as [e0|] eqn:E; [|apply IH].
        intros [= <-]. destruct a as [[] [x|]], n; unfold take_action in E; try discriminate; injection E as <-; intros n0; try discriminate; case_match; discriminate. }
      assert (Ha : forall arg o b c e, attached o b c arg = inl e -> e = Refuses).
      { exact attached_refuses. }
      destruct (t_opt t) as [o|].
      + destruct (match t_arg t with Some _ => _ | None => _ end) as [e|g] eqn:Eg.
        * intros [= ->]. destruct (t_arg t); [|done]. by apply Ha in Eg.
        * destruct (g_open g).
          -- destruct rest as [|[v []] rest]; try done. destruct (take_actions _ n) as [e|] eqn:E; [|done]. intros [= ->]. by eapply Ht.
          -- destruct (take_actions _ n) as [e|] eqn:E; [|done]. intros [= ->]. by eapply Ht.
      + done.
    - intros HR. destruct (optional_sound _ _ _ _ _ _ _ _ Ec) as ([e ->] & _ & Hm).
      assert (Hw : length (n_words n2) = length (n_words n)).
      { revert Ec. unfold consume_optional. destruct (read_group s t) as [|g]; [done|]. destruct (g_open g).
        - destruct rest as [|[v []] rest]; try done. destruct (take_actions _ n) eqn:E; [done|]. intros [= _ <- _]. by rewrite (take_actions_keeps _ _ _ E).
        - destruct (take_actions _ n) eqn:E; [done|]. intros [= _ <- _]. by rewrite (take_actions_keeps _ _ _ E). }
      assert (Hn2 : length (n_words n2) <= 2) by lia. destruct (IH _ _ _ Hn2 HR) as (Hex & acts & ws & n0 & M & Hc & Ht & ->).
      destruct (Hm Hex) as (acts1 & Ht1 & Hm1). apply app_nil in Hex as [-> ->]. split; [done|].
      exists (acts1 ++ acts), ws, n0. split; [by apply Hm1|]. split; [lia|]. split; [|done]. rewrite take_actions_app, Ht1. exact Ht. }
  assert (Hpos : forall l1 n1 (ex1 : list pystr), consume_positionals l n = (l1, n1) -> 
     (ex1 = [] /\ exists acts ws n0, meaning l1 acts ws /\ length (n_words n1) + length ws = 2 /\ take_actions acts n1 = inr n0 /\ n' = with_words ws n0) ->
     ex1 = [] /\ exists acts ws n0, meaning l acts ws /\ length (n_words n) + length ws = 2 /\ take_actions acts n = inr n0 /\ n' = with_words ws n0).
  { intros l1 n1 ex1 Ec (-> & acts & ws & n0 & M & Hc & Ht & ->). split; [done|].
    destruct (positionals_split _ _ _ _ Ec) as (ws1 & -> & _ & Hm & _). rewrite take_actions_words in Ht. destruct (take_actions acts n) as [|n2] eqn:E2; [done|].
    injection Ht as <-. rewrite words_with, app_length, map_length in Hc.
    exists acts, (ws1 ++ ws), n2. split; [by apply Hm|]. split; [rewrite app_length; lia|]. split; [done|]. by rewrite with_words_app. }
  assert (Hw : forall l1 n1, consume_positionals l n = (l1, n1) -> length (n_words n1) <= 2).
  { intros l1 n1 Ec. destruct (positionals_split _ _ _ _ Ec) as (ws1 & -> & _ & _ & H2). rewrite words_with, app_length, map_length. by apply H2. }
  destruct (existsb is_option l) eqn:Eo.
  - destruct l as [|[s m] rest] eqn:El; [done|]. rewrite <- El in *. destruct m as [t| |].
    { rewrite El. apply Hopt. }
    all: destruct (consume_positionals l n) as [l1 n1] eqn:Ec; destruct (length l1 <? length l) eqn:Elt;
      [intros HR; eapply Hpos; [reflexivity|]; apply IH; [by eapply Hw|exact HR]|];
      destruct (to_option l) as [a l2] eqn:Ea; destruct l2 as [|[s2 [t2| |]] rest2]; try done;
      intros HR; apply Hopt in HR as [[-> ->]%app_nil _]; rewrite El in Ea; cbn in Ea; destruct (to_option rest); discriminate.
  - destruct (consume_positionals l n) as [l1 n1] eqn:Ec. pose proof (Hw _ _ eq_refl) as Hw1.
    destruct (n_words n1) as [|x [|y [|z r]]] eqn:En; try done. destruct (extras ++ List.map fst l1) eqn:Ee; [|done].
    intros [= <-]. apply app_nil in Ee as [-> El1]. destruct l1; [|done]. eapply Hpos; [done|]. split; [done|].
    exists [], [], n1. split; [constructor|]. rewrite En. split; [done|]. split; [done|]. by rewrite with_words_nil.
Qed.

(** ... and every command line of the grammar is accepted. *)
Lemma no_option_acts l acts ws : meaning l acts ws -> existsb is_option l = false -> acts = [].
Proof. induction 1; cbn; intros Ho; try done. apply IHmeaning. destruct (one_word_split _ _ _ H) as (_ & _ & E & _). by rewrite <- E. Qed.
Lemma positionals_complete l n acts ws : meaning l acts ws -> length (n_words n) + length ws = 2 -> 
  (exists s t rest, l = (s, Option t) :: rest) \/ 
  exists l1 ws1 ws2, ws = ws1 ++ ws2 /\ consume_positionals l n = (l1, with_words ws1 n) /\ meaning l1 acts ws2 /\ (l = [] \/ length l1 < length l)
      /\ (existsb is_option l = false -> l1 = [] /\ ws2 = []).
Proof.
  intros M Hc.
  assert (Hnil : forall l acts, meaning l acts [] -> existsb is_option l = false -> l = []).
  { clear. intros l acts M. inversion M; subst; try done. }
  inversion M as [|s t g l0 acts0 ws0|s t g o v l0 acts0 ws0|l0 a l1 acts0 ws0 E1 M1]; subst; [|by left; eauto..|].
  - right. exists [], [], []. unfold consume_positionals. cbn in *. rewrite Nat.add_0_r in Hc. rewrite with_words_nil.
    destruct (n_words n) as [|? [|]]; try done. repeat split; auto.
  - right. destruct (one_word_split _ _ _ E1) as (_ & L1 & O1 & _). cbn in Hc. unfold consume_positionals.
    destruct (n_words n) as [|x [|y r]]; [|exists l1, [a], ws0|cbn in Hc; lia].
    + rewrite E1. destruct (one_word l1) as [[b l2]|] eqn:E2.
      * destruct (meaning_word _ _ _ _ _ E2 M1) as (ws' & -> & M2). destruct (one_word_split _ _ _ E2) as (_ & L2 & O2 & _).
        destruct ws'; [|cbn in Hc; lia]. exists l2, [a; b], []. split; [done|]. split; [by rewrite <- !with_words_add, <- with_words_app|]. split; [done|]. split; [right; lia|].
        intros Ho. split; [|done]. eapply Hnil; [done|]. congruence.
      * exists l1, [a], ws0. split; [done|]. split; [by rewrite with_words_add|]. split; [done|]. split; [by right|].
        intros Ho. rewrite O1 in Ho. destruct M1; try done. congruence.
    + rewrite E1. split; [done|]. split; [by rewrite with_words_add|]. split; [done|]. split; [by right|].
      intros Ho. cbn in Hc. destruct ws0; [|cbn in Hc; lia]. split; [|done]. eapply Hnil; [done|]. congruence.
Qed.
Lemma rounds_complete fuel l n acts ws n0 : length l < fuel -> meaning l acts ws -> length (n_words n) + length ws = 2 -> take_actions acts n = inr n0 ->
  rounds fuel l n [] = Runs (with_words ws n0).
Proof.
  revert l n acts ws n0. induction fuel as [|fuel IH]; [lia|]. intros l n acts ws n0 Hl M Hc Ht. cbn [rounds].
  destruct (positionals_complete _ _ _ _ M Hc) as [(s & t & rest & ->)|(l1 & ws1 & ws2 & -> & Ec & M1 & Hlt & Hno)].
  - cbn [existsb is_option orb snd]. inversion M as [|s0 t0 g l0 acts0 ws0 Eg Eo Ex M0|s0 t0 g o v l0 acts0 ws0 Eg Eo Ex M0|l0 a l1 acts0 ws0 E1]; subst; [..|done].
    + unfold consume_optional. rewrite Eg, Eo, Ex. rewrite take_actions_app in Ht. destruct (take_actions (g_actions g) n) as [|n1] eqn:E1; [done|].
      cbn. eapply IH; try done; [cbn in Hl; lia|]. by rewrite (take_actions_keeps _ _ _ E1).
    + unfold consume_optional. rewrite Eg, Eo, Ex. rewrite take_actions_app in Ht. destruct (take_actions (g_actions g ++ _) n) as [|n1] eqn:E1; [done|].
      cbn. eapply IH; try done; [cbn in Hl; lia|]. by rewrite (take_actions_keeps _ _ _ E1).
  - rewrite Ec. destruct (existsb is_option l) eqn:Eo.
    + destruct l as [|[s m] rest]; [done|]. destruct Hlt as [|Hlt]; [done|]. apply Nat.ltb_lt in Hlt as Hlt'.
      destruct m as [t| |].
      { exfalso. inversion M1; cbn in Ec. all: unfold consume_positionals in Ec; cbn in Ec; destruct (n_words n) as [|? [|]]; injection Ec as <- _; cbn in Hlt; lia. }
      all: rewrite Hlt'; rewrite with_words_app; eapply IH; [lia|exact M1|rewrite words_with, app_length, map_length; rewrite app_length in Hc; lia|];
        rewrite take_actions_words, Ht; done.
    + destruct (Hno eq_refl) as [-> ->]. rewrite (no_option_acts _ _ _ M Eo) in Ht. cbn in Ht. injection Ht as <-. rewrite app_nil_r in *.
      rewrite words_with. assert (Hlen : length (n_words n ++ List.map word_value ws1) = 2) by (rewrite app_length, map_length; done).
      destruct (n_words n ++ List.map word_value ws1) as [|? [|? [|]]]; try discriminate. by rewrite app_nil_r.
Qed.

(** * From the arguments to the marks *)
Lemma marks_length digit argv l : marks digit argv = inr l -> length l = length argv.
Proof.
  revert l; induction argv as [|s r IH]; intros l; cbn; [by intros [= <-]|]. destruct (str_eqb s (lit "--")); [intros [= <-]; cbn; by rewrite map_length|].
  destruct (parse_optional digit s) as [|t]; [done|]. destruct (marks digit r) as [|l0]; [done|]. intros [= <-]. cbn. by rewrite (IH l0).
Qed.
Lemma marks_fst digit argv l : marks digit argv = inr l -> List.map fst l = argv.
Proof.
  revert l; induction argv as [|s r IH]; intros l; cbn; [by intros [= <-]|]. destruct (str_eqb s (lit "--")).
  - intros [= <-]. cbn. f_equal. rewrite List.map_map. apply List.map_id.
  - destruct (parse_optional digit s) as [|t]; [done|]. destruct (marks digit r) as [|l0]; [done|]. intros [= <-]. cbn. by rewrite (IH l0).
Qed.
Lemma parse_args_meaning digit argv n : parse_args digit argv = Runs n <->
  exists l acts ws n0, marks digit argv = inr l /\ meaning l acts ws /\ length ws = 2 /\ take_actions acts no_opts = inr n0 /\ n = with_words ws n0.
Proof.
  unfold parse_args. split.
  - destruct (marks digit argv) as [e|l] eqn:E.
    + intros ->. exfalso. revert E. clear. induction argv as [|s r IH]; cbn; [done|]. destruct (str_eqb s (lit "--")); [done|].
      destruct (parse_optional digit s) as [e|] eqn:Ep.
      * intros [= ->]. revert Ep. unfold parse_optional. destruct s as [|c s]; [done|]. destruct (negb _); [done|]. destruct (dget _ _); [done|]. destruct (_ =? _); [done|].
        destruct (partition_eq _) as [[p q] r0]. destruct (if q then _ else _); [done|]. destruct (option_tuples _) as [|? [|]]; try done.
        destruct (negative _ _); [done|]. by destruct (existsb _ _).
      * destruct (marks digit r); [|done]. intros [= ->]. by apply IH.
    + intros (_ & acts & ws & n0 & M & Hc & Ht & ->)%rounds_sound; [|cbn; lia]. by exists l, acts, ws, n0.
  - intros (l & acts & ws & n0 & El & M & Hc & Ht & ->). rewrite El. eapply rounds_complete; try done. rewrite (marks_length _ _ _ El). lia.
Qed.
