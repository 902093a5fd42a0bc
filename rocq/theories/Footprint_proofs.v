(** Operations run only certain commands: replacing the other programs makes no difference. *)
From Coq Require Import Lia ZifyBool ZifyN ZifyNat.
From stdpp Require Import gmap.
From Verif Require Import Base Utf8 Codec Spec_Codec Codec_proofs Paths Sys Spec_Sys Sys_proofs Dispatcher Client Spec_Session Session_proofs Spec_Remote Remote_safe Remote_proofs
  Remote_upload Direct Control Spec_Control Control_proofs Digits Control_settle Quiet Thrift Op Op_proofs Files Coreutils Walk_proofs Spec_Files Shell_proofs Files_plain Steps Dir_proofs Frugal System Spec_Footprint.

Section same.
  Variable exec exec' : proc -> M xres.
  Variable sha512 : bytes -> bytes.
  Variable may : list pystr -> Prop.
  Hypothesis agree : forall p s, may (p_argv p) -> exec p s = exec' p s.

  Definition sameM {A} (m m' : M A) : Prop := forall s, m s = m' s.
  Definition sameC {A} (m m' : C A) : Prop := forall v, m v = m' v.
  Definition sameW {A} (m m' : W A) : Prop := forall c, m c = m' c.
  Definition sameO {A} (m m' : O A) : Prop := forall o, sameW (m o) (m' o).

  (** ** the dispatcher *)
  Lemma same_spawn argv stdin umask uid gid cwd : may argv -> sameM (spawn exec argv stdin umask uid gid cwd) (spawn exec' argv stdin umask uid gid cwd).
  Proof.
    intros Hm s. unfold spawn. cbv [mbind M_bind bindM getM]. destruct argv as [|w ws]; [reflexivity|]. destruct (existsb _ _); [reflexivity|].
    destruct ((match cwd with None => pure (o_cwd s) | Some p => sys_chdir (o_cwd s) p end) s) as [[cwd1|e] s1]; [|reflexivity].
    destruct (in_child (preexec (w :: ws) stdin umask uid gid cwd cwd1) s1) as [[p|e] s2] eqn:E; [|reflexivity].
    apply preexec_argv in E. rewrite (agree p s2) by (rewrite E; exact Hm). reflexivity.
  Qed.
  Lemma same_validated {A} f (o : option pystr) (g : os -> pystr -> result A) (k k' : option A -> M reply) : (forall a, sameM (k a) (k' a)) ->
    sameM (validated_opt f o g k) (validated_opt f o g k').
  Proof. intros H s. destruct o as [v|]; cbn [validated_opt]; [|apply H]. unfold validated. destruct (g s v) as [a|e]; [apply H|reflexivity]. Qed.
  Lemma same_run command stdin capture user group umask cwd : may command ->
    sameM (handle_run exec command stdin capture user group umask cwd) (handle_run exec' command stdin capture user group umask cwd).
  Proof.
    intros Hm. unfold handle_run. apply same_validated; intros m. apply same_validated; intros ug. apply same_validated; intros g.
    intros s. cbv [mbind M_bind bindM]. destruct ((match cwd with None => pure false | Some p => _ end) s) as [[[]|e] s1]; [reflexivity| |reflexivity].
    rewrite same_spawn by exact Hm. reflexivity.
  Qed.
  Definition allowed (p : packet) : Prop := match p with PProcessRun c _ _ _ _ _ _ => may c | _ => True end.
  Lemma same_handle p : allowed p -> sameM (handle exec sha512 p) (handle exec' sha512 p).
  Proof. intros H. destruct p; try (intros s; reflexivity). cbn [handle allowed] in *. apply same_run, H. Qed.
  (** ** the connection *)
  Lemma same_held p s : allowed p -> request_held exec sha512 p s = request_held exec' sha512 p s.
  Proof. intros H. unfold request_held. rewrite same_handle by exact H. reflexivity. Qed.
  Lemma same_request p : allowed p -> sameC (request exec sha512 p) (request exec' sha512 p).
  Proof. intros H v. unfold request. destruct (r_link v); rewrite ?same_held by exact H; reflexivity. Qed.
  Lemma sameC_bind {A B} (m m' : C A) (f f' : A -> C B) : sameC m m' -> (forall a, sameC (f a) (f' a)) -> sameC (m ≫= f) (m' ≫= f').
  Proof. intros H1 H2 v. cbv [mbind C_bind]. rewrite H1. destruct (m' v) as [[a|e] v']; [apply H2|reflexivity]. Qed.
  Ltac req := apply sameC_bind; [apply same_request; exact I|intros; intros ?; reflexivity].
  Lemma same_conn_run command input capture check user group umask cwd : may command ->
    sameC (conn_run exec sha512 command input capture check user group umask cwd) (conn_run exec' sha512 command input capture check user group umask cwd).
  Proof. intros H. unfold conn_run. apply sameC_bind; [apply same_request, H|intros; intros ?; reflexivity]. Qed.
  Lemma same_conn_stat p f h : sameC (conn_stat exec sha512 p f h) (conn_stat exec' sha512 p f h).
  Proof. intros v. unfold conn_stat. rewrite same_request by exact I. reflexivity. Qed.
  Lemma same_conn_resolve_user u : sameC (conn_resolve_user exec sha512 u) (conn_resolve_user exec' sha512 u). Proof. req. Qed.
  Lemma same_conn_resolve_group u : sameC (conn_resolve_group exec sha512 u) (conn_resolve_group exec' sha512 u). Proof. req. Qed.
  Lemma same_conn_query_user u h : sameC (conn_query_user exec sha512 u h) (conn_query_user exec' sha512 u h). Proof. req. Qed.
  Lemma same_conn_query_group u : sameC (conn_query_group exec sha512 u) (conn_query_group exec' sha512 u). Proof. req. Qed.
  Lemma same_conn_upload f c m o g : sameC (conn_upload exec sha512 f c m o g) (conn_upload exec' sha512 f c m o g). Proof. req. Qed.
  Lemma same_conn_download f : sameC (conn_download exec sha512 f) (conn_download exec' sha512 f). Proof. req. Qed.
  (** ** the process *)
  Lemma sameW_refl {A} (m : W A) : sameW m m. Proof. intros c. reflexivity. Qed.
  Lemma sameW_bind {A B} (m m' : W A) (f f' : A -> W B) : sameW m m' -> (forall a, sameW (f a) (f' a)) -> sameW (m ≫= f) (m' ≫= f').
  Proof. intros H1 H2 c. cbv [mbind W_bind]. rewrite H1. destruct (m' c) as [[a|e] c']; [apply H2|reflexivity]. Qed.
  Lemma same_via {A} (m m' : C A) : sameC m m' -> sameW (via m) (via m').
  Proof. intros H c. unfold via. rewrite H. reflexivity. Qed.
  Lemma same_wtry {A} (m m' : W A) h : sameW m m' -> sameW (wtry m h) (wtry m' h).
  Proof. intros H c. unfold wtry. rewrite H. reflexivity. Qed.
  Lemma same_wfinally {A} (m m' : W A) f : sameW m m' -> sameW (wfinally m f) (wfinally m' f).
  Proof. intros H c. unfold wfinally. rewrite H. reflexivity. Qed.
  Lemma same_or_default {A} (m m' : W A) d : sameW m m' -> sameW (or_default m d) (or_default m' d).
  Proof. intros H. apply same_wtry, sameW_bind; [exact H|intros a; apply sameW_refl]. Qed.
  Lemma same_stat p f h : sameW (stat exec sha512 p f h) (stat exec' sha512 p f h). Proof. apply same_via, same_conn_stat. Qed.
  Lemma same_upload f c m o g : sameW (upload exec sha512 f c m o g) (upload exec' sha512 f c m o g). Proof. apply same_via, same_conn_upload. Qed.
  Lemma same_download f : sameW (download exec sha512 f) (download exec' sha512 f). Proof. apply same_via, same_conn_download. Qed.
  Lemma same_download_or f d : sameW (download_or exec sha512 f d) (download_or exec' sha512 f d). Proof. apply same_or_default, same_download. Qed.
  Lemma same_query_user u h d : sameW (query_user exec sha512 u h d) (query_user exec' sha512 u h d). Proof. apply same_or_default, same_via, same_conn_query_user. Qed.
  Lemma same_query_group u d : sameW (query_group exec sha512 u d) (query_group exec' sha512 u d). Proof. apply same_or_default, same_via, same_conn_query_group. Qed.
  Lemma same_wrun command input capture check user group umask cwd : may command ->
    sameW (run exec sha512 command input capture check user group umask cwd) (run exec' sha512 command input capture check user group umask cwd).
  Proof. intros H. unfold run. apply sameW_bind; [apply sameW_refl|intros d]. apply same_via, same_conn_run, H. Qed.
  Lemma same_crun command : may command -> sameW (crun exec sha512 command) (crun exec' sha512 command). Proof. intros H. apply same_wrun, H. Qed.
  Lemma same_sh command : may command -> sameW (sh exec sha512 command) (sh exec' sha512 command).
  Proof. intros H. unfold sh. apply sameW_bind; [apply same_crun, H|intros; apply sameW_refl]. Qed.
  Lemma same_arg (o : option pystr) f f' : (forall x, o = Some x -> sameW (f x) (f' x)) -> sameW (arg o f) (arg o f').
  Proof. intros H. unfold arg. destruct o; [|apply sameW_refl]. apply sameW_bind; [apply H; reflexivity|intros; apply sameW_refl]. Qed.
  Lemma same_resolved (f f' : option pystr -> W pystr) o : (forall x, sameW (f x) (f' x)) -> sameW (resolved f o) (resolved f' o).
  Proof. intros H. unfold resolved. destruct o; [|apply sameW_refl]. apply sameW_bind; [apply H|intros; apply sameW_refl]. Qed.
  Lemma same_resolve_defaults q : sameW (resolve_defaults exec sha512 q) (resolve_defaults exec' sha512 q).
  Proof.
    unfold resolve_defaults. apply sameW_bind; [apply sameW_refl|intros c]. destruct (c_script c); [|apply sameW_refl].
    apply sameW_bind; [apply sameW_refl|intros cur]. cbv zeta.
    apply sameW_bind; [apply same_resolved; intros x; apply same_via, same_conn_resolve_user|intros u].
    apply sameW_bind; [apply same_resolved; intros x; apply same_via, same_conn_resolve_group|intros g].
    apply sameW_bind; [apply same_resolved; intros x; apply same_via, same_conn_resolve_user|intros ow].
    apply sameW_bind; [apply same_resolved; intros x; apply same_via, same_conn_resolve_group|intros gr].
    apply sameW_bind; [apply sameW_refl|intros _]. apply sameW_bind; [apply sameW_refl|intros _]. apply sameW_bind; [apply sameW_refl|intros _].
    apply sameW_bind; [|intros _; apply sameW_refl]. destruct (s_cwd (overlay cur q)) as [[|x d]|]; [apply sameW_refl| |apply sameW_refl].
    apply sameW_bind; [apply same_stat|intros st; apply sameW_refl].
  Qed.
  (** what a mode that was asked for looks like to the body *)
  Definition mode_given (want got : option pystr) : Prop := forall m x, want = Some m -> got = Some x -> dashed x = false.
  Definition modes_given (q a : settings) : Prop := mode_given (s_file_mode q) (s_file_mode a) /\ mode_given (s_dir_mode q) (s_dir_mode a).
  Lemma digits_dashed s : Forall (fun d => is_digit 8 d) s -> dashed s = false.
  Proof. intros H. destruct s as [|x [|y s]]; [reflexivity|reflexivity|]. apply Forall_cons_1 in H as [H _]. unfold is_digit in H. cbn [dashed]. lia. Qed.
  Lemma oct_dashed z : dashed (oct_tail z) = false.
  Proof.
    destruct z as [|p|p]; [reflexivity| |].
    - change (oct_tail (Z.pos p)) with (show_N 8 (N.pos p)). apply digits_dashed. apply (show_spec 8 (N.pos p)). lia.
    - change (oct_tail (Z.neg p)) with (111%N :: show_N 8 (N.pos p)). destruct (show_N 8 (N.pos p)); reflexivity.
  Qed.
  Lemma sameW_bind_val {A B} (P : A -> Prop) (m m' : W A) (f f' : A -> W B) : (forall c a c', m c = (Ok a, c') -> P a) -> sameW m m' ->
    (forall a, P a -> sameW (f a) (f' a)) -> sameW (m ≫= f) (m' ≫= f').
  Proof. intros HP H1 H2 c. cbv [mbind W_bind]. rewrite <- H1. destruct (m c) as [[a|e] c'] eqn:E; [exact (H2 a (HP _ _ _ E) c')|reflexivity]. Qed.
  Definition canonical (want got : option pystr) : Prop := forall m, want = Some m -> exists z, got = Some (oct_tail z).
  Definition canonicals (q a : settings) : Prop := canonical (s_file_mode q) (s_file_mode a) /\ canonical (s_dir_mode q) (s_dir_mode a).
  Lemma canonicalize_ok m x : canonicalize_mode m = Ok x -> canonical m x /\ forall b, canonical m (match x with Some _ => x | None => b end).
  Proof.
    destruct m as [m|]; [|split; [|intros b]; intros m; discriminate]. cbn. destruct (py_int 8 m) as [z|]; [|discriminate]. intros [= <-]. split; [|intros b]; intros m' _; eauto.
  Qed.
  Lemma defaults_canonical i q c a c' : defaults i q c = (Ok a, c') -> canonicals q a.
  Proof.
    unfold defaults. intros H.
    apply bind_spec in H as [(fm & c1 & E1 & H)|(e & _ & [=])]. apply bind_spec in H as [(dm & c2 & E2 & H)|(e & _ & [=])]. apply bind_spec in H as [(um & c3 & _ & H)|(e & _ & [=])].
    apply bind_spec in H as [(cc & c4 & _ & H)|(e & _ & [=])]. apply bind_spec in H as [(cur & c5 & _ & H)|(e & _ & [=])]. injection H as <- _.
    unfold liftW in E1, E2. injection E1 as E1 _. injection E2 as E2 _. apply canonicalize_ok in E1 as [E1 _]. apply canonicalize_ok in E2 as [E2 _].
    split; [intros m Hm; destruct (E1 m Hm) as [z ->]|intros m Hm; destruct (E2 m Hm) as [z ->]]; exists z; reflexivity.
  Qed.
  Lemma enter_canonical i q new c a c' : canonicals q new -> enter_defaults exec sha512 i new c = (Ok a, c') -> modes_given q a.
  Proof.
    intros [K1 K2] H. unfold enter_defaults in H. apply bind_spec in H as [(d & c1 & E1 & H)|(e & _ & [=])].
    apply bind_spec in H as [(u & c2 & _ & H)|(e & _ & [=])]. apply bind_spec in H as [(cc & c3 & _ & H)|(e & _ & [=])]. injection H as <- _.
    apply resolve_defaults_ok in E1 as (cur & _ & _ & _ & _ & _ & F & D & _).
    split; [intros m x Hm Hx; destruct (K1 m Hm) as [z Hz]; cbn in Hx, F; rewrite F in Hx|intros m x Hm Hx; destruct (K2 m Hm) as [z Hz]; cbn in Hx, D; rewrite D in Hx];
      rewrite Hz in Hx; cbn in Hx; injection Hx as <-; apply oct_dashed.
  Qed.
  Lemma same_script_defaults {A} q (body body' : settings -> W A) : (forall a, modes_given q a -> sameW (body a) (body' a)) ->
    sameW (script_defaults exec sha512 q body) (script_defaults exec' sha512 q body').
  Proof.
    intros H c. unfold script_defaults. destruct (c_script c) as [i|]; [|reflexivity]. revert c. change (sameW (with_defaults exec sha512 i q body) (with_defaults exec' sha512 i q body')).
    unfold with_defaults. apply (sameW_bind_val (canonicals q)); [apply defaults_canonical|apply sameW_refl|intros new Hn].
    apply (sameW_bind_val (modes_given q)); [intros c a c'; apply enter_canonical, Hn| |intros d Hd; apply same_wfinally, H, Hd].
    unfold enter_defaults. apply sameW_bind; [apply same_resolve_defaults|intros; apply sameW_refl].
  Qed.
  (** ** operations *)
  Lemma sameO_refl {A} (m : O A) : sameO m m. Proof. intros o c. reflexivity. Qed.
  Lemma sameO_bind {A B} (m m' : O A) (f f' : A -> O B) : sameO m m' -> (forall a, sameO (f a) (f' a)) -> sameO (m ≫= f) (m' ≫= f').
  Proof. intros H1 H2 o. cbv [mbind O_bind]. apply sameW_bind; [apply H1|intros [a o']; apply H2]. Qed.
  Lemma same_olift {A} (m m' : W A) : sameW m m' -> sameO (olift m) (olift m').
  Proof. intros H o. apply sameW_bind; [exact H|intros; apply sameW_refl]. Qed.
  Lemma same_op_defaults {A} q (body body' : settings -> O A) : (forall a, modes_given q a -> sameO (body a) (body' a)) ->
    sameO (op_defaults exec sha512 q body) (op_defaults exec' sha512 q body').
  Proof. intros H o. unfold op_defaults. apply same_script_defaults. intros a Ha. apply H, Ha. Qed.
  Lemma same_when b (m m' : W unit) : sameW m m' -> sameO (when b m) (when b m').
  Proof. intros H. unfold when. apply sameO_bind; [apply sameO_refl|intros []; [apply same_olift, H|apply sameO_refl]]. Qed.
  Lemma same_when_some {A} b (x : option A) (m m' : A -> W unit) : (forall a, x = Some a -> sameW (m a) (m' a)) -> sameO (when_some b x m) (when_some b x m').
  Proof. intros H. unfold when_some. apply sameO_bind; [apply sameO_refl|intros e]. destruct x as [a|]; [|apply sameO_refl]. destruct e; [apply same_olift, H; reflexivity|apply sameO_refl]. Qed.
  Lemma same_absolute {A} path (k k' : unit -> O A) : (head path = Some slash -> forall u, sameO (k u) (k' u)) ->
    sameO (olift (check_absolute_path path) ≫= k) (olift (check_absolute_path path) ≫= k').
  Proof.
    intros H. destruct path as [|x path]; [intros o c; reflexivity|]. cbn [check_absolute_path]. destruct (x =? slash)%N eqn:E; [|intros o c; reflexivity].
    apply N.eqb_eq in E as ->. apply sameO_bind; [apply sameO_refl|apply H; reflexivity].
  Qed.
  Lemma same_operation a (f f' : O opres) : sameO f f' -> sameW (operation a f) (operation a f').
  Proof. intros H. unfold operation. apply sameW_bind; [apply H|intros; apply sameW_refl]. Qed.
End same.

Ltac same := repeat first
  [ match goal with |- sameO ?m ?m => apply sameO_refl | |- sameW ?m ?m => apply sameW_refl end
  | eapply same_sh; [eassumption|]
  | eapply same_crun; [eassumption|]
  | eapply same_stat; eassumption | eapply same_upload; eassumption | eapply same_download; eassumption | eapply same_download_or; eassumption
  | eapply same_query_user; eassumption | eapply same_query_group; eassumption
  | apply same_absolute; intros ? ?
  | match goal with |- sameO (op_defaults _ _ _ _) _ => eapply same_op_defaults; [eassumption|intros ?attr ?Hattr] end
  | match goal with |- sameO (when _ _) _ => apply same_when end
  | match goal with |- sameO (when_some _ _ _) _ => apply same_when_some; intros ? ? end
  | match goal with |- sameO (olift _) _ => apply same_olift end
  | match goal with |- sameW (arg _ _) _ => apply same_arg; intros ? ? end
  | match goal with |- sameO (_ ≫= _) _ => apply sameO_bind; [|intros ?] | |- sameW (_ ≫= _) _ => apply sameW_bind; [|intros ?] end
  | progress cbv zeta
  | match goal with |- sameO (match ?x with _ => _ end) _ => destruct x eqn:? | |- sameW (match ?x with _ => _ end) _ => destruct x eqn:? end ].

(** ** Reading arguments *)
Lemma reads_end l : reads (lit "--" :: l) = ([], l). Proof. reflexivity. Qed.
Lemma reads_word w l : dashed w = false -> reads (w :: l) = ((reads l).1, w :: (reads l).2).
Proof.
  intros H. cbn [reads]. destruct (str_eqb_spec w (lit "--")) as [->|_]; [discriminate|]. rewrite H. destruct (reads l). reflexivity.
Qed.
Lemma slash_word w : head w = Some slash -> dashed w = false.
Proof. destruct w as [|x w]; [discriminate|]. intros [= ->]. destruct w; reflexivity. Qed.
Lemma reads_flag w l : dashed w = true -> valued w = false -> w <> lit "--" -> reads (w :: l) = ((w, None) :: (reads l).1, (reads l).2).
Proof.
  intros H1 H2 H3. cbn [reads]. destruct (str_eqb_spec w (lit "--")) as [->|_]; [contradiction|]. rewrite H1, H2. destruct (reads l). reflexivity.
Qed.
Lemma reads_value w v l : dashed w = true -> valued w = true -> reads (w :: v :: l) = ((w, Some v) :: (reads l).1, (reads l).2).
Proof.
  intros H1 H2. cbn [reads]. destruct (str_eqb_spec w (lit "--")) as [->|_]; [vm_compute in H2; discriminate|]. rewrite H1, H2. destruct (reads l). reflexivity.
Qed.
Lemma reads_flags opts l : Forall alone opts -> reads (opts ++ l) = (flags opts ++ (reads l).1, (reads l).2).
Proof.
  induction 1 as [|o opts (H1 & H2 & H3) _ IH]; cbn [app flags List.map]; [destruct (reads l); reflexivity|].
  rewrite reads_flag by assumption. rewrite IH. reflexivity.
Qed.
(** an option or a word that is written out *)
Ltac reading := repeat first
  [ rewrite reads_end
  | match goal with
    | |- context [reads (lit ?w :: ?r)] =>
        first [ rewrite (reads_word (lit w) r) by reflexivity
              | rewrite (reads_flag (lit w) r) by first [reflexivity|discriminate]
              | match r with ?v :: ?r' => rewrite (reads_value (lit w) v r') by reflexivity end ]
    | H : head ?w = Some slash |- context [reads (?w :: ?r)] => rewrite (reads_word w r) by (apply slash_word, H)
    | H : dashed ?w = false |- context [reads (?w :: ?r)] => rewrite (reads_word w r) by exact H
    end ]; try reflexivity.
Ltac called := eexists; split; [reflexivity|reading].
Lemma sets_one program opts path x : Forall (fun o => alone (lit o)) opts -> head path = Some slash -> sets program opts path (lit program :: List.map lit opts ++ [x; lit "--"; path]).
Proof.
  intros Ho Hp. exists x. destruct (dashed x) eqn:E; [reflexivity|]. eexists; split; [reflexivity|].
  rewrite reads_flags by (apply Forall_map; exact Ho). rewrite reads_word by exact E. rewrite reads_end. cbn [fst snd app]. f_equal.
  rewrite app_nil_r. unfold flags. rewrite List.map_map. reflexivity.
Qed.
(** ** Destinations *)
Lemma split_char_parts c s : Forall (fun x => c ∉ x) (split_char c s).
Proof.
  induction s as [|d s IH]; cbn [split_char].
  - constructor; [apply not_elem_of_nil|constructor].
  - destruct (N.eqb_spec d c) as [->|Hd]; [constructor; [apply not_elem_of_nil|exact IH]|].
    destruct (split_char c s) as [|x l]; [constructor; [|constructor]|].
    + apply not_elem_of_cons. split; [congruence|apply not_elem_of_nil].
    + apply Forall_cons in IH as [H1 H2]. constructor; [|exact H2]. apply not_elem_of_cons. split; [congruence|exact H1].
Qed.
Lemma into_dir_lands src dest : lands dest (into_dir src dest).
Proof.
  unfold into_dir. destruct (endswith dest (lit "/")) eqn:E; [|left; reflexivity].
  assert (Hb : slash ∉ py_basename src).
  { unfold py_basename. destruct (last (split_char slash src)) as [x|] eqn:El; cbn [default]; [|apply not_elem_of_nil].
    assert (H := split_char_parts slash src). rewrite Forall_forall in H. apply H. apply last_Some in El as [l ->]. apply elem_of_app. right. left. }
  assert (Hd : last dest = Some slash).
  { unfold endswith in E. change (rev (lit "/")) with [slash] in E. destruct dest as [|y l _] using rev_ind; [discriminate|].
    rewrite rev_app_distr in E. cbn [rev app startswith] in E. rewrite last_snoc. destruct (N.eqb_spec slash y) as [<-|N]; [reflexivity|].
    destruct (N.eqb_spec y slash) as [->|N2]; [reflexivity|]. exfalso. revert E. cbn. try rewrite N.eqb_sym. destruct (N.eqb_spec y slash); [contradiction|discriminate]. }
  right. exists (py_basename src). split; [exact Hb|]. split; [exact Hd|].
  unfold path_join. assert (Ha : isabs (py_basename src) = false).
  { unfold isabs. change (lit "/") with [slash]. destruct (py_basename src) as [|y l]; [reflexivity|]. cbn [startswith].
    destruct (N.eqb_spec slash y) as [<-|N]; [destruct Hb; left|reflexivity]. }
  rewrite Ha. destruct dest; [discriminate|]. rewrite E. reflexivity.
Qed.
Lemma lands_absolute dest d : lands dest d -> head dest = Some slash -> head d = Some slash.
Proof. intros [->|(n & _ & _ & ->)] H; [exact H|]. destruct dest; [discriminate|exact H]. Qed.
(** ** Options put together from parts *)
Definition part (P : pystr * option pystr -> Prop) (l : list pystr) : Prop :=
  exists o, Forall P o /\ forall r, reads (l ++ r) = (o ++ (reads r).1, (reads r).2).
Lemma part_nil P : part P []. Proof. exists []. split; [constructor|intros r; cbn [app]; destruct (reads r); reflexivity]. Qed.
Lemma part_app P l l' : part P l -> part P l' -> part P (l ++ l').
Proof.
  intros (o & H1 & H2) (o' & H3 & H4). exists (o ++ o'). split; [apply Forall_app; auto|]. intros r. rewrite <- app_assoc, H2, H4. cbn [fst snd]. rewrite app_assoc. reflexivity.
Qed.
Lemma part_flag (P : pystr * option pystr -> Prop) w : dashed w = true -> valued w = false -> w <> lit "--" -> P (w, None) -> part P [w].
Proof. intros H1 H2 H3 H. exists [(w, None)]. split; [constructor; [exact H|constructor]|]. intros r. cbn [app]. apply reads_flag; assumption. Qed.
Lemma part_value (P : pystr * option pystr -> Prop) w v : dashed w = true -> valued w = true -> P (w, Some v) -> part P [w; v].
Proof. intros H1 H2 H. exists [(w, Some v)]. split; [constructor; [exact H|constructor]|]. intros r. cbn [app]. apply reads_value; assumption. Qed.
Lemma part_end P l x : part P l -> exists o, Forall P o /\ reads (l ++ lit "--" :: x) = (o, x).
Proof. intros (o & H1 & H2). exists o. split; [exact H1|]. rewrite H2, reads_end. cbn [fst snd]. rewrite app_nil_r. reflexivity. Qed.
Lemma part_last P l : part P l -> exists o, Forall P o /\ reads l = (o, []).
Proof. intros (o & H1 & H2). exists o. split; [exact H1|]. specialize (H2 []). rewrite app_nil_r in H2. rewrite H2. cbn [reads fst snd]. rewrite app_nil_r. reflexivity. Qed.
Ltac opt_flag := apply part_flag; [reflexivity|reflexivity|discriminate|].
Ltac opt_value := apply part_value; [reflexivity|reflexivity|].
Lemma same_such {A B} (P : A -> Prop) (m m' : W A) (f f' : A -> O B) : (forall c, m c = m' c /\ forall a c', m c = (Ok a, c') -> P a) ->
  (forall a, P a -> sameO (f a) (f' a)) -> sameO (olift m ≫= f) (olift m' ≫= f').
Proof.
  intros H1 H2 o c. cbv [mbind O_bind olift W_bind]. destruct (H1 c) as [<- H]. destruct (m c) as [[a|e] c']; [|reflexivity].
  cbn [mret W_ret fst snd]. exact (H2 a (H a c' eq_refl) o c').
Qed.
Lemma same_raise {A B} e (f f' : A -> O B) : sameO (oraise e ≫= f) (oraise e ≫= f'). Proof. intros o c. reflexivity. Qed.
(** [find_command]: which of the registered functions is used *)
Lemma same_manager exec exec' sha512 (may : list pystr -> Prop) (l l' : list (pystr * W opres)) e : (forall p s, may (p_argv p) -> exec p s = exec' p s) ->
  may [lit "bash"; lit "-c"; probe_script l.*1] -> Forall2 (fun a b => a.1 = b.1 /\ sameW a.2 b.2) l l' ->
  sameW (with_manager exec sha512 l e) (with_manager exec' sha512 l' e).
Proof.
  intros agree Hmay Hl. assert (Hk : l.*1 = l'.*1) by (clear Hmay; induction Hl as [|x y l l' [H _] _ IH]; [reflexivity|cbn [fmap list_fmap]; f_equal; assumption]).
  unfold with_manager, find_command. intros c. cbv [mbind W_bind]. rewrite <- Hk.
  rewrite (same_crun exec exec' sha512 may agree _ Hmay).
  match goal with |- context [crun exec' sha512 ?cmd c] => destruct (crun exec' sha512 cmd c) as [[r|x] c1] end; [|reflexivity].
  cbn [mret W_ret]. generalize (out_ignore r). intros k. clear -Hl. induction Hl as [|x y l l' [H1 H2] _ IH]; [reflexivity|].
  destruct x as [kx x], y as [ky y]. cbn [fst snd] in *. subst ky. unfold dget; fold (@dget (W opres)). destruct (str_eqb k kx); [apply H2|exact IH].
Qed.
