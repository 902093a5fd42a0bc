(** Lemmas about uploads, commands, names and stat. *)
From Coq Require Import Lia ZifyBool ZifyN ZifyNat.
From stdpp Require Import gmap.
From Verif Require Import Base Utf8 Utf8_proofs Codec Spec_Codec Codec_proofs Codec_proofs2 Paths Sys Spec_Sys Sys_proofs Dispatcher Client
  Spec_Session Session_proofs Spec_Remote Remote_safe.

Section proofs.
  Variable exec : proc -> M xres.
  Variable sha512 : bytes -> bytes.
  Notation handle := (handle exec sha512).
  Notation request := (request exec sha512).

  (** ** One request *)
  Lemma request_reply q s r s' : encodable q -> handle q s = (Ok (Reply [] r), s') -> packet_ok r ->
    request q (Remote s Up) = (deliver (Some q) r, Remote s' Up).
  Proof.
    intros [b Hb] Hh [b' Hb']%packet_ok_write. unfold Client.request. cbn [r_link r_os]. unfold request_held. rewrite Hb, Hh, Hb'. reflexivity.
  Qed.
  Lemma request_oserr q s n a b s' : encodable q -> handle q s = (Err (OSErr n a b), s') -> packet_ok (POSError n a b) ->
    request q (Remote s Up) = (Err (RemoteOSError n a b), Remote s' Up).
  Proof.
    intros [b0 Hb] Hh [b' Hb']%packet_ok_write. unfold Client.request. cbn [r_link r_os]. unfold request_held. rewrite Hb, Hh, Hb'. reflexivity.
  Qed.
  Lemma request_invalid q s f m s' : encodable q -> handle q s = (Ok (Reply [] (PInvalidField (lit f) m)), s') ->
    packet_ok (PInvalidField (lit f) m) -> str_in (lit f) (field_names q) = true ->
    exists msg, request q (Remote s Up) = (Err (ValueError msg), Remote s' Up).
  Proof.
    intros H1 H2 H3 H4. rewrite (request_reply _ _ _ _ H1 H2 H3). cbn [deliver].
    unfold has_attr. rewrite H4, orb_true_r. eauto.
  Qed.
  (** the state afterwards is the one the handler left *)
  Lemma request_state q s x v' : encodable q -> request q (Remote s Up) = (x, v') -> r_os v' = (handle q s).2.
  Proof.
    intros [b Hb] E. unfold Client.request in E. cbn [r_link r_os] in E. unfold request_held in E. rewrite Hb in E.
    destruct (handle q s) as [[[raw r| |]|e] s']; cbn [snd].
    - destruct (write_packet r) as [b' [e|]], raw; injection E as _ <-; reflexivity.
    - injection E as _ <-. reflexivity.
    - injection E as _ <-. reflexivity.
    - destruct e; try (injection E as _ <-; reflexivity).
      destruct (write_packet (POSError errno strerror msg)) as [b' [e|]]; injection E as _ <-; reflexivity.
  Qed.
  (** a connection that is being lost behaves as one that holds, or ends with the error *)
  Lemma request_as_up q s l x v' : request q (Remote s l) = (x, v') ->
    (r_os v' = s /\ exists e, x = Err e /\ (e = eof \/ ~ encodable q)) \/
    exists x0 v0, request q (Remote s Up) = (x0, v0) /\ r_os v' = r_os v0 /\ (x = x0 \/ x = Err eof) /\ encodable q.
  Proof.
    unfold Client.request. cbn [r_link r_os]. destruct l as [| | |k late].
    - destruct (write_packet q) as [b [e|]] eqn:Ew.
      + unfold request_held. rewrite Ew. intros [= <- <-]. left. split; [reflexivity|exists e]. split; [reflexivity|right; intros [b' Hb]; congruence].
      + intros E. right. exists x, v'. split; [exact E|]. split; [reflexivity|]. split; [left; reflexivity|exists b; exact Ew].
    - intros [= <- <-]. left. split; [reflexivity|exists eof; auto].
    - intros [= <- <-]. left. split; [reflexivity|exists eof; auto].
    - destruct (write_packet q) as [b [e|]] eqn:Ew; [intros [= <- <-]; left; split; [reflexivity|exists e; split; [reflexivity|right; intros [b' Hb]; congruence]]|].
      assert (He : encodable q) by (exists b; exact Ew). destruct (Client.request_held exec sha512 q s) as [x0 v0] eqn:E0. destruct k as [|k].
      + intros [= <- <-]. destruct late; [right; exists x0, v0; auto|left; split; [reflexivity|exists eof; auto]].
      + intros [= <- <-]. right. exists x0, v0. auto.
  Qed.
  Lemma request_ok q s r v' : good_request q -> request q (Remote s Up) = (Ok r, v') ->
    handle q s = (Ok (Reply [] r), r_os v') /\ r_link v' = Up.
  Proof.
    intros Hq E. destruct (step_direct exec sha512 (Remote s Up) q (Ok r) v' (or_introl eq_refl) Hq E) as [Hc _].
    cbn in Hc. inversion Hc as [? ? r' ? ? Hh Henc Hr| | | | | | |]; subst.
    assert (r_link v' = Up) by (destruct (r_link v'); cbn in *; congruence).
    split; [|assumption]. inversion Hr; subst. exact Hh.
  Qed.

  (** ** Invalid fields *)
  Lemma resolve_oct_bad m : not_octal m -> exists msg, resolve_oct m = Err (ValueError msg).
  Proof. unfold not_octal, resolve_oct. intros ->. eexists. reflexivity. Qed.
  Lemma resolve_user_bad s u : no_user s u -> exists msg, resolve_user_id s u = Err (ValueError msg).
  Proof.
    intros H. destruct (resolve_user_id s u) as [[a b]|e] eqn:E.
    - exfalso. destruct H as [H|H].
      + unfold resolve_user_id in E. cbn in E. unfold getpwnam in E. destruct (has_char_spec nul u); [discriminate|contradiction].
      + apply resolve_user_id_in in E as (a' & Ha & _). exact (H a' Ha).
    - unfold resolve_user_id in E. cbn in E. destruct (getpwnam s u) as [a|e1] eqn:E1; [discriminate|].
      apply getpwnam_err in E1 as [(_ & m & ->)|(_ & -> & _)]; [injection E as <-; eauto|].
      destruct (py_int 10 u); [|injection E as <-; eauto].
      destruct (getpwuid s z) as [a|e2] eqn:E2; [discriminate|]. apply getpwuid_err in E2 as [-> _]. injection E as <-. eauto.
  Qed.
  Lemma resolve_group_bad s u : no_group s u -> exists msg, resolve_group_id s u = Err (ValueError msg).
  Proof.
    intros H. destruct (resolve_group_id s u) as [a|e] eqn:E.
    - exfalso. destruct H as [H|H].
      + unfold resolve_group_id in E. cbn in E. unfold getgrnam in E. destruct (has_char_spec nul u); [discriminate|contradiction].
      + apply resolve_group_id_in in E as (a' & Ha & _). exact (H a' Ha).
    - unfold resolve_group_id in E. cbn in E. destruct (getgrnam s u) as [a|e1] eqn:E1; [discriminate|].
      apply getgrnam_err in E1 as [(_ & m & ->)|(_ & -> & _)]; [injection E as <-; eauto|].
      destruct (py_int 10 u); [|injection E as <-; eauto].
      destruct (getgrgid s z) as [a|e2] eqn:E2; [discriminate|]. apply getgrgid_err in E2 as [-> _]. injection E as <-. eauto.
  Qed.

  (** an answer that rejects a field, leaving the state alone *)
  Definition rejects (fields : list string) (s : os) (x : result reply * os) : Prop :=
    exists f m, f ∈ fields /\ x = (Ok (Reply [] (PInvalidField (lit f) m)), s) /\ str_ok m.

  Lemma validated_bad {A} f fields o (g : os -> pystr -> result A) k s :
    f ∈ fields -> opt_ok short o ->
    (forall v e, g s v = Err e -> short v -> exists m, e = ValueError m /\ str_ok m) ->
    (forall v e, o = Some v -> g s v = Err e -> rejects fields s (validated_opt f o g k s)).
  Proof.
    intros Hf Ho Hg v e -> E. cbn [validated_opt]. unfold validated. destruct (Hg v e E Ho) as (m & -> & Hm). rewrite E.
    exists f, m. auto.
  Qed.
  Lemma validated_good {A} f o (g : os -> pystr -> result A) k s :
    (o = None /\ validated_opt f o g k s = k None s) \/
    (exists v a, o = Some v /\ g s v = Ok a /\ validated_opt f o g k s = k (Some a) s) \/
    (exists v e, o = Some v /\ g s v = Err e).
  Proof.
    destruct o as [v|]; [|left; auto]. right. cbn [validated_opt]. unfold validated.
    destruct (g s v) as [a|e] eqn:E; eauto 6.
  Qed.

  Lemma upload_rejects s f c m o g : opt_ok short m -> opt_ok short o -> opt_ok short g ->
    given not_octal m \/ given (no_user s) o \/ given (no_group s) g ->
    rejects ["mode"; "owner"; "group"]%string s (handle_upload f c m o g s).
  Proof.
    intros Hm Ho Hg Hbad. unfold handle_upload.
    match goal with |- rejects _ _ (validated_opt ?f ?o ?g ?k ?s0) => destruct (validated_good f o g k s0) as [[E1 E2]|[(v & a & E1 & E2 & E3)|(v & e & E1 & E2)]] end.
    3:{ eapply validated_bad; [by left|assumption|intros; eapply resolve_oct_err; eauto|exact E1|exact E2]. }
    all: match goal with H : validated_opt _ _ _ _ _ = _ |- _ => rewrite H; clear H end.
    all: match goal with |- rejects _ _ (validated_opt ?f ?o ?g ?k ?s0) => destruct (validated_good f o g k s0) as [[F1 F2]|[(v' & a' & F1 & F2 & F3)|(v' & e & F1 & F2)]] end;
      try (eapply validated_bad; [right; by left|assumption|intros; eapply resolve_user_id_err; eauto|exact F1|exact F2]).
    all: match goal with H : validated_opt _ _ _ _ _ = _ |- _ => rewrite H; clear H end.
    all: match goal with |- rejects _ _ (validated_opt ?f ?o ?g ?k ?s0) => destruct (validated_good f o g k s0) as [[G1 G2]|[(v'' & a'' & G1 & G2 & G3)|(v'' & e & G1 & G2)]] end;
      try (eapply validated_bad; [do 2 right; by left|assumption|intros; eapply resolve_group_id_err; eauto|exact G1|exact G2]).
    all: exfalso; destruct Hbad as [(x & Hx & Hb)|[(x & Hx & Hb)|(x & Hx & Hb)]];
      [apply resolve_oct_bad in Hb as [? Hb]|apply resolve_user_bad in Hb as [? Hb]|apply resolve_group_bad in Hb as [? Hb]]; congruence.
  Qed.

  Lemma C09_upload_lemma s f c m o g : packet_ok (PUpload f c m o g) -> opt_ok short m -> opt_ok short o -> opt_ok short g ->
    given not_octal m \/ given (no_user s) o \/ given (no_group s) g ->
    exists msg, conn_upload exec sha512 f c m o g (Remote s Up) = (Err (ValueError msg), Remote s Up).
  Proof.
    intros Hok Hm Ho Hg Hbad. destruct (upload_rejects s f c m o g Hm Ho Hg Hbad) as (fl & msg & Hin & Hh & Hmsg).
    apply packet_ok_write in Hok.
    assert (Hd : packet_ok (PInvalidField (lit fl) msg) /\ str_in (lit fl) (field_names (PUpload f c m o g)) = true).
    { apply elem_of_list_In in Hin. cbn in Hin. destruct Hin as [<-|[<-|[<-|[]]]]; (split; [apply packet_ok_invalid; [cbn; lia|assumption]|reflexivity]). }
    destruct Hd as [Hd1 Hd2].
    destruct (request_invalid (PUpload f c m o g) s fl msg s Hok Hh Hd1 Hd2) as [msg' E].
    exists msg'. unfold conn_upload. cbv [mbind C_bind]. rewrite E. reflexivity.
  Qed.

  Lemma isdir_spec s p : exists b s', sys_isdir p s = (Ok b, s') /\ unaffected s s' /\
    (b = true -> exists pl n, names (o_fs s) (o_cwd s) p true pl n /\ n_kind n = KDir).
  Proof.
    unfold sys_isdir, sys_stat. destruct (syscall _ s) as [r s'] eqn:E.
    apply syscall_inv in E as (s0 & Hs0 & [(n & -> & ->)|E]).
    - exists false, s0. split; [reflexivity|]. split; [assumption|discriminate].
    - injection E as <- <-. unfold unaffected in Hs0. 
      destruct (resolve_node (o_fs s0) (o_cwd s0) p true) as [[pl n]|e] eqn:E; cbn.
      + eexists _, _. split; [reflexivity|]. split; [assumption|]. intros H. exists pl, n.
        apply resolve_node_names in E. rewrite Hs0 in E. split; [exact E|]. destruct (n_kind n); congruence.
      + exists false, s0. split; [reflexivity|]. split; [assumption|discriminate].
  Qed.

  Lemma run_rejects s c i cap u g m w : opt_ok short u -> opt_ok short g -> opt_ok short m -> 
    given not_octal m \/ given (no_user s) u \/ given (no_group s) g \/ given (no_dir s) w ->
    exists s', unaffected s s' /\ rejects ["umask"; "user"; "group"; "cwd"]%string s' (handle_run exec c i cap u g m w s).
  Proof.
    intros Hu Hg Hm Hbad. unfold handle_run.
    match goal with |- context [validated_opt ?f ?o ?g ?k ?s0] => destruct (validated_good f o g k s0) as [[E1 E2]|[(v & a & E1 & E2 & E3)|(v & e & E1 & E2)]] end.
    3:{ exists s. split; [apply unaffected_refl|]. eapply validated_bad; [by left|assumption|intros; eapply resolve_oct_err; eauto|exact E1|exact E2]. }
    all: match goal with H : validated_opt _ _ _ _ _ = _ |- _ => rewrite H; clear H end.
    all: match goal with |- context [validated_opt ?f ?o ?g ?k ?s0] => destruct (validated_good f o g k s0) as [[F1 F2]|[(v' & a' & F1 & F2 & F3)|(v' & e & F1 & F2)]] end;
      try (exists s; split; [apply unaffected_refl|]; eapply validated_bad; [right; by left|assumption|intros; eapply resolve_user_id_err; eauto|exact F1|exact F2]).
    all: match goal with H : validated_opt _ _ _ _ _ = _ |- _ => rewrite H; clear H end.
    all: match goal with |- context [validated_opt ?f ?o ?g ?k ?s0] => destruct (validated_good f o g k s0) as [[G1 G2]|[(v'' & a'' & G1 & G2 & G3)|(v'' & e & G1 & G2)]] end;
      try (exists s; split; [apply unaffected_refl|]; eapply validated_bad; [do 2 right; by left|assumption|intros; eapply resolve_group_id_err; eauto|exact G1|exact G2]).
    all: match goal with H : validated_opt _ _ _ _ _ = _ |- _ => rewrite H; clear H end.
    all: destruct Hbad as [(x & Hx & Hb)|[(x & Hx & Hb)|[(x & Hx & Hb)|(x & -> & Hb)]]];
      [exfalso; apply resolve_oct_bad in Hb as [? Hb]; congruence|exfalso; apply resolve_user_bad in Hb as [? Hb]; congruence
      |exfalso; apply resolve_group_bad in Hb as [? Hb]; congruence|].
    all: destruct (isdir_spec s x) as (b & s' & Ed & Hs' & Hb').
    all: assert (b = false) as -> by (destruct b; [destruct (Hb' eq_refl) as (pl & n & Hn & Hk); destruct (Hb pl n Hn Hk)|reflexivity]).
    all: exists s'; split; [assumption|].
    all: cbv [mbind M_bind bindM]; rewrite Ed; cbn [pure negb].
    all: eexists "cwd"%string, _; split; [do 3 right; by left|split; [reflexivity|apply lit_ok'; reflexivity]].
  Qed.

  Lemma C09_run_lemma s c i cap chk u g m w : packet_ok (PProcessRun c i cap u g m w) ->
    opt_ok short u -> opt_ok short g -> opt_ok short m ->
    given not_octal m \/ given (no_user s) u \/ given (no_group s) g \/ given (no_dir s) w ->
    exists msg s', conn_run exec sha512 c i cap chk u g m w (Remote s Up) = (Err (ValueError msg), Remote s' Up) /\ unaffected s s'.
  Proof.
    intros Hok Hu Hg Hm Hbad. destruct (run_rejects s c i cap u g m w Hu Hg Hm Hbad) as (s' & Hs' & fl & msg & Hin & Hh & Hmsg).
    apply packet_ok_write in Hok.
    assert (Hd : packet_ok (PInvalidField (lit fl) msg) /\ str_in (lit fl) (field_names (PProcessRun c i cap u g m w)) = true).
    { apply elem_of_list_In in Hin. cbn in Hin. destruct Hin as [<-|[<-|[<-|[<-|[]]]]]; (split; [apply packet_ok_invalid; [cbn; lia|assumption]|reflexivity]). }
    destruct Hd as [Hd1 Hd2].
    destruct (request_invalid (PProcessRun c i cap u g m w) s fl msg s' Hok Hh Hd1 Hd2) as [msg' E].
    exists msg', s'. split; [|assumption]. unfold conn_run. cbv [mbind C_bind]. rewrite E. reflexivity.
  Qed.
End proofs.
