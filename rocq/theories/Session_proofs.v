(** Lemmas about sessions. *)
From Coq Require Import Lia ZifyBool ZifyN ZifyNat.
From stdpp Require Import gmap.
From Verif Require Import Base Utf8 Utf8_proofs Codec Spec_Codec Codec_proofs Codec_proofs2 Paths Sys Dispatcher Client Spec_Session.

(** ** A packet of which only a part could be encoded, followed by the end of the stream *)
Lemma wseq_err a b bs e : wseq a b = (bs, Some e) ->
  (a = (bs, Some e)) \/ exists x y, a = (x, None) /\ b tt = (y, Some e) /\ bs = x ++ y.
Proof.
  destruct a as [x [e'|]]; cbn; [intros [= <- <-]; auto|].
  destruct (b tt) as [y e']. intros [= <- ->]. right. eauto.
Qed.
Lemma pack_int_err k lo hi z bs e : pack_int k lo hi z = (bs, Some e) -> bs = [].
Proof. unfold pack_int. destruct (_ && _); congruence. Qed.
Lemma ser_len_err {A} (l : list A) bs e : ser_len l = (bs, Some e) -> bs = [].
Proof. unfold ser_len. destruct (_ <? _)%N; [apply pack_int_err|congruence]. Qed.
Lemma deserialize_nil' t : deserialize fread flen t [] = (Err StructError, []).
Proof. destruct t; reflexivity. Qed.

Lemma deserialize_failed t : forall v bs e, serialize t v = (bs, Some e) -> deserialize fread flen t bs = (Err StructError, []).
Proof.
  induction t; intros v bs e H; cbn [serialize] in H.
  1-7: assert (bs = []) as ->; [|apply deserialize_nil'].
  1-5: destruct v; try congruence; eapply pack_int_err; eauto.
  1-2: destruct v; try congruence; try (destruct (utf8_encode s); [|congruence]);
       apply wseq_err in H as [H|(x & y & _ & ? & _)]; [eapply ser_len_err; eauto|discriminate].
  - assert (C : exists y, serialize t v = (y, Some e) /\ bs = n2b 1 :: y).
    { destruct v; try congruence; apply wseq_err in H as [H|(x & y & [= <-] & Hy & ->)]; try congruence; eauto. }
    destruct C as (y & Hy & ->). cbn [deserialize].
    change (n2b 1 :: y) with ([n2b 1] ++ y). rewrite unpack_app by (cbn; lia). apply (IHt v y e Hy).
  - destruct v; try (injection H as <- <-; apply deserialize_nil').
    apply wseq_err in H as [H|(x & y & [Hl ->]%ser_len_ok & Hy & ->)].
    { apply ser_len_err in H as ->. apply deserialize_nil'. }
    cbn [deserialize]. rewrite unpack_be by (cbn; lia).
    assert (G : forall l y fuel,
      (fix go (l : list value) := match l with
         | [] => ([], None) | x :: r => wseq (serialize t x) (fun _ => go r) end) l = (y, Some e) ->
      (length y < fuel)%nat ->
      deser_list (deserialize fread flen t) fuel (N.of_nat (length l)) y = (Err StructError, [])).
    { clear -IHt. induction l as [|v l IH]; intros y fuel H Hf; [discriminate|].
      destruct fuel as [|fuel]; [lia|]. cbn [deser_list].
      destruct (N.eqb_spec (N.of_nat (length (v :: l))) 0) as [E|_]; [cbn in E; lia|].
      apply wseq_err in H as [H|(x & y' & Hx & Hy & ->)].
      { rewrite (IHt _ _ _ H). reflexivity. }
      destruct (deserialize_serialize t v x y' Hx) as [Hpos ->].
      rewrite app_length in Hf.
      replace (N.pred (N.of_nat (length (v :: l)))) with (N.of_nat (length l)) by (cbn [length]; lia).
      rewrite (IH y' fuel Hy) by lia. reflexivity. }
    replace (Z.to_N (Z.of_nat (length l))) with (N.of_nat (length l)) by lia.
    rewrite (G l y _ Hy) by lia. reflexivity.
Qed.

Lemma deser_fields_failed ts : forall vs bs e,
  ser_fields ts vs = (bs, Some e) -> deser_fields fread flen ts bs = (Err StructError, []).
Proof.
  induction ts as [|t ts IH]; intros vs bs e H; [discriminate|]. destruct vs as [|v vs]; [discriminate|].
  cbn [ser_fields] in H. cbn [deser_fields]. apply wseq_err in H as [H|(x & y & Hx & Hy & ->)].
  - rewrite (deserialize_failed _ _ _ _ H). reflexivity.
  - destruct (deserialize_serialize t v x y Hx) as [_ ->]. rewrite (IH _ _ _ Hy). reflexivity.
Qed.

Lemma receive_gen_failed p bs e q : write_packet p = (bs, Some e) -> receive_gen fread flen q bs = (Err eof, []).
Proof.
  intros H. unfold receive_gen, read_packet.
  apply wseq_err in H as [H|(x & y & Hx & Hy & ->)].
  { cbn [serialize] in H. apply pack_int_err in H as ->. reflexivity. }
  cbn [serialize] in Hx. apply pack_int_ok in Hx as [_ ->]. pose proof (pid_bound p).
  rewrite unpack_be by (cbn; lia). rewrite N2Z.id.
  destruct (schema_pid p) as (ts & Hts & Hlen). rewrite Hts in Hy |- *. change (default [] (Some ts)) with ts in Hy.
  rewrite (deser_fields_failed _ _ _ _ Hy). reflexivity.
Qed.

Lemma receive_failed p bs e q cs : write_packet p = (bs, Some e) -> List.concat cs = bs ->
  exists cs', receive_packet q cs = (Err eof, cs') /\ List.concat cs' = [].
Proof.
  intros H Hcs. destruct (receive_flat q cs) as [H1 H2].
  rewrite Hcs, (receive_gen_failed p bs e q H) in H1, H2. cbn in H1, H2.
  destruct (receive_packet q cs) as [r cs']. cbn in H1, H2. subst. eauto.
Qed.
Lemma receive_nothing q cs : List.concat cs = [] ->
  exists cs', receive_packet q cs = (Err eof, cs') /\ List.concat cs' = [].
Proof.
  intros Hcs. destruct (receive_flat q cs) as [H1 H2]. rewrite Hcs in H1, H2. cbn in H1, H2.
  destruct (receive_packet q cs) as [r cs']. cbn in H1, H2. subst. eauto.
Qed.

(** ** Answers of handlers *)
Section proofs.
  Variable exec : proc -> M xres.
  Variable sha512 : bytes -> bytes.
  Notation handle := (handle exec sha512).
  Notation request := (request exec sha512).
  Notation request_bytes := (request_bytes exec sha512).
  Notation call := (call exec sha512).

  (** [Reply] only carries raw output for commands that are not captured, and names fields of the request *)
  Definition proper (req : packet) (r : reply) : Prop :=
    match r with
    | Reply raw p => (captured req -> raw = []) /\ forall f m, p = PInvalidField f m -> f ∈ field_names req
    | _ => True
    end.
  Definition all_replies (P : reply -> Prop) (m : M reply) : Prop := forall s r s', m s = (Ok r, s') -> P r.

  Lemma all_answer (P : reply -> Prop) p : P (Reply [] p) -> all_replies P (answer p).
  Proof. intros H s r s' [= <- <-]. exact H. Qed.
  Lemma all_raise P e : all_replies P (raise e).
  Proof. intros s r s' [=]. Qed.
  Lemma all_bind {A} P (m : M A) (f : A -> M reply) : (forall a, all_replies P (f a)) -> all_replies P (m ≫= f).
  Proof.
    intros H s r s' E. cbv [mbind M_bind bindM] in E.
    destruct (m s) as [[a|e] s1] eqn:Em; [|discriminate]. exact (H a _ _ _ E).
  Qed.
  Lemma all_validated {A} (P : reply -> Prop) f (x : result A) k : (forall m, P (Reply [] (PInvalidField (lit f) m))) ->
    (forall a, all_replies P (k a)) -> all_replies P (validated f x k).
  Proof.
    intros H1 H2. unfold validated. destruct x as [a|e]; [auto|].
    destruct e; cbn [is_ValueError]; try apply all_raise; apply all_answer; auto.
  Qed.
  Lemma all_validated_opt {A} (P : reply -> Prop) f o (g : os -> pystr -> result A) k : (forall m, P (Reply [] (PInvalidField (lit f) m))) ->
    (forall a, all_replies P (k a)) -> all_replies P (validated_opt f o g k).
  Proof.
    intros H1 H2. unfold validated_opt. destruct o; [|auto]. intros s. eapply all_validated; eauto.
  Qed.

  Lemma field_in (f : string) req : str_in (lit f) (field_names req) = true -> lit f ∈ field_names req.
  Proof.
    unfold str_in. rewrite existsb_exists. intros (x & Hx & E).
    unfold str_eqb in E. apply bool_decide_eq_true in E as ->. apply elem_of_list_In. assumption.
  Qed.
  Lemma proper_invalid req f m : str_in (lit f) (field_names req) = true -> proper req (Reply [] (PInvalidField (lit f) m)).
  Proof. intros H. split; [auto|]. intros f' m' [= <- <-]. apply field_in. assumption. Qed.
  Lemma proper_other req p : (forall f m, p <> PInvalidField f m) -> proper req (Reply [] p).
  Proof. intros H. split; [auto|]. intros f' m' ->. destruct (H f' m'). reflexivity. Qed.

  Ltac prop1 :=
    first [ apply proper_invalid; reflexivity | apply proper_other; discriminate ].
  Ltac solve_proper := repeat first
    [ apply all_answer; prop1
    | apply all_raise
    | apply all_bind; intros ?
    | apply all_validated_opt; [intros; prop1|intros ?]
    | apply all_validated; [intros; prop1|intros ?]
    | match goal with |- all_replies _ (match ?x with _ => _ end) => destruct x end
    | match goal with |- all_replies _ (if ?x then _ else _) => destruct x end ].

  Lemma handle_proper req : all_replies (proper req) (handle req).
  Proof.
    destruct req; cbn [Dispatcher.handle]; try apply all_raise; try (apply all_answer; prop1).
    - intros s r s' [= <- <-]. exact I.
    - unfold handle_run. solve_proper.
      intros s r s' E. destruct (spawn _ _ _ _ _ _ _ _) as [[[]|[]] s2]; try congruence.
      + destruct capture_output; injection E as <- <-.
        * split; [auto|]. congruence.
        * split; [|congruence]. intros H. cbn in H. congruence.
      + injection E as <- <-. exact I.
      + injection E as <- <-. split; [auto|congruence].
    - unfold handle_stat. intros s r s' E. destruct (sys_stat _ _ _) as [[n|[]] s2]; try congruence.
      + set (k := answer _) in E at 1. revert E. destruct (_ && _).
        * intros E. cbv [mbind M_bind bindM] in E. destruct (sys_read _ _) as [[c|e] s3]; [|discriminate].
          injection E as <- <-. apply proper_other. congruence.
        * intros [= <- <-]. apply proper_other. congruence.
      + destruct (_ =? _)%Z; [|congruence]. injection E as <- <-. prop1.
    - unfold handle_resolve_user. solve_proper.
    - unfold handle_resolve_group. solve_proper.
    - unfold handle_upload. solve_proper.
    - unfold handle_download. intros s r s' E. destruct (sys_read _ _) as [[n|[]] s2]; try congruence.
      + injection E as <- <-. apply proper_other. congruence.
      + destruct (_ =? _)%Z; [|congruence]. injection E as <- <-. prop1.
    - unfold handle_query_user. solve_proper.
    - unfold handle_query_group. solve_proper.
    - unfold handle_getenv. solve_proper.
  Qed.

  Lemma deliver_received req raw r s s' : handle req s = (Ok (Reply raw r), s') -> received_as (Some req) r (deliver (Some req) r).
  Proof.
    intros H. pose proof (handle_proper req _ _ _ H) as [_ Hf].
    destruct r; cbn [deliver]; try (apply rcv_plain; congruence); [constructor|].
    assert (Hin : field ∈ field_names req) by (eapply Hf; reflexivity).
    rewrite (has_attr_field (Some req) req field eq_refl Hin). econstructor; eauto.
  Qed.
  Lemma handle_raw req raw r s s' : handle req s = (Ok (Reply raw r), s') -> captured req -> raw = [].
  Proof. intros H. pose proof (handle_proper req _ _ _ H) as [Hr _]. exact Hr. Qed.

  Lemma write_cases p : (exists b, write_packet p = (b, None)) \/ exists b e, write_packet p = (b, Some e).
  Proof. destruct (write_packet p) as [b [e|]]; eauto. Qed.

  (** ** Clean states *)
  Definition alive (l : link) : bool := match l with Up => true | _ => false end.
  Definition clean (a : bool) (ss : session) : Prop :=
    List.concat (ss_out ss) = [] /\
    if a then ss_turn ss = Running /\ ss_buf ss = [] /\ List.concat (ss_in ss) = [] else ss_turn ss <> Running.

  Lemma deliver_none req : is_request req -> deliver None req = Ok req.
  Proof. destruct req; cbn; tauto. Qed.

  Lemma step_bytes a ss req c1 c2 x ss' : clean a ss -> good_request req -> fragmentation c1 -> fragmentation c2 ->
    request_bytes c1 c2 req ss = (x, ss') ->
    exists a', call a (ss_os ss) req x a' (ss_os ss') /\ clean a' ss'.
  Proof.
    intros [Hout Hc] (Hreq & Hcap & [b Hb]) Hc1 Hc2 E. unfold Client.request_bytes in E. rewrite Hb in E.
    destruct a.
    2:{ destruct (receive_nothing (Some req) (ss_out ss) Hout) as (cs' & Hr & Hcs').
        exists false. rewrite Hr in E.
        destruct (ss_turn ss) eqn:Ht; [congruence|..]; injection E as <- <-; (split; [constructor|split; cbn; congruence]). }
    destruct Hc as (Ht & Hbuf & Hin). rewrite Ht, Hbuf in E. cbn [app] in E.
    assert (Hcat : List.concat (ss_in ss ++ c1 b) = b ++ []).
    { rewrite concat_app, Hin, Hc1, app_nil_r. reflexivity. }
    destruct (receive_roundtrip req b [] None _ Hb Hcat) as (cs' & Hr & Hcs').
    rewrite (deliver_none req Hreq) in Hr. unfold serve1 in E. rewrite Hr in E.
    assert (Hsend : forall r (s' : os) (t : turn) out, send r = (out, t) ->
      (exists b, write_packet r = (b, None) /\ out = b /\ t = Running) \/
      (exists b e, write_packet r = (b, Some e) /\ out = b /\ t = Crashed e)).
    { intros r s' t out Hs. unfold send in Hs. destruct (write_packet r) as [b' [e|]]; injection Hs as <- <-; eauto 8. }
    assert (Hgot : forall r out, write_packet r = (out, None) -> exists cs'', receive_packet (Some req) (ss_out ss ++ c2 out) = (deliver (Some req) r, cs'') /\ List.concat cs'' = []).
    { intros r out Hw. eapply receive_roundtrip; [exact Hw|]. rewrite concat_app, Hout, Hc2, app_nil_r. reflexivity. }
    assert (Hlost : forall r out e, write_packet r = (out, Some e) -> exists cs'', receive_packet (Some req) (ss_out ss ++ c2 out) = (Err eof, cs'') /\ List.concat cs'' = []).
    { intros r out e Hw. eapply receive_failed; [exact Hw|]. rewrite concat_app, Hout, Hc2. reflexivity. }
    assert (Hnone : exists cs'', receive_packet (Some req) (ss_out ss ++ c2 []) = (Err eof, cs'') /\ List.concat cs'' = []).
    { apply receive_nothing. rewrite concat_app, Hout, Hc2. reflexivity. }
    destruct (handle req (ss_os ss)) as [[rp|e] s'] eqn:Hh.
    - destruct rp as [raw r| |].
      + pose proof (handle_raw _ _ _ _ _ Hh Hcap) as ->. cbn [app] in E.
        destruct (send r) as [out t] eqn:Hs. destruct (Hsend r s' t out Hs) as [(b' & Hw & -> & ->)|(b' & e & Hw & -> & ->)].
        * destruct (Hgot r b' Hw) as (cs'' & Hg & Hcs''). rewrite Hg in E. injection E as <- <-.
          exists true. split; [|split; [exact Hcs''|split_and!; [reflexivity..|exact Hcs']]].
          eapply call_answer; [exact Hh|exists b'; exact Hw|eapply deliver_received; exact Hh].
        * destruct (Hlost r b' e Hw) as (cs'' & Hg & Hcs''). rewrite Hg in E. injection E as <- <-.
          exists false. split; [|split; [exact Hcs''|cbn; congruence]].
          eapply call_unsendable; [exact Hh|]. intros [b'' Hw']. congruence.
      + destruct Hnone as (cs'' & Hg & Hcs''). rewrite Hg in E. injection E as <- <-.
        exists false. split; [|split; [exact Hcs''|cbn; congruence]]. eapply call_exit; exact Hh.
      + injection E as <- <-. exists false. split; [eapply call_blocked; exact Hh|].
        split; [cbn; rewrite concat_app, Hout, Hc2; reflexivity|cbn; congruence].
    - assert (Hdie : (forall n a b, e <> OSErr n a b) -> exists t, t <> Running /\ t <> Stuck /\
        (match e with
            | OSErr n a b => let '(o, t) := send (POSError n a b) in ((cs', o, t), s')
            | IOErr _ => ((cs', [], Crashed StructError), s') 
            | e => ((cs', [], Crashed e), s')
            end) = ((cs', [], t), s')).
      { intros Hn. destruct e; try (exists (Crashed StructError); split_and!; [discriminate..|reflexivity]);
          try (eexists (Crashed _); split_and!; [| |reflexivity]; discriminate).
        edestruct Hn; reflexivity. }
      assert (Ho : (exists n a b, e = OSErr n a b) \/ (forall n a b, e <> OSErr n a b)).
      { destruct e; eauto; right; congruence. }
      destruct Ho as [(n & a & b' & ->)|Hn].
      + destruct (send (POSError n a b')) as [out t] eqn:Hs.
        destruct (Hsend _ s' t out Hs) as [(b'' & Hw & -> & ->)|(b'' & e & Hw & -> & ->)].
        * destruct (Hgot _ b'' Hw) as (cs'' & Hg & Hcs''). rewrite Hg in E. injection E as <- <-.
          exists true. split; [|split; [exact Hcs''|split_and!; [reflexivity..|exact Hcs']]].
          cbn [deliver]. eapply call_oserror; [exact Hh|exists b''; exact Hw].
        * destruct (Hlost _ b'' e Hw) as (cs'' & Hg & Hcs''). rewrite Hg in E. injection E as <- <-.
          exists false. split; [|split; [exact Hcs''|cbn; congruence]].
          eapply call_unsendable_oserror; [exact Hh|]. intros [b3 Hw']. congruence.
      + destruct (Hdie Hn) as (t & Ht1 & Ht2 & Et). rewrite Et in E.
        destruct Hnone as (cs'' & Hg & Hcs''). rewrite Hg in E.
        exists false. destruct t; try congruence; injection E as <- <-;
          (split; [eapply call_crash; [exact Hh|exact Hn]|split; [exact Hcs''|cbn; congruence]]).
  Qed.

  (** the procedure call agrees *)
  Definition plain (l : link) : Prop := l = Up \/ l = Down.
  Lemma step_direct v req x v' : plain (r_link v) -> good_request req -> request req v = (x, v') ->
    call (alive (r_link v)) (r_os v) req x (alive (r_link v')) (r_os v') /\ plain (r_link v').
  Proof.
    intros Hg (Hreq & Hcap & [b Hb]) E. unfold Client.request in E.
    destruct v as [s l]; cbn [r_link r_os alive] in *. destruct Hg as [-> | ->]; [|injection E as <- <-; split; [constructor|right; reflexivity]].
    unfold Client.request_held in E. rewrite Hb in E. destruct (handle req s) as [[[raw r| |]|e] s'] eqn:Hh.
    - pose proof (handle_raw _ _ _ _ _ Hh Hcap) as ->.
      destruct (write_packet r) as [b' [e|]] eqn:Hw; injection E as <- <-; cbn; (split; [|unfold plain; tauto]).
      + eapply call_unsendable; [exact Hh|]. intros [b'' Hw']. congruence.
      + eapply call_answer; [exact Hh|exists b'; exact Hw|eapply deliver_received; exact Hh].
    - injection E as <- <-. split; [eapply call_exit; exact Hh|unfold plain; cbn; tauto].
    - injection E as <- <-. split; [eapply call_blocked; exact Hh|unfold plain; cbn; tauto].
    - assert (Ho : (exists n a b, e = OSErr n a b) \/ (forall n a b, e <> OSErr n a b)).
      { destruct e; eauto; right; congruence. }
      destruct Ho as [(n & a & b' & ->)|Hn].
      + destruct (write_packet (POSError n a b')) as [b'' [e|]] eqn:Hw; injection E as <- <-; cbn; (split; [|unfold plain; tauto]).
        * eapply call_unsendable_oserror; [exact Hh|]. intros [b3 Hw']. congruence.
        * eapply call_oserror; [exact Hh|exists b''; exact Hw].
      + assert (E' : (Err eof, Remote s' Down) = (x, v')) by (destruct e; try exact E; edestruct Hn; reflexivity).
        injection E' as <- <-. split; [eapply call_crash; [exact Hh|exact Hn]|unfold plain; cbn; tauto].
  Qed.

  Lemma talk_calls l : forall a ss xs ss', clean a ss ->
    Forall (fun '(c1, c2, q) => good_request q /\ fragmentation c1 /\ fragmentation c2) l ->
    talk exec sha512 l ss = (xs, ss') ->
    exists a', calls exec sha512 a (ss_os ss) (l.*2) xs a' (ss_os ss') /\ clean a' ss'.
  Proof.
    induction l as [|[[c1 c2] q] l IH]; intros a ss xs ss' Hc Hl E; cbn [talk] in E.
    { injection E as <- <-. exists a. split; [constructor|assumption]. }
    apply Forall_cons in Hl as [(Hq & H1 & H2) Hl].
    destruct (request_bytes c1 c2 q ss) as [x ss1] eqn:E1. destruct (talk exec sha512 l ss1) as [xs2 ss2] eqn:E2.
    injection E as <- <-.
    destruct (step_bytes _ _ _ _ _ _ _ Hc Hq H1 H2 E1) as (a1 & Hcall & Hc1).
    destruct (IH _ _ _ _ Hc1 Hl E2) as (a2 & Hcalls & Hc2).
    exists a2. split; [|assumption]. cbn. econstructor; eauto.
  Qed.

  (** calls are deterministic *)
  Lemma received_det q r x y : received_as q r x -> received_as q r y -> x = y.
  Proof. destruct 1; inversion 1; subst; try congruence; exfalso; naive_solver. Qed.
  Lemma call_det a s q x1 a1 s1 x2 a2 s2 : call a s q x1 a1 s1 -> call a s q x2 a2 s2 -> x1 = x2 /\ a1 = a2 /\ s1 = s2.
  Proof.
    destruct 1; inversion 1; subst;
      repeat match goal with
      | H1 : ?x = _, H2 : ?x = _ |- _ => rewrite H1 in H2; injection H2 as ?; subst
      | H1 : ?x = _, H2 : ?x = _ |- _ => rewrite H1 in H2; discriminate H2
      end; try tauto; try (exfalso; congruence).
    split; [eapply received_det; eauto|auto].
  Qed.
End proofs.
