(** Properties C06, C07, C08 and C68: conversations with the dispatcher. *)
From Coq Require Import Lia.
From stdpp Require Import gmap.
From Verif Require Import Base Utf8 Codec Spec_Codec Codec_proofs2 Paths Sys Spec_Sys Dispatcher Client Spec_Session Session_proofs
  Spec_Remote Remote_safe Remote_proofs Remote_run Remote_examples.

(** C06. A conversation through the byte streams, however the transport cuts them, has the results of calling the handlers
    one after the other. *)
Theorem C06_lockstep : forall exec sha512 l s xs ss',
  Forall (fun '(c1, c2, q) => good_request q /\ fragmentation c1 /\ fragmentation c2) l ->
  talk exec sha512 l (fresh s) = (xs, ss') ->
  exists alive, calls exec sha512 true s (l.*2) xs alive (ss_os ss').
Proof.
  intros exec sha512 l s xs ss' Hl E.
  destruct (talk_calls exec sha512 l true (fresh s) xs ss' (conj eq_refl (conj eq_refl (conj eq_refl eq_refl))) Hl E) as (a & H & _).
  exists a. exact H.
Qed.
Print Assumptions C06_lockstep.

Lemma calls_det exec sha512 qs : forall a s xs1 a1 s1 xs2 a2 s2,
  calls exec sha512 a s qs xs1 a1 s1 -> calls exec sha512 a s qs xs2 a2 s2 -> xs1 = xs2 /\ a1 = a2 /\ s1 = s2.
Proof.
  induction qs as [|q qs IH]; intros a s xs1 a1 s1 xs2 a2 s2 H1 H2; inversion H1; inversion H2; subst; [auto|].
  match goal with A : call _ _ _ _ _ _ _ _, B : call _ _ _ _ _ _ _ _ |- _ => destruct (call_det _ _ _ _ _ _ _ _ _ _ _ A B) as (-> & -> & ->) end.
  match goal with A : calls _ _ _ _ qs _ _ _, B : calls _ _ _ _ qs _ _ _ |- _ => destruct (IH _ _ _ _ _ _ _ _ A B) as (-> & -> & ->) end.
  auto.
Qed.
(** The results do not depend on the fragmentation. *)
Theorem C06_fragmentation : forall exec sha512 l1 l2 s xs1 ss1 xs2 ss2,
  l1.*2 = l2.*2 ->
  Forall (fun '(c1, c2, q) => good_request q /\ fragmentation c1 /\ fragmentation c2) l1 ->
  Forall (fun '(c1, c2, q) => good_request q /\ fragmentation c1 /\ fragmentation c2) l2 ->
  talk exec sha512 l1 (fresh s) = (xs1, ss1) -> talk exec sha512 l2 (fresh s) = (xs2, ss2) ->
  xs1 = xs2 /\ ss_os ss1 = ss_os ss2.
Proof.
  intros exec sha512 l1 l2 s xs1 ss1 xs2 ss2 El H1 H2 E1 E2.
  destruct (C06_lockstep _ _ _ _ _ _ H1 E1) as [a1 C1]. destruct (C06_lockstep _ _ _ _ _ _ H2 E2) as [a2 C2].
  rewrite El in C1. destruct (calls_det _ _ _ _ _ _ _ _ _ _ _ C1 C2) as (-> & _ & ->). auto.
Qed.
Print Assumptions C06_fragmentation.

(** The procedure calls that the other theorems speak about are those of the conversation. *)
Theorem C06_request : forall exec sha512 c1 c2 q s x ss' y v',
  good_request q -> fragmentation c1 -> fragmentation c2 ->
  request_bytes exec sha512 c1 c2 q (fresh s) = (x, ss') -> request exec sha512 q (Remote s Up) = (y, v') ->
  x = y /\ ss_os ss' = r_os v' /\ (r_link v' = Up <-> ss_turn ss' = Running).
Proof.
  intros exec sha512 c1 c2 q s x ss' y v' Hq H1 H2 E1 E2.
  destruct (talk_calls exec sha512 [(c1, c2, q)] true (fresh s) [x] ss' (conj eq_refl (conj eq_refl (conj eq_refl eq_refl)))) as (a & Hc & Hcl).
  { apply Forall_singleton. auto. }
  { cbn [talk]. rewrite E1. reflexivity. }
  cbn in Hc. inversion Hc as [|? ? ? ? ? ? ? ? ? ? Hc1 Hc2]; subst. inversion Hc2; subst.
  destruct (step_direct exec sha512 (Remote s Up) q y v' (or_introl eq_refl) Hq E2) as [Hd Hg].
  cbn [r_link r_os alive] in Hd. destruct (call_det _ _ _ _ _ _ _ _ _ _ _ Hc1 Hd) as (-> & -> & ->).
  split; [reflexivity|]. split; [reflexivity|]. destruct Hcl as [_ Hcl].
  destruct Hg as [Hg|Hg]; rewrite Hg in *; cbn [alive] in Hcl; [|split; [discriminate|congruence]]. destruct Hcl as [-> _]. split; auto.
Qed.
Print Assumptions C06_request.

(** byte by byte *)
Definition crumbs (b : bytes) : list bytes := List.map (fun c => [c]) b.
Lemma crumbs_ok : fragmentation crumbs.
Proof. intros b. induction b as [|c b IH]; cbn in *; [reflexivity|]. f_equal. exact IH. Qed.
Definition whole (b : bytes) : list bytes := [b].
Lemma whole_ok : fragmentation whole.
Proof. intros b. cbn. apply app_nil_r. Qed.
(** three requests, the second of which fails *)
Definition demo_requests : list packet :=
  [ PUpload (lit "/tmp/x") (blit "hi") (Some (lit "644")) None (Some (lit "wheel")); PDownload (lit "/etc"); PDownload (lit "/tmp/x") ].
Example C06_demo_good : Forall (fun '(c1, c2, q) => good_request q /\ fragmentation c1 /\ fragmentation c2) (List.map (fun q => (crumbs, whole, q)) demo_requests).
Proof.
  cbn. repeat (apply Forall_cons; split); try apply Forall_nil; try exact I;
    (split; [split; [exact I|split; [exact I|eexists; vm_compute; reflexivity]]|split; [exact crumbs_ok|exact whole_ok]]).
Qed.
Example C06_demo :
  fst (talk echo fake_hash (List.map (fun q => (crumbs, whole, q)) demo_requests) (fresh demo)) =
  [ Ok POk; Err (RemoteOSError EISDIR [] []); Ok (PDownloadResult (blit "hi")) ].
Proof. vm_compute. reflexivity. Qed.

(** C07. An OSError in a handler reaches the client with its errno, and the dispatcher goes on. *)
Theorem C07_survivable : forall exec sha512 s q n a b s', good_request q ->
  handle exec sha512 q s = (Err (OSErr n a b), s') -> in_i64 n -> str_ok a -> str_ok b ->
  request exec sha512 q (Remote s Up) = (Err (RemoteOSError n a b), Remote s' Up).
Proof.
  intros exec sha512 s q n a b s' (_ & _ & Hq) Hh Hn Ha Hb. apply request_oserr; [assumption|assumption|split_and!; assumption].
Qed.
Print Assumptions C07_survivable.

(** A system call that fails with any errno does that (ENOENT means "not there" to stat and download: C16). *)
Theorem C07_faults : forall exec sha512 s n k fl, o_faults s = FErr n k :: fl -> in_i64 n ->
  (forall p follow sha, encodable (PStat p follow sha) -> n <> ENOENT ->
     conn_stat exec sha512 p follow sha (Remote s Up) = (Err (RemoteOSError n [] []), Remote (set_faults fl s) Up)) /\
  (forall p, encodable (PDownload p) -> n <> ENOENT ->
     conn_download exec sha512 p (Remote s Up) = (Err (RemoteOSError n [] []), Remote (set_faults fl s) Up)) /\
  (forall p c, encodable (PUpload p c None None None) ->
     conn_upload exec sha512 p c None None None (Remote s Up) = (Err (RemoteOSError n [] []), Remote (set_faults fl s) Up)).
Proof.
  intros exec sha512 s n k fl Hf Hn. split_and!.
  - intros. eapply fault_stat; eassumption.
  - intros. eapply fault_download; eassumption.
  - intros. eapply fault_upload; eassumption.
Qed.
Print Assumptions C07_faults.
Example C07_example :
  let v := Remote (with_faults [FErr 5 0]) Up in
  conn_download echo fake_hash (lit "/etc/app.conf") v = (Err (RemoteOSError 5 [] []), Remote demo Up) /\
  fst (conn_download echo fake_hash (lit "/etc/app.conf") (Remote demo Up)) = Ok (blit "old").
Proof. vm_compute. split; reflexivity. Qed.

(** C08. The full claim:
      forall exec sha512 s q x a s', good_request q -> q <> PExit -> exec_ok exec ->
        call exec sha512 true s q x a s' -> a = true.
    It is false.  Each of the following requests ends the dispatcher, so that it and all later ones fail. *)
Definition fatal_requests : list packet :=
  [ PStat [nul] true false; PDownload [nul]; PUpload [nul] [] None None None;
    PResolveUser (Some [nul]); PResolveGroup (Some [nul]); PQueryUser [nul] false; PQueryGroup [nul];
    PProcessRun [] None true None None None None;
    PProcessRun [lit "ls"; [nul]] None true None None None None;
    PUpload (lit "/tmp/x") (blit "data") (Some (lit "20000000000")) None None;
    PGetenv (lit "ODD");
    PStat (lit "/ancient") true false ].
Theorem C08_no_kill_refuted :
  exists s, Forall (fun q => good_request q /\ q <> PExit /\
    forall exec sha512, exists s', call exec sha512 true s q (Err eof) false s' /\
      forall q', call exec sha512 false s' q' (Err eof) false s') fatal_requests.
Proof.
  exists odd. unfold fatal_requests.
  repeat (apply Forall_cons; split); try apply Forall_nil; try exact I;
    (match goal with |- good_request ?q /\ _ => assert (Hg : good_request q) by (split; [exact I|split; [exact eq_refl || exact I|eexists; vm_compute; reflexivity]]) end;
     split; [exact Hg|split; [discriminate|]]; intros exec sha512;
     match goal with |- context [call _ _ true odd ?q _ _ _] =>
       destruct (request exec sha512 q (Remote odd Up)) as [x v'] eqn:E;
       destruct (step_direct exec sha512 (Remote odd Up) q x v' (or_introl eq_refl) Hg E) as [Hd _];
       exists (r_os v'); split; [|intros; constructor];
       assert (Hx : (x, alive (r_link v')) = (Err eof, false)) by
         (transitivity (let '(x, v') := request exec sha512 q (Remote odd Up) in (x, alive (r_link v'))); [rewrite E; reflexivity|vm_compute; reflexivity]);
       injection Hx as -> Ha; rewrite Ha in Hd; exact Hd
     end).
Qed.
Print Assumptions C08_no_kill_refuted.

(** What remains true: without these values the dispatcher answers every request of every history. *)
Theorem C08_no_kill_partial : forall exec sha512 l s xs ss',
  exec_ok exec -> hash_ok sha512 -> os_ok s ->
  Forall (fun '(c1, c2, q) => tame q /\ fragmentation c1 /\ fragmentation c2) l ->
  talk exec sha512 l (fresh s) = (xs, ss') ->
  ss_turn ss' = Running /\ length xs = length l /\ Forall answered xs /\ os_ok (ss_os ss').
Proof.
  intros exec sha512 l s xs ss' Hexec Hhash Hs Hl E.
  destruct (talk_calls exec sha512 l true (fresh s) xs ss' (conj eq_refl (conj eq_refl (conj eq_refl eq_refl)))) as (a & Hc & Hcl).
  { eapply Forall_impl; [exact Hl|]. intros [[c1 c2] q] (H1 & H2 & H3). split; [apply tame_good; assumption|auto]. }
  { exact E. }
  assert (Ht : Forall tame (l.*2)). { apply Forall_fmap. eapply Forall_impl; [exact Hl|]. intros [[c1 c2] q] (H1 & _). exact H1. }
  destruct (calls_tame exec sha512 Hexec Hhash (l.*2) s xs a _ Hs Ht Hc) as (-> & Hos & Hans).
  destruct Hcl as [_ [Hrun _]]. split_and!; auto.
  assert (Hlen : forall a s qs xs a' s', calls exec sha512 a s qs xs a' s' -> length xs = length qs).
  { clear. induction 1; cbn; congruence. }
  rewrite (Hlen _ _ _ _ _ _ Hc). apply fmap_length.
Qed.
Print Assumptions C08_no_kill_partial.
Example C08_example : os_ok demo /\ Forall tame demo_requests.
Proof.
  split; [exact demo_ok|]. unfold demo_requests. 
  repeat (apply Forall_cons; split); try apply Forall_nil; try exact I; cbn [tame];
    unfold c_string; parts; cbn [opt_ok]; try exact I; try text; try dec; try small_nat.
  intros z Hz. vm_compute in Hz. injection Hz as <-. unfold c_int. lia.
Qed.

(** C68. The full claim: a command that does not capture its output cannot disturb the connection.
    It is false: such a command writes to the connection itself.  This one fails, but prints the answer of a
    successful command; the caller, who asked for [check=True], is told that it succeeded, and the true answer is
    still to come: it will be taken for the answer to the next request. *)
Definition forger : proc -> M xres := fun p => pure (XExit 1 (fst (write_packet (PProcessCompleted None None 0))) []).
Definition forged_command : packet := PProcessRun [lit "false"] (Some []) false None None None None.
Theorem C68_uncaptured_refuted : exists exec s q, exec_ok exec /\ os_ok s /\ is_request q /\ encodable q /\
  (exists p, exec p s = (Ok (XExit 1 (fst (write_packet (PProcessCompleted None None 0))) []), s)) /\
  forall sha512, fst (talk exec sha512 [(whole, whole, q); (whole, whole, PCheckAlive)] (fresh s)) =
    [ Ok (PProcessCompleted None None 0); Ok (PProcessCompleted None None 1) ].
Proof.
  exists forger, demo, forged_command. split_and!.
  - intros p s Hs. unfold forger. cbv [pure]. split; [unfold in_i32; lia|]. split; [vm_compute; reflexivity|]. split; [vm_compute; reflexivity|exact Hs].
  - exact demo_ok.
  - exact I.
  - eexists. vm_compute. reflexivity.
  - exists (Proc [] None 0 0 [] 0 []). reflexivity.
  - intros sha512. vm_compute. reflexivity.
Qed.
Print Assumptions C68_uncaptured_refuted.
(** What remains true: with captured output it cannot, whatever it prints. *)
Theorem C68_uncaptured_partial : forall exec sha512 c1 c2 c i u g m w s x ss',
  encodable (PProcessRun c i true u g m w) -> fragmentation c1 -> fragmentation c2 ->
  request_bytes exec sha512 c1 c2 (PProcessRun c i true u g m w) (fresh s) = (x, ss') -> ss_turn ss' = Running ->
  ss_buf ss' = [] /\ List.concat (ss_in ss') = [] /\ List.concat (ss_out ss') = [].
Proof.
  intros exec sha512 c1 c2 c i u g m w s x ss' Hq H1 H2 E Hrun.
  destruct (talk_calls exec sha512 [(c1, c2, PProcessRun c i true u g m w)] true (fresh s) [x] ss' (conj eq_refl (conj eq_refl (conj eq_refl eq_refl)))) as (a & Hc & Hcl).
  { apply Forall_singleton. split; [split_and!; [exact I|reflexivity|assumption]|auto]. }
  { cbn [talk]. rewrite E. reflexivity. }
  destruct Hcl as [Ho Ha]. destruct a; [|congruence]. destruct Ha as (_ & Hb & Hi). auto.
Qed.
Print Assumptions C68_uncaptured_partial.
