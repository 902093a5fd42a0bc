(** Properties C01-C05: the wire format. *)
From Verif Require Import Base Utf8 Codec Spec_Codec Codec_proofs Codec_proofs2.

(** C01. Every packet written without an exception arrives unchanged, whatever pieces the transport
    delivers, and the bytes after it stay unread. *)
Theorem C01_packet_round_trip : forall p bs request cs rest,
  write_packet p = (bs, None) ->
  (forall f m, p = PInvalidField f m -> exists p', request = Some p' /\ f ∈ field_names p') ->
  List.concat cs = bs ++ rest ->
  exists r cs', receive_packet request cs = (r, cs') /\ received_as request p r /\ List.concat cs' = rest.
Proof. exact C01_lemma. Qed.
Print Assumptions C01_packet_round_trip.

(** ... and all packets with values of the declared types are written without an exception. *)
Theorem C01_encodable : forall p, packet_ok p -> exists bs, write_packet p = (bs, None).
Proof. exact packet_ok_write. Qed.
Print Assumptions C01_encodable.

Example C01_example :
  let p := PProcessRun [lit "echo"; [8364; 128512]%N] (Some (blit "in")) true (Some (lit "root")) None None (Some (lit "/tmp")) in
  exists bs, write_packet p = (bs, None) /\ List.concat [firstn 3 bs; firstn 40 (skipn 3 bs); skipn 43 bs; blit "tail"] = bs ++ blit "tail"
    /\ receive_packet None [firstn 3 bs; firstn 40 (skipn 3 bs); skipn 43 bs; blit "tail"] = (Ok p, [blit "tail"]).
Proof. eexists. split; [vm_compute; reflexivity|]. split; vm_compute; reflexivity. Qed.

(** C02. Different sequences of packets are sent as different bytes; no sequence is sent as a
    continuation of another one unless it continues it packet by packet. *)
Theorem C02_unambiguous_stream : forall ps qs bs, sent ps bs -> sent qs bs -> ps = qs.
Proof. exact sent_inj. Qed.
Print Assumptions C02_unambiguous_stream.

Theorem C02_prefix : forall ps qs b1 b2 r,
  sent ps b1 -> sent qs b2 -> b1 ++ r = b2 -> exists qs', qs = ps ++ qs' /\ sent qs' r.
Proof. exact sent_prefix. Qed.
Print Assumptions C02_prefix.

Example C02_example : exists bs, sent [PGetenv (lit "HOME"); PExit] bs /\ length bs = 20%nat.
Proof.
  eexists. split.
  - eapply sent_cons; [vm_compute; reflexivity|]. eapply sent_cons; [vm_compute; reflexivity|]. apply sent_nil.
  - vm_compute. reflexivity.
Qed.

(** C03, full statement: a stream that ends inside a packet is detected.
    [forall p bs pre suf request cs, write_packet p = (bs, None) -> bs = pre ++ suf -> suf <> [] ->
     List.concat cs = pre -> exists e cs', receive_packet request cs = (Err e, cs')].
    False: the content of a file cut in the middle is accepted as the whole file, and a
    command is run in another directory. *)
Theorem C03_cut_detected_refuted :
  (exists c bs pre suf c' cs', write_packet (PDownloadResult c) = (bs, None) /\ bs = pre ++ suf /\ suf <> [] /\
     receive_packet (Some (PDownload (lit "/f"))) [pre] = (Ok (PDownloadResult c'), cs') /\ c <> c') /\
  (exists bs pre suf cs', write_packet (PProcessRun [lit "rm"] None true None None None (Some (lit "/tmp"))) = (bs, None) /\
     bs = pre ++ suf /\ suf <> [] /\
     receive_packet None [pre] = (Ok (PProcessRun [lit "rm"] None true None None None (Some (lit "/"))), cs')).
Proof.
  split.
  - exists (blit "secret"). eexists. exists (firstn 15 (fst (write_packet (PDownloadResult (blit "secret"))))), (blit "ret").
    exists (blit "sec"). eexists. split_and!; [vm_compute; reflexivity|vm_compute; reflexivity|discriminate|vm_compute; reflexivity|discriminate].
  - eexists. exists (firstn 37 (fst (write_packet (PProcessRun [lit "rm"] None true None None None (Some (lit "/tmp")))))), (blit "tmp").
    eexists. split_and!; [vm_compute; reflexivity|vm_compute; reflexivity|discriminate|vm_compute; reflexivity].
Qed.
Print Assumptions C03_cut_detected_refuted.

(** The part of C03 that holds: packets whose last field has a fixed width (among them all exit
    codes of commands) are never accepted when cut; any other accepted packet
    differs from the sent one only in that its last field lost its end. *)
Theorem C03_cut_detected_partial : forall p bs pre suf request cs,
  write_packet p = (bs, None) -> bs = pre ++ suf -> suf <> [] -> List.concat cs = pre -> fixed_end p ->
  exists e cs', receive_packet request cs = (Err e, cs').
Proof. exact cut_fixed_end. Qed.
Print Assumptions C03_cut_detected_partial.

Theorem C03_cut_shape_partial : forall p bs pre suf request cs p' cs',
  write_packet p = (bs, None) -> bs = pre ++ suf -> suf <> [] -> List.concat cs = pre ->
  receive_packet request cs = (Ok p', cs') -> packet_truncated p p'.
Proof. exact cut_shape. Qed.
Print Assumptions C03_cut_shape_partial.

Example C03_example : exists bs pre suf,
  write_packet (PProcessCompleted (Some (blit "out")) None 0) = (bs, None) /\ bs = pre ++ suf /\ suf <> [] /\
  fixed_end (PProcessCompleted (Some (blit "out")) None 0).
Proof.
  eexists. exists (firstn 16 (fst (write_packet (PProcessCompleted (Some (blit "out")) None 0)))). eexists.
  split_and!; [vm_compute; reflexivity|vm_compute; reflexivity|discriminate|exact I].
Qed.

(** C04. On arbitrary bytes [receive_packet] ends with one of the listed exceptions or with a packet all of
    whose fields are in range; [OutOfFuel], the model's artefact, is impossible. *)
Theorem C04_receiver_total : forall request cs r cs', receive_packet request cs = (r, cs') ->
  match r with
  | Ok p => small (List.concat cs) ->
      packet_ok p /\ (forall n s m, p <> POSError n s m) /\ (forall f m, p <> PInvalidField f m)
  | Err e => (exists m, e = IOErr m) \/ (exists n s m, e = RemoteOSError n s m) \/ (exists m, e = ValueError m)
             \/ e = UnicodeDecodeError \/ e = AttributeError \/ e = OverflowError
  end.
Proof. exact receive_total. Qed.
Print Assumptions C04_receiver_total.

Example C04_example_garbage : fst (receive_packet None [blit "GET / HTTP/1.1"]) = Err (IOErr (lit "Received invalid packet id")).
Proof. vm_compute. reflexivity. Qed.
Example C04_example_overflow :
  fst (receive_packet None [be_bytes 4 16; be_bytes 8 (2 ^ 64 - 1)]) = Err OverflowError.
Proof. vm_compute. reflexivity. Qed.
Example C04_example_ok : small (List.concat [be_bytes 4 16; be_bytes 8 1; blit "x"]) /\
  fst (receive_packet None [be_bytes 4 16; be_bytes 8 1; blit "x"]) = Ok (PDownload (lit "x")).
Proof. split; vm_compute; reflexivity. Qed.

(** C05, full statement: if sending [p1] raises, a following request [p2] is read by the peer as [p2].
    False for every unencodable request: its header is already in the output buffer. *)
Theorem C05_failed_send_harmless_refuted : exists p1 b1 p2 b2,
  write_packet p1 = (b1, Some UnicodeEncodeError) /\ write_packet p2 = (b2, None) /\
  forall cs, List.concat cs = b1 ++ b2 -> forall cs', receive_packet None cs <> (Ok p2, cs').
Proof.
  exists (PStat [55296%N] false false). eexists. exists (PGetenv (lit "HOME")). eexists.
  split_and!; [vm_compute; reflexivity|vm_compute; reflexivity|].
  intros cs Hcs cs' D.
  assert (W : write_packet (PStat [55296%N] false false) = (be_bytes 4 10, Some UnicodeEncodeError)) by (vm_compute; reflexivity).
  pose proof (write_failed_poison _ _ _ _ cs (snd (splitN 4 (be_bytes 4 10 ++ fst (write_packet (PGetenv (lit "HOME")))))) _ _ W Hcs D) as E.
  discriminate E.
Qed.
Print Assumptions C05_failed_send_harmless_refuted.

(** In fact every failed send makes the peer read a packet of the failed kind next ... *)
Theorem C05_failed_send_poisons : forall p b e request cs rest r cs',
  write_packet p = (b, Some e) -> List.concat cs = b ++ rest ->
  receive_packet request cs = (Ok r, cs') -> pid r = pid p.
Proof. exact write_failed_poison. Qed.
Print Assumptions C05_failed_send_poisons.

(** ... whereas requests with encodable fields never leave a partial packet behind. *)
Theorem C05_failed_send_harmless_partial : forall p b e, packet_ok p -> write_packet p <> (b, Some e).
Proof. intros p b e H. destruct (packet_ok_write p H) as [bs ->]. discriminate. Qed.
Print Assumptions C05_failed_send_harmless_partial.

Example C05_example : packet_ok (PStat (lit "/etc/passwd") true true).
Proof. split; [unfold text_ok; apply (bool_decide_unpack _); vm_compute; exact I|]. vm_compute. reflexivity. Qed.
