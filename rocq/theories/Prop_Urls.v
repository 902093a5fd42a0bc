(** Properties C34 and C35: host names of urls. *)
From Verif Require Import Base Urls.

(** The parts of an ssh url [ssh://[user@]host[:port]]. *)
Definition ssh_part (user : option pystr) (host : pystr) (port : option pystr) : pystr :=
  match user with Some u => u ++ lit "@" | None => [] end ++ host ++
  match port with Some p => lit ":" ++ p | None => [] end.
(** a host name or address without the delimiters of urls *)
Definition plain (s : pystr) : Prop := 64%N ∉ s /\ 58%N ∉ s.

Lemma find_char_notin c s : c ∉ s -> find_char c s = None.
Proof.
  induction s as [|d s IH]; intros H; [reflexivity|]. cbn. destruct (N.eqb_spec d c) as [->|].
  - exfalso. apply H. left.
  - rewrite IH; [reflexivity|]. intros Hs. apply H. right. exact Hs.
Qed.
Lemma find_char_app c s r : c ∉ s -> find_char c (s ++ c :: r) = Some (length s).
Proof.
  induction s as [|d s IH]; intros H; cbn; [rewrite N.eqb_refl; reflexivity|].
  destruct (N.eqb_spec d c) as [->|]; [exfalso; apply H; left|].
  rewrite IH; [reflexivity|]. intros Hs. apply H. right. exact Hs.
Qed.
Lemma has_char_false c s : c ∉ s -> has_char c s = false.
Proof.
  unfold has_char. induction s as [|d s IH]; intros H; [reflexivity|]. cbn.
  destruct (N.eqb_spec c d) as [->|]; [exfalso; apply H; left|]. apply IH. intros Hs. apply H. right. exact Hs.
Qed.

Lemma ssh_name user host port : plain host -> match user with Some u => 64%N ∉ u | None => True end ->
  match user, port with None, Some p => 64%N ∉ p | _, _ => True end ->
  ssh_extract_hostname (lit "ssh://" ++ ssh_part user host port) = Ok host.
Proof.
  intros [Ha Hc] Hu Hp. unfold ssh_extract_hostname.
  assert (Hs : startswith (lit "ssh://" ++ ssh_part user host port) (lit "ssh:") = true) by reflexivity.
  rewrite Hs. cbn [negb]. change (skipn 6 (lit "ssh://" ++ ssh_part user host port)) with (ssh_part user host port).
  assert (G : forall r, match find_char 58 (host ++ match port with Some p => lit ":" ++ p | None => [] end) with
    | Some pos => firstn pos (host ++ match port with Some p => lit ":" ++ p | None => [] end)
    | None => host ++ match port with Some p => lit ":" ++ p | None => [] end end = r <-> r = host).
  { intros r. destruct port as [p|].
    - change (lit ":" ++ p) with (58%N :: p). rewrite find_char_app by assumption. rewrite take_app. split; congruence.
    - rewrite app_nil_r, find_char_notin by assumption. split; congruence. }
  f_equal. unfold ssh_part. destruct user as [u|].
  - change (lit "@") with [64%N]. rewrite <- (assoc_L app u [64%N]). cbn [app]. rewrite find_char_app by assumption.
    replace (skipn (length u + 1) (u ++ 64%N :: host ++ _)) with (host ++ match port with Some p => lit ":" ++ p | None => [] end).
    + apply G. reflexivity.
    + replace (u ++ 64%N :: host ++ match port with Some p => lit ":" ++ p | None => [] end)
        with ((u ++ [64%N]) ++ host ++ match port with Some p => lit ":" ++ p | None => [] end) by (rewrite <- (assoc_L app); reflexivity).
      rewrite drop_app_alt; [reflexivity|]. rewrite app_length. reflexivity.
  - cbn [app]. rewrite (find_char_notin 64).
    + apply G. reflexivity.
    + rewrite elem_of_app. intros [H|H]; [contradiction|]. destruct port as [p|]; [|inversion H].
      apply elem_of_cons in H as [H|H]; [discriminate|contradiction].
Qed.

(** C34. The name of [ssh://[user@]host[:port]] is [host]; the name of [local:name] is [name], or
    localhost if it is empty; urls without a schema are ssh urls, other urls are kept. *)
Theorem C34_ssh_hostname : forall user host port,
  plain host -> match user with Some u => 64%N ∉ u | None => True end ->
  match user, port with None, Some p => 64%N ∉ p | _, _ => True end ->
  extract_hostname (lit "ssh://" ++ ssh_part user host port) = Ok host.
Proof. intros. unfold extract_hostname. cbn -[ssh_extract_hostname ssh_part]. apply ssh_name; assumption. Qed.
Print Assumptions C34_ssh_hostname.

Theorem C34_local_hostname : forall name,
  extract_hostname (lit "local:" ++ name) = Ok (if decide (name = []) then lit "localhost" else name).
Proof. intros [|c name]; reflexivity. Qed.
Print Assumptions C34_local_hostname.

Theorem C34_unqualified : forall url,
  (58%N ∉ url -> qualify_url url = lit "ssh://" ++ url) /\ (58%N ∈ url -> qualify_url url = url) /\
  has_char 58 (qualify_url url) = true.
Proof.
  intros url. unfold qualify_url. split_and!.
  - intros H. rewrite has_char_false by assumption. reflexivity.
  - intros H. assert (Hc : has_char 58 url = true).
    { apply existsb_exists. exists 58%N. split; [apply elem_of_list_In, H|reflexivity]. }
    rewrite Hc. reflexivity.
  - destruct (has_char 58 url) eqn:E; [exact E|reflexivity].
Qed.
Print Assumptions C34_unqualified.

(** A bare "user@host" is named after its host. *)
Theorem C34_bare : forall user host, plain host -> 64%N ∉ user -> 58%N ∉ user ->
  extract_hostname (qualify_url (user ++ lit "@" ++ host)) = Ok host /\ extract_hostname (qualify_url host) = Ok host.
Proof.
  intros user host Hh Hu Hc. destruct Hh as [Ha Hb].
  assert (Hn : 58%N ∉ user ++ lit "@" ++ host).
  { rewrite !elem_of_app. intros [H|[H|H]]; try contradiction. apply elem_of_list_singleton in H. discriminate. }
  rewrite (proj1 (C34_unqualified (user ++ lit "@" ++ host)) Hn), (proj1 (C34_unqualified host) Hb). split.
  - pose proof (C34_ssh_hostname (Some user) host None) as H. unfold ssh_part in H. rewrite app_nil_r, <- (assoc_L app) in H.
    apply H; [split; assumption|assumption|exact I].
  - pose proof (C34_ssh_hostname None host None) as H. unfold ssh_part in H. rewrite app_nil_r in H.
    apply H; [split; assumption|exact I|exact I].
Qed.
Print Assumptions C34_bare.

Example C34_example : extract_hostname (qualify_url (lit "ssh://root@web-1.example.com:2222")) = Ok (lit "web-1.example.com")
  /\ plain (lit "web-1.example.com").
Proof.
  split; [vm_compute; reflexivity|]. split; apply (bool_decide_unpack _); vm_compute; exact I.
Qed.

(** C35, full statement: [forall h, plain h -> extract_hostname (lit "ssh:" ++ h) = extract_hostname (lit "ssh://" ++ h)].
    False: the connector treats both alike, but two characters of the name are lost. *)
Theorem C35_short_ssh_refuted : exists h, plain h /\
  ssh_connect_url (Some (lit "ssh:" ++ h)) [] = ssh_connect_url (Some (lit "ssh://" ++ h)) [] /\
  extract_hostname (lit "ssh://" ++ h) = Ok h /\ extract_hostname (lit "ssh:" ++ h) <> Ok h.
Proof.
  exists (lit "example.com"). split_and!; try (vm_compute; reflexivity).
  - split; apply (bool_decide_unpack _); vm_compute; exact I.
  - vm_compute. discriminate.
Qed.
Print Assumptions C35_short_ssh_refuted.

(** What holds: both forms connect to the same place. *)
Theorem C35_short_ssh_partial : forall h f, startswith h (lit "//") = false ->
  ssh_connect_url (Some (lit "ssh:" ++ h)) f = ssh_connect_url (Some (lit "ssh://" ++ h)) f.
Proof.
  intros h f H. unfold ssh_connect_url.
  assert (E : startswith (lit "ssh:" ++ h) (lit "ssh://") = startswith h (lit "//")) by reflexivity.
  rewrite E, H. destruct h; reflexivity.
Qed.
Print Assumptions C35_short_ssh_partial.
Example C35_example : startswith (lit "example.com") (lit "//") = false.
Proof. reflexivity. Qed.
