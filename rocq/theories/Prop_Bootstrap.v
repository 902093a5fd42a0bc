(** C75: starting the dispatcher. *)
From Verif Require Import Base Dict_proofs Urls Bootstrap Sh Spec_Bootstrap Bootstrap_proofs.
From Coq Require Import Lia ZifyBool ZifyN ZifyNat.
Local Open Scope nat_scope.

Lemma drop_newlines_spec l : exists n, l = replicate n 10%N ++ drop_newlines l /\ head (drop_newlines l) <> Some 10%N.
Proof.
  induction l as [|c l IH]; [exists 0; split; [reflexivity|discriminate]|]. cbn [drop_newlines].
  destruct (decide (c = 10%N)) as [->|N].
  - destruct IH as (n & E & H). exists (S n). split; [cbn [replicate app]; f_equal; exact E|exact H].
  - exists 0. destruct c as [|p]; [split; [reflexivity|discriminate]|].
    assert (E : match N.pos p with 10%N => drop_newlines l | _ => N.pos p :: l end = N.pos p :: l).
    { clear -N. destruct p as [p|p|]; try reflexivity. destruct p as [p|p|]; try reflexivity. destruct p as [p|p|]; try reflexivity.
      destruct p as [p|p|]; try reflexivity. congruence. }
    rewrite E. split; [reflexivity|]. cbn. congruence.
Qed.
Lemma substituted_spec s : 0%N ∉ s -> exists n, s = substituted s ++ replicate n 10%N /\ last (substituted s) <> Some 10%N.
Proof.
  intros H. unfold substituted. rewrite filter_all.
  2:{ apply Forall_forall. intros c Hc. destruct (decide (c = 0%N)) as [->|N]; [contradiction|lia]. }
  destruct (drop_newlines_spec (rev s)) as (n & E & K). exists n. split.
  - apply (f_equal (@rev N)) in E. rewrite rev_involutive, rev_app_distr in E. rewrite E at 1. f_equal. clear.
    induction n as [|n IH]; [reflexivity|]. cbn [replicate rev]. rewrite IH. clear. induction n as [|n IH]; [reflexivity|].
    cbn [replicate app]. f_equal. exact IH.
  - intros L. apply K. rewrite <- L. generalize (drop_newlines (rev s)) as l. clear. intros [|c l]; [reflexivity|].
    cbn [rev head]. rewrite last_snoc. reflexivity.
Qed.

Lemma launched_ssh compress program source debug :
  launched program (ssh_remote_command compress source debug) =
  Some ([lit "env"; lit "python3"; lit "-c";
         substituted (program [lit "python"; lit "-c"; inflate]
           (program [lit "base64"; lit "-d"] (program [lit "echo"; b64encode (compress source)] [])))] ++
        (if debug then [lit "--debug"] else [])).
Proof.
  unfold launched. rewrite outer_lexed.
  assert (L : exists d, length (ssh_remote_command compress source debug) = S d) by (eexists; reflexivity).
  destruct L as [d ->]. cbn [mbind option_bind].
  assert (W : expand (output program (S d)) [Text []; Subst (inner (b64encode (compress source))); Text []] =
    Some (substituted (program [lit "python"; lit "-c"; inflate]
           (program [lit "base64"; lit "-d"] (program [lit "echo"; b64encode (compress source)] []))))).
  { unfold expand. cbn [mapM expand_piece mbind option_bind]. rewrite inner_output by apply no_quote.
    cbn. rewrite app_nil_r. reflexivity. }
  destruct debug; cbn [app stages mapM]; rewrite !expand_plain, W; reflexivity.
Qed.

(** Over ssh: ssh is asked to connect to a url (never taken for an option) and hands over one command line.  The shell of the
    remote starts python3 with the source of the dispatcher, but for trailing newlines, and the flag "--debug" iff it was asked for. *)
Theorem C75_ssh_partial : forall compress program source debug opts url fallback,
  echo_works program -> base64_works program -> python_works compress program ->
  0%N ∉ of_bytes source ->
  exists dest command text argv n,
    ssh_command compress source debug opts url fallback = lit "ssh" :: default [] opts ++ [dest; command] /\
    startswith dest (lit "ssh://") = true /\
    remote_start program command = Some (Inline text, argv) /\
    of_bytes source = text ++ replicate n 10%N /\ last text <> Some 10%N /\
    dispatcher_debug argv = debug.
Proof.
  intros compress program source debug opts url fallback He Hb Hp Hz.
  destruct (substituted_spec _ Hz) as (n & Es & El).
  exists (ssh_connect_url url fallback), (ssh_remote_command compress source debug), (substituted (of_bytes source)),
    (lit "-c" :: if debug then [lit "--debug"] else []), n.
  split. { unfold ssh_command. destruct opts; reflexivity. }
  split.
  { unfold ssh_connect_url. destruct url as [u|]; [|apply startswith_app].
    destruct (startswith u (lit "ssh:")); [|apply startswith_app].
    destruct (startswith u (lit "ssh://")) eqn:E; cbn [negb]; [exact E|apply startswith_app]. }
  split.
  { unfold remote_start. rewrite launched_ssh.
    pose proof (He _ [] (encoded_printable (compress source))) as E1.
    pose proof (Hb _ _ (encoded_text (compress source))) as E2. pose proof (Hp source) as E3.
    rewrite E1, E2, E3. generalize (substituted (of_bytes source)) as t. clear. intros t. destruct debug; reflexivity. }
  split; [exact Es|]. split; [exact El|]. destruct debug; reflexivity.
Qed.
Print Assumptions C75_ssh_partial.

(** Without ssh: python3 is started with the file. *)
Theorem C75_local : forall file debug, startswith file (lit "/") = true ->
  exists argv, python3 (local_command file debug) = Some (File file, argv) /\ dispatcher_debug argv = debug.
Proof.
  intros [|c file] debug H; [discriminate|].
  assert (c = 47%N) as ->. { apply startswith_true in H as [r E]. change (c :: file = 47%N :: r) in E. injection E as E _. exact E. }
  exists (((47%N :: file) :: if debug then [lit "--debug"] else [])).
  split; [|destruct debug; reflexivity]. unfold python3, local_command. cbn [app].
  replace (str_eqb (47%N :: file) (lit "-c")) with false; [destruct debug; reflexivity|].
  symmetry. unfold str_eqb. apply bool_decide_eq_false_2. discriminate.
Qed.
Print Assumptions C75_local.

(** * Concrete remotes *)

Lemma no_zero (s : list N) : forallb (fun c => negb (c =? 0)%N) s = true -> 0%N ∉ s.
Proof. intros H K. eapply forallb_forall in H; [|apply elem_of_list_In, K]. discriminate. Qed.

Fixpoint octets (l : list bool) : list N :=
  match l with
  | a :: b :: c :: d :: e :: f :: g :: h :: r =>
      foldl (fun n (b : bool) => 2 * n + (if b then 1 else 0))%N 0%N [a; b; c; d; e; f; g; h] :: octets r
  | _ => []
  end.
Definition values (text : list N) : list N := omap (fun c => position c alphabet) text.
Definition host (python : bool) (argv : list (list N)) (input : list N) : list N :=
  match argv with
  | [p; a] => if str_eqb p (lit "echo") then a ++ [10%N]
              else if str_eqb p (lit "base64") && str_eqb a (lit "-d") then octets (values input ≫= bits 6) else []
  | [p; a; b] => if python && str_eqb p (lit "python") && str_eqb a (lit "-c") && str_eqb b inflate then rev input else []
  | _ => []
  end.
Lemma octets_bits v r : (v < 256)%N -> octets (bits 8 v ++ r) = v :: octets r.
Proof.
  intros H. change (octets (bits 8 v ++ r)) with (foldl (fun n (b : bool) => 2 * n + (if b then 1 else 0))%N 0%N (bits 8 v) :: octets r).
  f_equal. revert v H. apply (every_below (fun v => foldl (fun n (b : bool) => 2 * n + (if b then 1 else 0))%N 0%N (bits 8 v) = v) 256).
  vm_compute. reflexivity.
Qed.
Lemma octets_few m : m < 8 -> octets (replicate m false) = [].
Proof. intros H. do 8 (destruct m as [|m]; [reflexivity|]). lia. Qed.
Lemma octets_all out m : Forall (fun v => (v < 256)%N) out -> m < 8 -> octets ((out ≫= bits 8) ++ replicate m false) = out.
Proof.
  intros H K. induction H as [|v out Hv Ho IH]; [apply octets_few, K|].
  change ((v :: out) ≫= bits 8) with (bits 8 v ++ (out ≫= bits 8)). rewrite <- app_assoc, octets_bits by exact Hv. f_equal. exact IH.
Qed.
Lemma values_clean text : values (List.filter (fun c => negb (c =? 10)%N) text) = values text.
Proof.
  induction text as [|c text IH]; [reflexivity|]. cbn [List.filter]. destruct (c =? 10)%N eqn:E; cbn [negb].
  - assert (c = 10%N) as -> by lia. exact IH.
  - unfold values in *. cbn. rewrite IH. reflexivity.
Qed.
Lemma values_body body vs n : Forall2 (fun c v => position c alphabet = Some v) body vs -> values (body ++ replicate n 61%N) = vs.
Proof.
  induction 1 as [|c v body vs H K IH].
  - cbn [app]. induction n as [|n IH]; [reflexivity|exact IH].
  - unfold values in *. cbn [app omap list_omap]. rewrite H. f_equal. exact IH.
Qed.
Lemma host_echo b : echo_works (host b).
Proof. intros s input _. reflexivity. Qed.
Lemma host_base64 b : base64_works (host b).
Proof.
  intros text out (body & vs & n & m & E & Hn & Hl & Hv & Hbits & Hm & Ho).
  change (octets (values text ≫= bits 6) = out). rewrite <- values_clean, E, (values_body _ _ _ Hv), Hbits. apply octets_all; assumption.
Qed.
Lemma host_python : python_works (@rev byte) (host true).
Proof. intros s. change (rev (of_bytes (rev s)) = of_bytes s). unfold of_bytes. rewrite map_rev, rev_involutive. reflexivity. Qed.

(** The statement one expects:
      forall compress program source debug, echo_works program -> base64_works program ->
        (python3 is installed, with a zlib that undoes [compress]) -> 0%N ∉ of_bytes source ->
        exists text argv n, remote_start program (ssh_remote_command compress source debug) = Some (Inline text, argv) /\
          of_bytes source = text ++ replicate n 10%N.
    False: the command needs a program named "python" besides "python3".  Without it python3 runs an empty program. *)
Theorem C75_python_refuted : exists compress program source,
  echo_works program /\ base64_works program /\ no_program program (lit "python") /\
  0%N ∉ of_bytes source /\ of_bytes source <> [] /\
  forall debug, exists argv, remote_start program (ssh_remote_command compress source debug) = Some (Inline [], argv).
Proof.
  exists (@rev byte), (host false), (blit "import sys").
  split; [apply host_echo|]. split; [apply host_base64|]. split.
  { intros [|a [|b [|c r]]] input; reflexivity. }
  split; [apply no_zero; vm_compute; reflexivity|].
  split; [vm_compute; discriminate|].
  intros [|]; eexists; vm_compute; reflexivity.
Qed.
Print Assumptions C75_python_refuted.

(** A source with quotes, dollars, backquotes and backslashes, that ends with a newline. *)
Definition nasty : bytes := blit "print('$(rm -rf /)', ""`id`"", '\n')" ++ [n2b 10; n2b 10].
Example C75_case :
  echo_works (host true) /\ base64_works (host true) /\ python_works (@rev byte) (host true) /\ 0%N ∉ of_bytes nasty /\
  remote_start (host true) (ssh_remote_command (@rev byte) nasty true) =
    Some (Inline (lit "print('$(rm -rf /)', ""`id`"", '\n')"), [lit "-c"; lit "--debug"]) /\
  remote_start (host true) (ssh_remote_command (@rev byte) nasty false) =
    Some (Inline (lit "print('$(rm -rf /)', ""`id`"", '\n')"), [lit "-c"]) /\
  ssh_command (@rev byte) (blit "x") false None (Some (lit "ssh:web")) [] =
    [lit "ssh"; lit "ssh://web"; lit "env python3 -c ""$(echo 'eA==' | base64 -d | python -c 'import zlib,sys;sys.stdout.buffer.write(zlib.decompress(sys.stdin.buffer.read()))')"" "].
Proof.
  split; [apply host_echo|]. split; [apply host_base64|]. split; [apply host_python|].
  split; [apply no_zero; vm_compute; reflexivity|].
  split; [vm_compute; reflexivity|]. split; vm_compute; reflexivity.
Qed.
