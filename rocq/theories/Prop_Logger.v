(** C64, C65, C69, C70: what is shown of remote data. *)
From Coq Require Import Lia ZifyBool ZifyN ZifyNat.
From stdpp Require Import list.
From Verif Require Import Base Utf8 Utf8_proofs Op Logger.
Local Open Scope N_scope.

(** ** Specification *)
(** C0 and C1 control characters and DEL *)
Definition control (c : N) : Prop := c < 32 \/ 127 <= c < 160.
Definition plain (s : pystr) : Prop := Forall (fun c => ~ control c) s.
(** [s] with one colour around it *)
Definition coloured (s t : pystr) : Prop := exists k, k ∈ [lit "[31m"; lit "[32m"; lit "[33m"; lit "[34m"; lit "[90m"] /\ t = (27 :: k) ++ s ++ 27 :: lit "[m".

(** ** Ellipsis *)
Theorem C65_ellipsis_partial : forall s w, (1 <= w)%Z ->
  (Z.of_nat (length (ellipsis s w)) <= w)%Z /\ ((Z.of_nat (length s) <= w)%Z -> ellipsis s w = s) /\
  ((w < Z.of_nat (length s))%Z -> Z.of_nat (length (ellipsis s w)) = w /\ exists p, ellipsis s w = p ++ [8230] /\ p `prefix_of` s).
Proof.
  intros s w Hw. unfold ellipsis, upto. destruct (Z.ltb_spec w (Z.of_nat (length s))); [|split_and!; [lia|reflexivity|lia]].
  destruct (Z.ltb_spec (w - 1) 0); [lia|]. rewrite app_length, firstn_length. cbn [length].
  split_and!; [lia|lia|]. intros _. split; [lia|]. eexists. split; [reflexivity|]. exists (skipn (Z.to_nat (w - 1)) s). symmetry. apply firstn_skipn.
Qed.
Print Assumptions C65_ellipsis_partial.
Example C65_example : ellipsis (lit "a long text") 9 = lit "a long t" ++ [8230] /\ ellipsis (lit "short") 9 = lit "short".
Proof. split; vm_compute; reflexivity. Qed.
(** Full statement (false): [forall s w, (0 <= w)%Z -> (Z.of_nat (length (ellipsis s w)) <= w)%Z].  No caller uses width 0. *)
Theorem C65_ellipsis_refuted : exists s w, (0 <= w)%Z /\ (w < Z.of_nat (length (ellipsis s w)))%Z.
Proof. exists (lit "ab"), 0%Z. split; [lia|]. vm_compute. reflexivity. Qed.
Print Assumptions C65_ellipsis_refuted.

(** ** Escaping *)
Lemma hexdigit_plain n : n < 16 -> ~ control (hexdigit n).
Proof. intros H [X|X]; unfold hexdigit in X; destruct (N.ltb_spec n 10); lia. Qed.
Lemma hex_escape_plain n : n < 256 -> plain (hex_escape n).
Proof.
  intros H. unfold hex_escape. repeat constructor; try (intros [X|X]; lia); apply hexdigit_plain.
  - apply N.div_lt_upper_bound; lia.
  - apply N.mod_lt. lia.
Qed.
Lemma escape_plain c : plain (escape_char c).
Proof.
  unfold escape_char. repeat (match goal with |- context [if ?x =? ?y then _ else _] => destruct (N.eqb_spec x y); [repeat constructor; intros [X|X]; vm_compute in X; first [discriminate|destruct X; discriminate || (destruct X as [X _]; apply X; reflexivity) || congruence]|] end).
  destruct ((c <=? 255) && negb (isprintable_latin1 c)) eqn:E.
  - apply hex_escape_plain. lia.
  - repeat constructor. unfold isprintable_latin1 in E. intros [X|X]; lia.
Qed.
Lemma plain_concat l : Forall plain l -> plain (List.concat l).
Proof. intros H. induction H; [constructor|]. apply Forall_app_2; assumption. Qed.
(** C64: no byte string makes the diff contain a control character, except those of the file name and the colours. *)
Theorem C64_decode_escape : forall b, plain (decode_escape b).
Proof. intros b. apply plain_concat. apply Forall_forall. intros x Hx. apply elem_of_list_In, List.in_map_iff in Hx as (c & <- & _). apply escape_plain. Qed.
Print Assumptions C64_decode_escape.
Theorem C64_diff : forall unified filename old new l, diff_shown unified filename old new false = Ok l -> plain filename -> Forall plain l.
Proof.
  intros unified filename old new l [= <-] Hf.
  assert (Ht : plain (diff_title filename old new)).
  { unfold diff_title. assert (Hc : plain (lit "created") /\ plain (lit "deleted") /\ plain (lit "modified") /\ plain (lit ": ")) by (split_and!; repeat constructor; intros [X|X]; vm_compute in X; intuition congruence).
    destruct Hc as (H1 & H2 & H3 & H4). apply Forall_app_2; [destruct old, new; assumption|]. apply Forall_app_2; assumption. }
  assert (Hr : plain (repeat 9472 (length (diff_title filename old new)))).
  { apply Forall_forall. intros c Hc. apply elem_of_list_In, repeat_spec in Hc as ->. intros [X|X]; lia. }
  repeat constructor; try assumption. apply Forall_forall. intros x Hx. apply elem_of_list_In, List.in_map_iff in Hx as (c & <- & _). apply C64_decode_escape.
Qed.
Print Assumptions C64_diff.
Lemma color_all_spec l : forall l', color_all l = Ok l' -> Forall2 coloured l l'.
Proof.
  induction l as [|x l IH]; cbn; intros l' E; [injection E as <-; constructor|]. destruct x as [|c x]; [discriminate|]. cbn in E.
  destruct (color_all l) as [t|]; [|discriminate]. cbn in E. injection E as <-. constructor; [|apply IH; reflexivity].
  destruct (c =? 43); [|destruct (c =? 45); [|destruct (c =? 64)]]; unfold coloured, sgr, reset; eexists; (split; [|reflexivity]); set_solver.
Qed.
Theorem C64_diff_coloured : forall unified filename old new l, diff_shown unified filename old new true = Ok l ->
  exists l0, diff_shown unified filename old new false = Ok l0 /\ Forall2 coloured l0 l.
Proof.
  intros unified filename old new l E. unfold diff_shown in *. destruct (color_all _) as [t|] eqn:Et; [|discriminate]. injection E as <-.
  eexists. split; [reflexivity|]. cbn [app List.map].
  do 3 (constructor; [exists (lit "[33m"); (split; [set_solver|reflexivity])|]). apply color_all_spec. exact Et.
Qed.
Print Assumptions C64_diff_coloured.
Example C64_example : exists l, diff_shown (fun a b => [blit "---"; blit "+++"; blit "@@"; n2b 43 :: n2b 27 :: n2b 255 :: n2b 194 :: n2b 155 :: blit "x"]) (lit "/f") None (Some (blit "x")) true = Ok l /\
  List.last l [] = sgr "[32m" ++ lit "+\x1b\xff\x9bx" ++ reset.
Proof. eexists. split; vm_compute; reflexivity. Qed.

(** Full statement (false): [forall out err o e, process_error_shown out err = Ok (o, e) -> plain_lines o /\ plain_lines e], where line breaks
    are the only control characters allowed.  The text is announced as "special characters escaped", but a command that prints ESC and
    then fails controls the terminal. *)
Theorem C64_error_output_refuted : exists out err o e, process_error_shown out err = Ok (o, e) /\ 27 ∈ o /\ 27 ∈ e.
Proof. exists (Some [n2b 27]), (Some [n2b 27]), [27], [27]. split; [vm_compute; reflexivity|]. split; left. Qed.
Print Assumptions C64_error_output_refuted.
(** What does hold: bytes that are not UTF-8 are escaped. *)
Lemma bsr_spec b : utf8_dec (fun x => Some (hex_escape (b2n x))) b = Some (utf8_decode_bsr b).
Proof. unfold utf8_decode_bsr. destruct (dec_total (fun x => Some (hex_escape (b2n x))) (fun _ => ltac:(eauto)) b) as [s ->]. reflexivity. Qed.

(** Text that a failed command printed is shown as it is, what it wrote to stdout as stdout and what it wrote to stderr as stderr. *)
Theorem C64_error_output : forall o e bo be, utf8_encode o = Some bo -> utf8_encode e = Some be -> process_error_shown (Some bo) (Some be) = Ok (o, e).
Proof.
  intros o e bo be Ho He. cbn [process_error_shown from_option mbind result_bind].
  assert (K : forall s b, utf8_encode s = Some b -> utf8_decode_bsr b = s).
  { intros s b H. pose proof (bsr_spec b) as E. rewrite <- (app_nil_r b) in E at 1. rewrite (dec_encode _ s b [] H) in E.
    cbn in E. injection E as E. rewrite app_nil_r in E. symmetry. exact E. }
  rewrite (K o bo Ho), (K e be He). reflexivity.
Qed.
Print Assumptions C64_error_output.
Example C64_error_case : process_error_shown (Some (blit "done")) (Some [n2b 195; n2b 164]) = Ok (lit "done", [228]).
Proof. apply C64_error_output; vm_compute; reflexivity. Qed.

(** ** C69: the reported states *)
(** Full statement (false): [forall … l, state_infos … = Ok l -> Forall plain l] for keys that are plain and without colours.  The target of a
    link on the remote is shown as it is, at whatever verbosity. *)
Theorem C69_state_refuted : forall py_str verbose, exists initial final l, state_infos py_str false verbose initial final = Ok l /\
  (exists t, initial = [(lit "target", VStr t)]) /\ final = [(lit "target", VStr (lit "/a"))] /\ exists x, x ∈ l /\ 27 ∈ x.
Proof.
  intros py_str verbose. exists [(lit "target", VStr (27 :: lit "[2J"))], [(lit "target", VStr (lit "/a"))].
  unfold state_infos. cbn [is_None]. change (dget (lit "target") [(lit "target", VStr (27 :: lit "[2J"))]) with (Some (VStr (27 :: lit "[2J"))).
  cbn [from_option mbind result_bind to_str is_None]. change (py_eq (VStr (27 :: lit "[2J")) (VStr (lit "/a"))) with false. cbn match.
  eexists. split; [reflexivity|]. split; [eauto|]. split; [reflexivity|]. eexists. split; [left|].
  assert (H : shorten verbose 9 (27 :: lit "[2J") = 27 :: lit "[2J") by (unfold shorten; destruct (verbose =? 0); reflexivity). rewrite H.
  do 4 (apply elem_of_app; right). apply elem_of_app. left. left.
Qed.
Print Assumptions C69_state_refuted.

(** ** C70: the exception of a failed command reaches the caller *)
(** Full statement (false): [forall e printed, script_raises e printed = e].  A command whose output was not captured. *)
Theorem C70_error_kept_refuted : exists e, script_raises e false <> e /\ exists rc cmd, e = CalledProcessError rc None None cmd.
Proof. exists (CalledProcessError 1 None None [lit "false"]). split; [discriminate|eauto]. Qed.
Print Assumptions C70_error_kept_refuted.
Theorem C70_error_kept_partial : forall e printed, (forall rc out err cmd, e = CalledProcessError rc out err cmd -> is_Some out /\ is_Some err) ->
  script_raises e printed = e.
Proof.
  intros e printed H. destruct e; try reflexivity. cbn. destruct printed; [reflexivity|]. destruct (H _ _ _ _ eq_refl) as [[o ->] [x ->]]. reflexivity.
Qed.
Print Assumptions C70_error_kept_partial.
Example C70_example : script_raises (CalledProcessError 1 (Some [n2b 255]) (Some []) [lit "false"]) false = CalledProcessError 1 (Some [n2b 255]) (Some []) [lit "false"].
Proof. reflexivity. Qed.
