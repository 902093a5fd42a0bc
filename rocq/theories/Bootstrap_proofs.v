(** base64 and the shell. *)
From Verif Require Import Base Urls Bootstrap Sh Spec_Bootstrap.
From Coq Require Import Lia ZifyBool ZifyN ZifyNat.
Local Open Scope nat_scope.

(** * base64 *)

Lemma byte_below (a : byte) : (b2n a < 256)%N.
Proof. unfold b2n. apply N_ascii_bounded. Qed.
(** all the numbers below a bound *)
Definition below (n : nat) : list N := List.map N.of_nat (seq 0 n).
Lemma in_below v n : (v < N.of_nat n)%N -> In v (below n).
Proof. intros H. unfold below. apply in_map_iff. exists (N.to_nat v). split; [lia|]. apply in_seq. lia. Qed.
Lemma all_below (f : N -> bool) n : forallb f (below n) = true -> forall v, (v < N.of_nat n)%N -> f v = true.
Proof. intros H v Hv. eapply forallb_forall in H; [exact H|]. apply in_below, Hv. Qed.
Lemma every_below (P : N -> Prop) `{forall v, Decision (P v)} n :
  forallb (fun v => bool_decide (P v)) (below n) = true -> forall v, (v < N.of_nat n)%N -> P v.
Proof. intros K v Hv. apply (all_below _ _ K) in Hv. apply bool_decide_eq_true_1 in Hv. exact Hv. Qed.

Lemma char_known v : (v < 64)%N -> position (b64_char v) alphabet = Some v.
Proof.
  intros H. apply (every_below (fun v => position (b64_char v) alphabet = Some v) 64); [vm_compute; reflexivity|exact H].
Qed.
Lemma char_tame v : (v < 64)%N -> let c := b64_char v in c <> 10%N /\ c <> 39%N /\ c <> 92%N /\ c <> 45%N.
Proof.
  intros H. cbv zeta.
  pose proof (all_below (fun v => negb (b64_char v =? 10)%N && negb (b64_char v =? 39)%N && negb (b64_char v =? 92)%N && negb (b64_char v =? 45)%N)
    64 ltac:(vm_compute; reflexivity) v H) as K. cbv beta in K. lia.
Qed.

Lemma bits_high a : (a < 256)%N -> bits 8 a = bits 6 (a / 4) ++ bits 2 (a mod 4).
Proof.
  intros H. apply (every_below (fun a => bits 8 a = bits 6 (a / 4)%N ++ bits 2 (a mod 4)%N) 256); [vm_compute; reflexivity|exact H].
Qed.
Lemma bits_mid a : (a < 256)%N -> bits 8 a = bits 4 (a / 16) ++ bits 4 (a mod 16).
Proof.
  intros H. apply (every_below (fun a => bits 8 a = bits 4 (a / 16)%N ++ bits 4 (a mod 16)%N) 256); [vm_compute; reflexivity|exact H].
Qed.
Lemma bits_low a : (a < 256)%N -> bits 8 a = bits 2 (a / 64) ++ bits 6 (a mod 64).
Proof.
  intros H. apply (every_below (fun a => bits 8 a = bits 2 (a / 64)%N ++ bits 6 (a mod 64)%N) 256); [vm_compute; reflexivity|exact H].
Qed.
Lemma bits_join2 x y : (x < 4)%N -> (y < 16)%N -> bits 6 (x * 16 + y) = bits 2 x ++ bits 4 y.
Proof.
  intros H K. apply (every_below (fun y => bits 6 (x * 16 + y)%N = bits 2 x ++ bits 4 y) 16); [|exact K].
  refine (all_below (fun x => forallb (fun y => bool_decide (bits 6 (x * 16 + y)%N = bits 2 x ++ bits 4 y)) (below 16)) 4 _ x H). vm_compute. reflexivity.
Qed.
Lemma bits_join4 x y : (x < 16)%N -> (y < 4)%N -> bits 6 (x * 4 + y) = bits 4 x ++ bits 2 y.
Proof.
  intros H K. apply (every_below (fun y => bits 6 (x * 4 + y)%N = bits 4 x ++ bits 2 y) 4); [|exact K].
  refine (all_below (fun x => forallb (fun y => bool_decide (bits 6 (x * 4 + y)%N = bits 4 x ++ bits 2 y)) (below 4)) 16 _ x H). vm_compute. reflexivity.
Qed.

(** the characters and the padding *)
Lemma list_three {A} (P : list A -> Prop) :
  P [] -> (forall a, P [a]) -> (forall a b, P [a; b]) -> (forall a b c r, P r -> P (a :: b :: c :: r)) -> forall l, P l.
Proof.
  intros H0 H1 H2 H3. fix IH 1. intros [|a [|b [|c r]]]; [exact H0|apply H1|apply H2|apply H3, IH].
Qed.
Lemma div_below a n m : (a < n * m)%N -> (n <> 0)%N -> (a / n < m)%N.
Proof. intros H K. apply N.div_lt_upper_bound; assumption. Qed.

Lemma encoded (l : bytes) : exists body vs n m,
  b64encode l = body ++ replicate n 61%N /\ n <= 2 /\ Nat.modulo (length body + n) 4 = 0 /\
  Forall (fun c => exists v, (v < 64)%N /\ c = b64_char v) body /\
  Forall2 (fun c v => position c alphabet = Some v) body vs /\
  vs ≫= bits 6 = (of_bytes l ≫= bits 8) ++ replicate m false /\ m < 8.
Proof.
  induction l as [|a|a b|a b c r IH] using list_three.
  - exists [], [], 0, 0. repeat split; try constructor; try lia.
  - pose proof (byte_below a) as Ha.
    assert (A1 : (b2n a / 4 < 64)%N) by (apply div_below; lia).
    assert (A2 : (b2n a mod 4 < 4)%N) by (apply N.mod_lt; lia).
    exists [b64_char (b2n a / 4); b64_char (b2n a mod 4 * 16)]%N, [b2n a / 4; b2n a mod 4 * 16]%N, 2, 4.
    split; [reflexivity|]. split; [lia|]. split; [reflexivity|]. split.
    { constructor; [eexists; split; [|reflexivity]; lia|]. constructor; [eexists; split; [|reflexivity]; lia|]. constructor. }
    split. { constructor; [apply char_known; lia|]. constructor; [apply char_known; lia|constructor]. }
    split; [|lia]. unfold of_bytes. cbn [List.map mbind list_bind]. rewrite (bits_high _ Ha).
    replace (b2n a mod 4 * 16)%N with (b2n a mod 4 * 16 + 0)%N by lia. rewrite (bits_join2 _ 0 A2) by lia.
    change (bits 4 0) with (replicate 4 false). rewrite !app_nil_r. rewrite <- !app_assoc. reflexivity.
  - pose proof (byte_below a) as Ha. pose proof (byte_below b) as Hb.
    assert (A1 : (b2n a / 4 < 64)%N) by (apply div_below; lia).
    assert (A2 : (b2n a mod 4 < 4)%N) by (apply N.mod_lt; lia).
    assert (B1 : (b2n b / 16 < 16)%N) by (apply div_below; lia).
    assert (B2 : (b2n b mod 16 < 16)%N) by (apply N.mod_lt; lia).
    exists [b64_char (b2n a / 4); b64_char (b2n a mod 4 * 16 + b2n b / 16); b64_char (b2n b mod 16 * 4)]%N,
      [b2n a / 4; b2n a mod 4 * 16 + b2n b / 16; b2n b mod 16 * 4]%N, 1, 2.
    split; [reflexivity|]. split; [lia|]. split; [reflexivity|]. split.
    { repeat (constructor; [eexists; split; [|reflexivity]; lia|]). constructor. }
    split. { repeat (constructor; [apply char_known; lia|]). constructor. }
    split; [|lia]. unfold of_bytes. cbn [List.map mbind list_bind]. rewrite (bits_high _ Ha), (bits_mid _ Hb), (bits_join2 _ _ A2 B1).
    replace (b2n b mod 16 * 4)%N with (b2n b mod 16 * 4 + 0)%N by lia. rewrite (bits_join4 _ 0 B2) by lia.
    change (bits 2 0) with (replicate 2 false). rewrite !app_nil_r. rewrite <- !app_assoc. reflexivity.
  - destruct IH as (body & vs & n & m & E & Hn & Hl & Ht & Hp & Hb & Hm).
    pose proof (byte_below a) as Ka. pose proof (byte_below b) as Kb. pose proof (byte_below c) as Kc.
    assert (A1 : (b2n a / 4 < 64)%N) by (apply div_below; lia).
    assert (A2 : (b2n a mod 4 < 4)%N) by (apply N.mod_lt; lia).
    assert (B1 : (b2n b / 16 < 16)%N) by (apply div_below; lia).
    assert (B2 : (b2n b mod 16 < 16)%N) by (apply N.mod_lt; lia).
    assert (C1 : (b2n c / 64 < 4)%N) by (apply div_below; lia).
    assert (C2 : (b2n c mod 64 < 64)%N) by (apply N.mod_lt; lia).
    exists ([b64_char (b2n a / 4); b64_char (b2n a mod 4 * 16 + b2n b / 16); b64_char (b2n b mod 16 * 4 + b2n c / 64);
             b64_char (b2n c mod 64)]%N ++ body),
      ([b2n a / 4; b2n a mod 4 * 16 + b2n b / 16; b2n b mod 16 * 4 + b2n c / 64; b2n c mod 64]%N ++ vs), n, m.
    split. { cbn [b64encode]. rewrite E, <- app_assoc. reflexivity. }
    split; [exact Hn|]. split.
    { rewrite app_length. cbn [length]. replace (4 + length body + n) with (length body + n + 1 * 4) by lia.
      rewrite Nat.mod_add by lia. exact Hl. }
    split. { repeat (constructor; [eexists; split; [|reflexivity]; lia|]). exact Ht. }
    split. { repeat (constructor; [apply char_known; lia|]). exact Hp. }
    split; [|exact Hm]. cbn [app]. unfold of_bytes in *. cbn [List.map mbind list_bind] in *. rewrite Hb.
    rewrite (bits_high _ Ka), (bits_mid _ Kb), (bits_low _ Kc), (bits_join2 _ _ A2 B1), (bits_join4 _ _ B2 C1).
    rewrite <- !app_assoc. reflexivity.
Qed.
Lemma filter_all {A} (f : A -> bool) l : Forall (fun x => f x = true) l -> List.filter f l = l.
Proof. induction 1 as [|x l H K IH]; [reflexivity|]. cbn [List.filter]. rewrite H, IH. reflexivity. Qed.

(** the characters of an encoded text *)
Lemma encoded_chars (l : bytes) : Forall (fun c => c <> 10%N /\ c <> 39%N /\ c <> 92%N /\ c <> 45%N) (b64encode l).
Proof.
  destruct (encoded l) as (body & vs & n & m & E & Hn & Hl & Ht & _). rewrite E. apply Forall_app. split.
  - eapply Forall_impl; [exact Ht|]. intros c (v & Hv & ->). apply char_tame, Hv.
  - clear. induction n; constructor; [lia|assumption].
Qed.
Lemma encoded_text (l : bytes) : encodes (b64encode l ++ [10%N]) (of_bytes l).
Proof.
  pose proof (encoded_chars l) as Hc.
  destruct (encoded l) as (body & vs & n & m & E & Hn & Hl & Ht & Hp & Hb & Hm).
  exists body, vs, n, m. split.
  { rewrite List.filter_app, filter_all; [cbn; rewrite app_nil_r; exact E|].
    eapply Forall_impl; [exact Hc|]. cbv beta. intros c (K & _). lia. }
  repeat split; try assumption. unfold of_bytes. apply Forall_forall. intros v Hv.
  apply elem_of_list_In, in_map_iff in Hv. destruct Hv as (a & <- & _). apply byte_below.
Qed.

(** * The shell *)

(** reading a part of a command substitution *)
Fixpoint scan (q : bool) (x : list N) : option bool :=
  match x with
  | [] => Some q
  | c :: r => if q then scan (negb (c =? 39)%N) r
              else if (c =? 41)%N then None else if (c =? 39)%N then scan true r
              else if ordinary c || (c =? 32)%N || (c =? 124)%N then scan false r else None
  end.
Lemma lex_scan x : forall b s q q' r, scan q x = Some q' -> lex (Inside b s q) (x ++ r) = lex (Inside b (s ++ x) q') r.
Proof.
  induction x as [|c x IH]; intros b s q q' r H; cbn [scan] in H.
  - injection H as <-. rewrite app_nil_r. reflexivity.
  - replace (s ++ c :: x) with ((s ++ [c]) ++ x) by (rewrite <- app_assoc; reflexivity).
    cbn [app lex]. destruct q.
    + apply IH, H.
    + destruct (c =? 41)%N; [discriminate|]. destruct (c =? 39)%N; [apply IH, H|].
      destruct (ordinary c || (c =? 32)%N || (c =? 124)%N); [apply IH, H|discriminate].
Qed.
Lemma scan_app x : forall q q' y, scan q x = Some q' -> scan q (x ++ y) = scan q' y.
Proof.
  induction x as [|c x IH]; intros q q' y H; cbn [scan app] in *; [injection H as <-; reflexivity|].
  destruct q; [apply IH, H|]. destruct (c =? 41)%N; [discriminate|]. destruct (c =? 39)%N; [apply IH, H|].
  destruct (ordinary c || (c =? 32)%N || (c =? 124)%N); [apply IH, H|discriminate].
Qed.
Lemma scan_quoted x : 39%N ∉ x -> scan true x = Some true.
Proof.
  induction x as [|c x IH]; intros H; [reflexivity|]. cbn [scan]. apply not_elem_of_cons in H as [K L].
  replace (negb (c =? 39)%N) with true by lia. apply IH, L.
Qed.
Lemma lex_single x : forall b s r, 39%N ∉ x -> lex (Single b s) (x ++ 39%N :: r) = lex (Bare (Some (b ++ [Text (s ++ x)]))) r.
Proof.
  induction x as [|c x IH]; intros b s r H.
  - cbn [app lex]. rewrite app_nil_r. reflexivity.
  - apply not_elem_of_cons in H as [K L]. cbn [app lex]. replace (c =? 39)%N with false by lia.
    rewrite IH by exact L. rewrite <- app_assoc. reflexivity.
Qed.
Lemma no_quote (l : bytes) : 39%N ∉ b64encode l.
Proof. intros H. pose proof (encoded_chars l) as K. rewrite Forall_forall in K. destruct (K _ H) as (_ & X & _). congruence. Qed.
Lemma encoded_printable (l : bytes) : printable (b64encode l).
Proof.
  pose proof (encoded_chars l) as K. split.
  - intros H. rewrite Forall_forall in K. destruct (K _ H) as (_ & _ & X & _). congruence.
  - destruct (b64encode l) as [|c r]; [discriminate|]. inversion K as [|? ? (_ & _ & _ & X) _]. cbn. congruence.
Qed.

(** a word of ordinary characters *)
Definition plain (s : list N) : list piece := List.map (fun c => Text [c]) s.

Definition inner_left : list N := lit "echo '".
Definition inner_right : list N :=
  lit "' | base64 -d | python -c 'import zlib,sys;sys.stdout.buffer.write(zlib.decompress(sys.stdin.buffer.read()))'".
Definition inner (x : list N) : list N := inner_left ++ x ++ inner_right.

Lemma inner_lexed x : 39%N ∉ x ->
  lex (Bare None) (inner x) = Some [Word (plain (lit "echo")); Word [Text x]; Bar; Word (plain (lit "base64")); Word (plain (lit "-d")); Bar;
    Word (plain (lit "python")); Word (plain (lit "-c")); Word [Text inflate]].
Proof.
  intros H. unfold inner.
  assert (E : forall r, lex (Bare None) (inner_left ++ r) = app [Word (plain (lit "echo"))] <$> lex (Single [] []) r) by (intros r; reflexivity).
  rewrite E. change inner_right with (39%N :: tail inner_right). rewrite lex_single by exact H.
  cbn [app]. reflexivity.
Qed.

Section run.
  Variable compress : bytes -> bytes.
  Variable program : list (list N) -> list N -> list N.

  Lemma expand_plain f s : expand f (plain s) = Some s.
  Proof.
    unfold expand.
    assert (E : mapM (expand_piece f) (plain s) = Some (List.map (fun c => [c]) s)).
    { induction s as [|c s IH]; [reflexivity|].
      change (mapM (expand_piece f) (plain (c :: s))) with (k ← mapM (expand_piece f) (plain s); Some ([c] :: k)).
      rewrite IH. reflexivity. }
    rewrite E. cbn. f_equal. clear. induction s as [|c s IH]; [reflexivity|]. cbn. f_equal. exact IH.
  Qed.
  Lemma inner_output d x : 39%N ∉ x ->
    output program (S d) (inner x) =
    Some (program [lit "python"; lit "-c"; inflate] (program [lit "base64"; lit "-d"] (program [lit "echo"; x] []))).
  Proof. intros H. cbn [output]. rewrite inner_lexed by exact H. cbn. rewrite !expand_plain. cbn. rewrite ?app_nil_r. reflexivity. Qed.

  Lemma outer_lexed source debug :
    lex (Bare None) (ssh_remote_command compress source debug) =
    Some ([Word (plain (lit "env")); Word (plain (lit "python3")); Word (plain (lit "-c"));
           Word [Text []; Subst (inner (b64encode (compress source))); Text []]] ++ (if debug then [Word (plain (lit "--debug"))] else [])).
  Proof.
    unfold ssh_remote_command. set (x := b64encode (compress source)).
    assert (Q : 39%N ∉ x) by apply no_quote.
    assert (E : forall r, lex (Bare None) (lit "env python3 -c ""$(echo '" ++ r) =
      app [Word (plain (lit "env"))] <$> (app [Word (plain (lit "python3"))] <$> (app [Word (plain (lit "-c"))] <$> lex (Inside [Text []] inner_left true) r)))
      by (intros r; reflexivity).
    rewrite E. rewrite (lex_scan x _ _ true true) by (apply scan_quoted, Q).
    change (lit "' | base64 -d | python -c 'import zlib,sys;sys.stdout.buffer.write(zlib.decompress(sys.stdin.buffer.read()))')"" ")
      with (inner_right ++ lit ")"" ").
    rewrite <- (app_assoc inner_right).
    rewrite (lex_scan inner_right _ _ true false) by reflexivity.
    rewrite <- app_assoc. fold (inner x). destruct debug; reflexivity.
  Qed.
End run.
