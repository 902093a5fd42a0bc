(** A remote system for examples and counterexamples. *)
From Coq Require Import Lia ZifyBool ZifyN ZifyNat.
From stdpp Require Import gmap.
From Verif Require Import Base Utf8 Codec Spec_Codec Paths Sys Spec_Sys Dispatcher Client Spec_Session Spec_Remote.

Definition demo_dir (mode : N) : node := Node KDir mode 0 0 100 100.
Definition demo_fs : fsys :=
  list_to_map [ ([], demo_dir 493);
    ([lit "etc"], demo_dir 493); ([lit "app.conf"; lit "etc"], Node (KFile (blit "old")) 420 0 0 100 100);
    ([lit "link"; lit "etc"], Node (KLink (lit "app.conf")) 511 0 0 100 100);
    ([lit "loop"; lit "etc"], Node (KLink (lit "loop")) 511 0 0 100 100);
    ([lit "tmp"], demo_dir 1023); ([lit "home"], demo_dir 493) ].
(** accounts: the name "1000" belongs to uid 7 *)
Definition demo : os := OS
  [ Account (lit "root") 0 0 [] (lit "/root") (lit "/bin/sh"); Account (lit "alice") 1000 100 [] (lit "/home") (lit "/bin/sh");
    Account (lit "1000") 7 7 [] (lit "/") (lit "/bin/sh") ]
  [ Grent (lit "root") 0 []; Grent (lit "users") 100 []; Grent (lit "wheel") 10 [lit "alice"] ]
  [ (lit "root", lit "*") ]
  [ (lit "LANG", lit "C") ]
  demo_fs 0 0 [0%N; 10%N] [] 200 [].
(** the same with an environment variable that is not valid UTF-8 and a file from before 1970 *)
Definition odd : os :=
  OS (o_passwd demo) (o_group demo) (o_shadow demo) ((lit "ODD", [56512%N]) :: o_env demo)
     (<[[lit "ancient"] := Node (KFile []) 420 0 0 (-5) 100]> demo_fs) 0 0 [] [] 200 [].
Definition with_faults (l : list fault) : os := set_faults l demo.

(** a program that prints its arguments and fails when the first one is "false" *)
Definition echo : proc -> M xres := fun p =>
  pure (XExit (if str_eqb (List.nth 0 (p_argv p) []) (lit "false") then 1 else 0)%Z
              (default [] (utf8_encode (List.concat (p_argv p)))) []).
(** stands for the hash function in examples *)
Definition fake_hash : bytes -> bytes := firstn 3.

Ltac small_nat := unfold small; cbn; lia.
Ltac dec := apply (bool_decide_unpack _); vm_compute; exact I.
Lemma short_dec s : bool_decide (Forall (fun c => (c < 1114112)%N /\ ~ (55296 <= c < 57344)%N) s) = true -> (N.of_nat (length s) <? 2 ^ 32)%N = true -> short s.
Proof.
  intros H1%bool_decide_eq_true_1 H2. split.
  - unfold text_ok. eapply Forall_impl; [exact H1|]. cbn. intros c Hc. lia.
  - apply N.ltb_lt in H2. lia.
Qed.
Ltac text := apply short_dec; vm_compute; reflexivity.
Ltac each := repeat first [apply Forall_nil; exact I | apply Forall_cons; split].
Ltac parts := repeat match goal with |- _ /\ _ => split end.
Lemma demo_nodes pl n : demo_fs !! pl = Some n -> node_ok n.
Proof.
  intros H. apply elem_of_list_to_map_2 in H. unfold demo_fs in H.
  repeat (apply elem_of_cons in H as [[= -> ->]|H]; [|]); [..|inversion H];
    unfold node_ok, id_ok, in_u64; cbn; parts; try lia; try exact I; try small_nat; try text.
Qed.
Lemma demo_ok : os_ok demo.
Proof.
  assert (S : forall x, short x -> str_ok x) by (intros x [H1 H2]; split; [exact H1|unfold small; lia]).
  unfold os_ok. cbn [demo o_passwd o_group o_shadow o_env o_fs o_uid o_gid o_now o_faults]. parts.
  - each; unfold acct_ok; parts; try (apply S; text); unfold id_ok; cbn; lia.
  - each; unfold grp_ok; parts; try each; try (apply S; text); try small_nat; unfold id_ok; cbn; lia.
  - small_nat.
  - each; apply S; text.
  - each; apply S; text.
  - apply demo_nodes.
  - unfold id_ok. cbn. lia.
  - unfold id_ok. cbn. lia.
  - unfold in_u64. lia.
  - constructor.
Qed.
Lemma echo_ok : exec_ok (fun p s => match echo p s with (Ok (XExit rc _ _), s') => (Ok (XExit rc [] []), s') | x => x end).
Proof. intros p s Hs. cbn. destruct (str_eqb _ _); cbn; unfold in_i32; parts; try lia; try small_nat; assumption. Qed.
