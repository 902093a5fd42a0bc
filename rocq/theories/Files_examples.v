(** A system for the examples and counterexamples about file operations. *)
From Coq Require Import Lia ZifyBool ZifyN ZifyNat.
From stdpp Require Import gmap.
From Verif Require Import Base Utf8 Codec Spec_Codec Paths Sys Spec_Sys Dispatcher Client Spec_Remote Remote_examples Control Spec_Control Op Coreutils Files Spec_Files Prop_Control.
Local Open Scope nat_scope.

(** /srv is a directory with the set-group-id bit, /srv/run a program, /srv/now a link to /srv/old. *)
Definition site_fs : fsys :=
  <[[lit "srv"] := Node KDir 1517 0 0 100 100]> (<[[lit "run"; lit "srv"] := Node (KFile (blit "#!")) 493 0 0 100 100]>
  (<[[lit "old"; lit "srv"] := Node KDir 493 0 0 100 100]> (<[[lit "now"; lit "srv"] := Node (KLink (lit "/srv/old")) 511 0 0 100 100]> demo_fs))).
Definition site_with (l : list account) : os := OS
  ([ Account (lit "root") 0 0 [] (lit "/root") (lit "/bin/sh"); Account (lit "alice") 1000 100 [] (lit "/home") (lit "/bin/sh") ] ++ l)
  [ Grent (lit "root") 0 []; Grent (lit "users") 100 [] ] [ (lit "root", lit "*") ] [ (lit "LANG", lit "C") ] site_fs 0 0 [0%N] [] 200 [].
Definition site : os := site_with [].
Definition on (s : os) (base : settings) : ctl := Ctl (Remote s Up) base [Script' [ex_settled; no_settings] (Some (lit "/s"))] (Some 0%nat) [0%nat] (lit "/d") [] 1.
Definition on_site : ctl := on site ex_base.

Lemma site_with_ok l : Forall acct_ok l -> os_ok (site_with l).
Proof.
  intros Hl.
  assert (S : forall x, short x -> str_ok x) by (intros x [H1 H2]; split; [exact H1|unfold small; lia]).
  unfold os_ok. cbn [site_with o_passwd o_group o_shadow o_env o_fs o_uid o_gid o_now o_faults]. parts.
  - apply Forall_app. split; [|exact Hl]. each; unfold acct_ok; parts; try (apply S; text); unfold id_ok; cbn; lia.
  - each; unfold grp_ok; parts; try each; try (apply S; text); try small_nat; unfold id_ok; cbn; lia.
  - small_nat.
  - each; apply S; text.
  - each; apply S; text.
  - intros pl n. unfold site_fs.
    assert (H : forall q m (fs : fsys), node_ok m -> (fs !! pl = Some n -> node_ok n) -> <[q := m]> fs !! pl = Some n -> node_ok n).
    { intros q m fs Hm Hf. destruct (decide (q = pl)) as [-> |Hq]; [rewrite lookup_insert; intros [= <-]; exact Hm|rewrite lookup_insert_ne by exact Hq; exact Hf]. }
    assert (Hn : forall k m, kind_ok k -> (m < 4096)%N -> node_ok (Node k m 0 0 100 100)).
    { intros k m Hk Hm. split_and!; auto; cbn; unfold id_ok, in_u64; lia. }
    apply H; [apply Hn; [exact I|lia]|]. apply H; [apply Hn; [unfold kind_ok; small_nat|lia]|]. apply H; [apply Hn; [exact I|lia]|]. apply H; [apply Hn; [text|lia]|]. apply demo_nodes.
  - unfold id_ok. cbn. lia.
  - unfold id_ok. cbn. lia.
  - unfold in_u64. lia.
  - constructor.
Qed.
Lemma site_ok : os_ok site.
Proof. apply site_with_ok. constructor. Qed.
Lemma word_dec n : short n -> (N.of_nat (length n) < 2 ^ 32)%N -> (bool_decide (n <> []) && forallb (fun c => negb (c =? 58)%N && negb (c =? 0)%N) n && bool_decide (head n <> Some 45%N) && existsb (fun c => negb ((48 <=? c)%N && (c <? 58)%N)) n = true) -> word n.
Proof.
  rewrite !andb_true_iff. intros Hs Hl (((H1 & H2) & H3) & H4). apply bool_decide_eq_true in H1. apply bool_decide_eq_true in H3.
  rewrite forallb_forall in H2. apply existsb_exists in H4 as (c & H4 & H5).
  assert (Hn : nul ∉ n) by (intros H; apply elem_of_list_In, H2 in H; discriminate).
  assert (Hc : forall c', c' ∈ n -> c' <> 58%N) by (intros c' Hc' ->; apply elem_of_list_In, H2 in Hc'; discriminate).
  split; [split; [split; assumption|exact Hl]|]. split; [exact H1|]. split; [exact Hc|]. split; [exact H3|].
  exists c. split; [apply elem_of_list_In; exact H4|]. lia.
Qed.
Lemma site_accounts : accounts_ok site /\ unaliased site.
Proof.
  split; [split_and!|split]; try dec; each; (apply word_dec; [text|vm_compute; reflexivity|vm_compute; reflexivity]).
Qed.
Lemma site_root l : denotes_user (site_with l) (lit "root") (Account (lit "root") 0 0 [] (lit "/root") (lit "/bin/sh")).
Proof. split; [left|left; reflexivity]. Qed.
Lemma site_root_group l : denotes_group (site_with l) (lit "root") (Grent (lit "root") 0 []).
Proof. split; [left|left; reflexivity]. Qed.
Lemma site_alice l : denotes_user (site_with l) (lit "alice") (Account (lit "alice") 1000 100 [] (lit "/home") (lit "/bin/sh")).
Proof. split; [right; left|left; reflexivity]. Qed.
Lemma site_enclosing l : enclosing (site_with l) ex_base [] ex_settled.
Proof.
  left. pose proof (site_root l). pose proof (site_root_group l).
  split_and!; try (eexists; split; [eassumption|reflexivity]); try (split; [reflexivity|discriminate]). reflexivity.
Qed.
Lemma site_ready : ready on_site [].
Proof.
  split; [exists ex_settled; split; [reflexivity|apply site_enclosing]|]. split; [split; discriminate|]. split; [apply site_accounts|apply site_ok].
Qed.
Lemma site_healthy : healthy on_site. Proof. split_and!; reflexivity. Qed.
Lemma site_honest : honest (sysof on_site). Proof. intros k H. inversion H. Qed.
Lemma octal_below_dec b t z : bool_decide (t <> []) && forallb (fun d => (48 <=? d)%N && (d <? 56)%N) t && (N.of_nat (length t) <? 2 ^ 32)%N && bool_decide (py_int 8 t = Some (Z.of_N z)) && (z <? b)%N = true ->
  octal_below b (Some t).
Proof.
  rewrite !andb_true_iff. intros ((((H1 & H2) & H3) & H4) & H5). apply bool_decide_eq_true in H1. apply bool_decide_eq_true in H4. apply N.ltb_lt in H3, H5. rewrite forallb_forall in H2.
  assert (Hd : Forall (fun d => (48 <= d < 56)%N) t) by (apply Forall_forall; intros d Hd; apply elem_of_list_In, H2 in Hd; lia).
  exists t, z. split_and!; auto. split; [|lia]. unfold text_ok. eapply Forall_impl; [exact Hd|]. cbn. intros d Hd'. lia.
Qed.
(** "alice" may own things, and any valid mode can be given *)
Lemma site_feasible o fm dm : (o = None \/ o = Some (lit "alice")) -> match fm with Some _ => octal_below 4096 fm | None => True end -> match dm with Some _ => octal_below 4096 dm | None => True end ->
  feasible (sysof on_site) (c_base on_site) ([] ++ [Settings None None o None fm dm None None]).
Proof.
  intros Ho Hf Hd. assert (Hg : group_valid site (lit "root")) by (split; [split; [text|dec]|]; eexists; apply site_root_group).
  assert (Hu : user_valid site (lit "root")) by (split; [split; [text|dec]|]; eexists; apply site_root).
  assert (Ha : user_valid site (lit "alice")) by (split; [split; [text|dec]|]; eexists; apply site_alice).
  unfold feasible, wanted. cbn [app List.map innermost on_site on c_base ex_base s_as_user s_as_group s_owner s_group s_file_mode s_dir_mode s_umask s_cwd opt_ok sysof c_remote r_os].
  split_and!; try assumption.
  - destruct Ho as [-> | ->]; assumption.
  - destruct fm; [exact Hf|]. apply (octal_below_dec _ _ 384). vm_compute. reflexivity.
  - destruct dm; [exact Hd|]. apply (octal_below_dec _ _ 448). vm_compute. reflexivity.
  - apply (octal_below_dec _ _ 63). vm_compute. reflexivity.
  - split; [text|dec].
  - reflexivity.
  - eexists _, _. split; [vm_compute; reflexivity|reflexivity].
Qed.
