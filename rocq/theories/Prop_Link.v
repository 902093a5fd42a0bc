(** C45: files.link. *)
From Coq Require Import Lia ZifyBool ZifyN ZifyNat.
From stdpp Require Import gmap.
From Verif Require Import Base Utf8 Codec Spec_Codec Codec_proofs Paths Sys Spec_Sys Sys_proofs Dispatcher Client Spec_Remote Remote_run Direct Control Spec_Control Control_settle Prop_Control Op Spec_Op Op_proofs Coreutils Files Walk_proofs Files_plain Spec_Files Shell_proofs Thrift Steps Dir_proofs Converge Remote_examples Files_examples Dry_proofs Dry_files Prop_Files Spec_Link Link_walk Link_proofs.
Local Open Scope nat_scope.

(** ** Nothing there: no directory either *)
Lemma leads_outside fs cur m d : tree fs -> leads fs true cur m d -> forall l, m = l ++ [lit "."] -> kind_at fs cur = Some KDir -> exists pl n, leads fs false cur l pl /\ fs !! pl = Some n.
Proof.
  intros [T1 T2]. assert (Hup : forall q, kind_at fs q = Some KDir -> kind_at fs (tail q) = Some KDir).
  { intros [|x q] Hq; [exact Hq|]. unfold kind_at in Hq. destruct (fs !! (x :: q)) as [n|] eqn:E; [|discriminate]. exact (T2 _ _ _ E). }
  assert (Hk : forall q k, kind_at fs q = Some k -> exists n, fs !! q = Some n) by (intros q k; unfold kind_at; destruct (fs !! q); [eauto|discriminate]).
  assert (Hnot : forall c, plain_name c -> [c] = [lit "."] -> False) by (intros c [H _] [= E]; contradiction).
  induction 1 as [cur|cur r0 pl H IH|cur r0 pl H IH|cur c r0 pl Hc K H IH|cur c b Hc K|cur c t Hc K|cur c t Hc K F|cur c r0 t pl Hc K Ht Hr H IH]; intros l E Hd.
  - destruct l; discriminate.
  - destruct l as [|x l]; cbn [app] in E.
    + destruct (Hk _ _ Hd) as [n Hn]. exists cur, n. split; [constructor|exact Hn].
    + injection E as <- ->. destruct (IH l eq_refl Hd) as (q & n & H1 & H2). exists q, n. split; [apply leads_dot; exact H1|exact H2].
  - destruct l as [|x l]; cbn [app] in E; [discriminate|]. injection E as <- ->. destruct (IH l eq_refl (Hup _ Hd)) as (q & n & H1 & H2). exists q, n. split; [apply leads_dotdot; exact H1|exact H2].
  - destruct l as [|x l]; cbn [app] in E.
    + injection E as -> _. destruct (Hnot _ Hc eq_refl).
    + injection E as <- ->. destruct (IH l eq_refl K) as (q & n & H1 & H2). exists q, n. split; [apply leads_dir; assumption|exact H2].
  - destruct l as [|x [|? ?]]; cbn [app] in E; try discriminate E. destruct (Hnot _ Hc E).
  - destruct l as [|x [|? ?]]; cbn [app] in E; try discriminate E. destruct (Hnot _ Hc E).
  - discriminate.
  - destruct l as [|x l]; cbn [app] in E.
    + injection E as -> _. destruct (Hnot _ Hc eq_refl).
    + injection E as <- ->. destruct (decide (l = [])) as [-> |Hl].
      * destruct (Hk _ _ K) as [n Hn]. exists (c :: cur), n. split; [eapply leads_this; eauto|exact Hn].
      * destruct (IH (comps t ++ l)) as (q & n & H1 & H2); [rewrite app_assoc; reflexivity|destruct (isabs t); assumption|].
        exists q, n. split; [|exact H2]. eapply leads_link; [exact Hc|exact K|exact Ht|contradiction|exact H1].
Qed.
Lemma none_enterable s path : tree (o_fs s) -> nul ∉ path -> path <> [] -> sees_none s path -> ~ enterable (o_fs s) path.
Proof.
  intros Ht H1 H2 H3 [d Hd]. destruct (leads_outside _ _ _ _ Ht Hd _ eq_refl (proj1 Ht)) as (pl & n & H4 & H5).
  apply (none_missing _ _ H3 pl n). split; [exact H1|]. split; [exact H2|]. split; [destruct (isabs path); exact H4|exact H5].
Qed.

(** ** The statements *)
(** The path is free, or holds a link that already has the target, or one that is not a way to a directory. *)
Definition clear (s : os) (path target : pystr) : Prop :=
  (tree (o_fs s) /\ ~ enterable (o_fs s) path) \/ exists pl n, sees s path pl n /\ n_kind n = KLink target.
(** a link to the target, owned as the settings say *)
Definition linked (s : os) (target : pystr) (owner group : option pystr) (n : node) : Prop :=
  n_kind n = KLink target /\ exists u g, owner = Some u /\ user_name s (n_uid n) u /\ group = Some g /\ group_name s (n_gid n) g.
(** a new link is dated now; an old one keeps its date unless it is to be touched *)
Definition link_dated (s : os) (target : pystr) (touch : bool) (pl : place) (n : node) : Prop :=
  match o_fs s !! pl with
  | Some n0 => (n_kind n0 <> KLink target -> n_mtime n = o_now s) /\ (n_kind n0 = KLink target -> n_mtime n = (if touch then o_now s else n_mtime n0))
  | None => n_mtime n = o_now s
  end.
(** The link at the end of a run that ended in success.  The owner is as asked for unless an existing link got another target and
    was owned as asked for before (see [C45_owner_refuted]). *)
Definition link_made (c c' : ctl) (reqs : list settings) (q : settings) (path target : pystr) (touch : bool) (attr : settings) (pl : place) (n : node) : Prop :=
  settles (sysof c) (c_base c) (reqs ++ [q]) attr /\ at_path (sysof c') path pl n /\ n_kind n = KLink target /\
  (owned (sysof c') (s_owner attr) (s_group attr) n \/
   exists n0 t, sees (sysof c) path pl n0 /\ n_kind n0 = KLink t /\ t <> target /\ owned (sysof c) (s_owner attr) (s_group attr) n0) /\
  link_dated (sysof c) target touch pl n /\ only_at pl (sysof c) (sysof c').

Lemma match_linked s target attr n : link_match s target attr n -> linked s target (s_owner attr) (s_group attr) n.
Proof.
  intros (H1 & H2 & H3). split; [exact H1|].
  destruct (matching_wanted s (Some (oct_tail (Z.of_N (n_mode n)))) attr n) as (t & u & g & _ & _ & A1 & A2 & A3 & A4); [split_and!; auto|]. exists u, g. auto.
Qed.
Lemma linked_match s target attr n : unaliased s -> linked s target (s_owner attr) (s_group attr) n -> link_match s target attr n.
Proof.
  intros Hu (H1 & u & g & A1 & A2 & A3 & A4). split; [exact H1|].
  destruct (oct_tail_text _ _ (oct_tail_value (n_mode n))) as (k & Hk & Ht). apply N2Z.inj in Hk as <-.
  destruct (wanted_matching s (Some (oct_tail (Z.of_N (n_mode n)))) attr n Hu) as (_ & H2 & H3); [|auto]. eexists _, u, g. split; [reflexivity|]. auto 10.
Qed.

Section theorems.
  Variable rest : proc -> M xres.
  Variable sha512 : bytes -> bytes.
  Notation exec := (coreutils rest).
  Notation link := (link exec sha512 false).
  Lemma link_form path target present touch owner group : target <> [] ->
    yields (link path target present touch owner group) new_op (_ ← check_absolute_path path; script_defaults exec sha512 (want owner group None None) (link_body exec sha512 false path target present touch)).
  Proof. intros Ht. assert (H := link_plain exec sha512 false path target present touch owner group). destruct target; [contradiction|]. exact H. Qed.
  Lemma link_empty a path present touch owner group c : exists m, operation a (link path [] present touch owner group) c = (Err (ValueError m), c).
  Proof.
    rewrite (operation_plain a _ _ c (link_plain exec sha512 false path [] present touch owner group)). unfold verdict.
    destruct (check_path path c) as [[_ Hc]|[_ [m Hc]]].
    - exists (lit "Link target cannot be empty"). unfold mbind, W_bind. rewrite Hc. reflexivity.
    - exists m. unfold mbind, W_bind. rewrite Hc. reflexivity.
  Qed.
  Lemma remotely_link path target present touch attr : remotely (link_body exec sha512 false path target present touch attr).
  Proof.
    assert (Hw : forall d m, remotely m -> remotely (wif d m)) by (intros [] m Hm; [exact Hm|apply remotely_ret]).
    assert (Hwk : forall x, remotely (link_work exec sha512 false path target present touch attr x)).
    { intros x. unfold link_work. destruct present; [|apply Hw, remotely_sh']. apply remotely_bind; [apply Hw, remotely_sh'|intros _]. apply remotely_bind; [apply Hw, remotely_sh'|intros _]. apply Hw, remotely_sh'. }
    assert (Hc : forall x f, remotely (conclude (link_report x) f (link_work exec sha512 false path target present touch attr x))).
    { intros x f. unfold conclude. destruct (py_eq _ _); [apply remotely_ret|]. apply remotely_bind; [apply Hwk|intros _; apply remotely_ret]. }
    unfold link_body. apply remotely_bind; [apply remotely_stat|]. intros [st|]; [|apply Hc]. cbv zeta. destruct (negb _); [apply remotely_ret|].
    apply remotely_bind; [apply remotely_crun'|]. intros r. apply remotely_bind; [apply remotely_decoded|]. intros t. apply Hc.
  Qed.

  Lemma link_any a c r c' reqs path target touch owner group : target <> [] -> clear (sysof c) path target ->
    ready c reqs -> honest (sysof c) -> c_string path -> operation a (link path target true touch owner group) c = (r, c') ->
    (unaffected (sysof c) (sysof c') \/ exists pl n, sits path (sysof c) (sysof c') pl n /\ link_conf (sysof c) path target pl n) /\
    (forall res, r = Ok res -> or_success res = true ->
       isabs path = true /\ exists attr x y pl n, settles (sysof c) (c_base c) (reqs ++ [want owner group None None]) attr /\ accounts_of (sysof c) attr x y /\
         sits path (sysof c) (sysof c') pl n /\ link_conf (sysof c) path target pl n /\ link_good (sysof c) path target attr touch x y pl n /\ (or_changed res = false -> unaffected (sysof c) (sysof c') /\ touch = false)).
  Proof.
    intros Htg Hcl ((d0 & Ha & He) & Hkb & Hac & Hos) Hh Hp E.
    destruct (op_any exec sha512 a path _ _ _ c r c' reqs d0 (link_form path target true touch owner group Htg) (fun d => remotely_link _ _ _ _ d) E Ha He)
      as [_ [[Hu [e ->]]|(Hp' & c1 & attr & x & c2 & F1 & F2 & F3 & F4 & F5 & F6)]].
    - split; [left; exact Hu|discriminate].
    - destruct (settles_accounts _ _ _ _ F2 Hkb) as (u & g & Hof).
      assert (Hs : sysof c' = sysof c2) by (unfold sysof; rewrite F5; reflexivity). rewrite Hs.
      destruct (link_body_any rest sha512 path target touch attr (sysof c) c1 x c2 u g (proj1 F1) Hp' Hp (spends_os_ok _ _ F1 Hos) (spends_honest _ _ F1 Hh) Hac Hof Hcl F4) as (B1 & B2 & _).
      split; [exact B1|]. intros res -> Hsu. split; [exact Hp'|]. destruct x as [res'|e]; cbn in F6; [|discriminate].
      destruct F6 as [[[= <-] _]|(_ & _ & [=])]. destruct (B2 res eq_refl Hsu) as (pl & n & B3 & B4 & B5 & B6). exists attr, u, g, pl, n. auto 10.
  Qed.
  Lemma link_works a c r c' reqs path target touch owner group : clear (sysof c) path target ->
    ready c reqs -> c_string path -> isabs path = true -> c_string target -> target <> [] -> operation a (link path target true touch owner group) c = (r, c') ->
    healthy c -> hash_ok sha512 -> feasible (sysof c) (c_base c) (reqs ++ [want owner group None None]) ->
    (resolve_node (o_fs (sysof c)) [] path false = Err (oserr ENOENT) /\ creatable (sysof c) path) \/ (exists pl n, resolve_node (o_fs (sysof c)) [] path false = Ok (pl, n) /\ a_link n) ->
    c' = set_remote (c_remote c') c /\ exists res attr, r = Ok res /\ or_success res = true /\ healthy c' /\ settles (sysof c) (c_base c) (reqs ++ [want owner group None None]) attr /\
      (or_changed res = false <-> exists pl n, resolve_node (o_fs (sysof c)) [] path false = Ok (pl, n) /\ link_match (sysof c) target attr n /\ touch = false) /\
      exists x y pl n, accounts_of (sysof c) attr x y /\
         sits path (sysof c) (sysof c') pl n /\ link_conf (sysof c) path target pl n /\ link_good (sysof c) path target attr touch x y pl n /\ (or_changed res = false -> unaffected (sysof c) (sysof c')).
  Proof.
    intros Hcl ((d0 & Ha & He) & Hkb & Hac & Hos) Hp Hp' Hct Htg E Hhl Hha Hfe Hex. assert (Hop := link_form path target true touch owner group Htg).
    destruct (op_any exec sha512 a path _ _ _ c r c' reqs d0 Hop (fun d => remotely_link _ _ _ _ d) E Ha He) as [Hset _]. split; [exact Hset|].
    destruct (op_fine exec sha512 a path _ _ _ c r c' reqs d0 Hop Hp' E Ha He Hhl Hos Hha Hac Hfe) as (c1 & attr & x & c2 & F1 & F2 & F3 & F4 & F5 & F6 & F7 & F8 & F9).
    destruct (settles_accounts _ _ _ _ F3 Hkb) as (u & g & Hof).
    assert (Hs1 : sysof c1 = sysof c) by (unfold sysof; rewrite F1; reflexivity). assert (Hs : sysof c' = sysof c2) by (unfold sysof; rewrite F6; reflexivity).
    assert (Hh : honest (sysof c)) by (intros k Hk; destruct Hhl as (_ & Hf & _); rewrite Hf in Hk; inversion Hk).
    destruct (link_body_any rest sha512 path target touch attr (sysof c) c1 x c2 u g) as (_ & B2 & B3); auto; try (rewrite Hs1; auto); [apply unaffected_refl|].
    destruct (B3 F2 Hha Hct Hex) as (res & -> & Hsu & (Hh2 & _) & Hch). cbn in F9. destruct F9 as [[-> _]|(Hsu' & _)]; [|congruence].
    destruct (B2 res eq_refl Hsu) as (pl & n & B4 & B5 & B6 & B7).
    exists res, attr. split; [reflexivity|]. split; [exact Hsu|]. split; [unfold healthy in *; rewrite Hs, F6; exact Hh2|]. split; [exact F3|]. split; [exact Hch|].
    exists u, g, pl, n. rewrite Hs. split_and!; auto. apply B7.
  Qed.
  Lemma made_of c c' reqs q path target touch attr x y pl n : settles (sysof c) (c_base c) (reqs ++ [q]) attr -> accounts_of (sysof c) attr x y ->
    sits path (sysof c) (sysof c') pl n -> link_good (sysof c) path target attr touch x y pl n -> link_made c c' reqs q path target touch attr pl n.
  Proof.
    intros Hse Hof Hsit (Hk & Hg & Hd). split; [exact Hse|]. split; [eapply sits_at; exact Hsit|]. split; [exact Hk|]. split; [|split; [|eapply sits_only_at; exact Hsit]].
    - destruct Hg as [Hg|(n0 & t & G1 & G2 & G3 & G4)]; [left; eapply owned_of; [eapply sits_only|..]; eassumption|right].
      exists n0, t. split; [exact G1|]. split; [exact G2|]. split; [exact G3|]. eapply owned_of; [apply only_files_refl|..]; eassumption.
    - unfold link_dated. unfold link_times in Hd. destruct (o_fs (sysof c) !! pl) as [n0|]; [|apply Hd]. destruct Hd as [D1 D2]. split; intros K; [apply D1|apply D2]; exact K.
  Qed.

  (** Full statement: after success the path is a link to the target, owned as asked for, and nothing else has changed.
      Missing: paths that lead to a directory ([C45_link_refuted]) and the owner of links that get another target ([C45_owner_refuted]). *)
  Theorem C45_link_partial a c r c' reqs path target touch owner group :
    clear (sysof c) path target -> ready c reqs -> honest (sysof c) -> c_string path ->
    operation a (link path target true touch owner group) c = (Ok r, c') -> or_success r = true ->
    absolute path /\ target <> [] /\ exists attr pl n, link_made c c' reqs (asking owner group None None) path target touch attr pl n /\
      (or_changed r = false -> unaffected (sysof c) (sysof c') /\ touch = false).
  Proof.
    intros Hcl Hr Hh Hp E Hs. destruct (decide (target = [])) as [-> |Htg].
    { destruct (link_empty a path true touch owner group c) as [m Hm]. rewrite Hm in E. discriminate E. }
    destruct (link_any _ _ _ _ _ _ _ _ _ _ Htg Hcl Hr Hh Hp E) as [_ H].
    destruct (H r eq_refl Hs) as (Ha & attr & x & y & pl & n & Hse & Hof & Hsit & Hc & Hg & Hch).
    split; [apply absolute_isabs; exact Ha|]. split; [exact Htg|]. exists attr, pl, n. split; [|exact Hch]. eapply made_of; eassumption.
  Qed.
  (** However it ends: at most one link has been created or has changed; it has the target asked for or the one it had. *)
  Theorem C45_confined_partial a c r c' reqs path target touch owner group :
    clear (sysof c) path target -> ready c reqs -> honest (sysof c) -> c_string path ->
    operation a (link path target true touch owner group) c = (r, c') ->
    unaffected (sysof c) (sysof c') \/
    exists pl n, at_path (sysof c') path pl n /\ only_at pl (sysof c) (sysof c') /\
      match o_fs (sysof c) !! pl with
      | None => n_kind n = KLink target
      | Some n0 => exists t, n_kind n0 = KLink t /\ (n_kind n = KLink t \/ n_kind n = KLink target)
      end.
  Proof.
    intros Hcl Hr Hh Hp E. destruct (decide (target = [])) as [-> |Htg].
    { destruct (link_empty a path true touch owner group c) as [m Hm]. rewrite Hm in E. injection E as _ <-. left. apply unaffected_refl. }
    destruct (link_any _ _ _ _ _ _ _ _ _ _ Htg Hcl Hr Hh Hp E) as [[H|(pl & n & H1 & H2)] _]; [left; exact H|right].
    exists pl, n. split; [eapply sits_at; exact H1|]. split; [eapply sits_only_at; exact H1|]. unfold link_conf in H2. destruct (o_fs (sysof c) !! pl) as [n0|]; [|exact H2].
    destruct H2 as (_ & t & K0 & [K|(K & _)]); exists t; auto.
  Qed.
  (** It succeeds whenever nothing fails and there is a link or one can be created.  It reports no change iff the link is there
      already, as wanted, and is not to be touched; then it does nothing. *)
  Theorem C45_link_works_partial a c r c' reqs path target touch owner group :
    clear (sysof c) path target -> ready c reqs -> c_string path -> absolute path -> c_string target -> target <> [] -> healthy c -> hash_ok sha512 -> unaliased (sysof c) ->
    feasible (sysof c) (c_base c) (reqs ++ [asking owner group None None]) ->
    attainable (fun k => exists t, k = KLink t) (sysof c) path ->
    operation a (link path target true touch owner group) c = (r, c') ->
    exists res attr pl n, r = Ok res /\ or_success res = true /\ healthy c' /\ c' = set_remote (c_remote c') c /\
      link_made c c' reqs (asking owner group None None) path target touch attr pl n /\
      (or_changed res = false <-> (exists pl0 n0, sees (sysof c) path pl0 n0 /\ linked (sysof c) target (s_owner attr) (s_group attr) n0) /\ touch = false) /\
      (or_changed res = false -> unaffected (sysof c) (sysof c')).
  Proof.
    intros Hcl Hr Hp Ha Hct Htg Hhl Hha Hun Hfe Hat E. apply absolute_isabs in Ha.
    destruct (link_works a c r c' reqs path target touch owner group Hcl Hr Hp Ha Hct Htg E Hhl Hha Hfe Hat) as
      (H1 & res & attr & -> & H2 & H3 & H4 & H6 & x & y & pl & n & H7 & H8 & H9 & H10 & H11).
    exists res, attr, pl, n. split; [reflexivity|]. split; [exact H2|]. split; [exact H3|]. split; [exact H1|]. split; [eapply made_of; eassumption|]. split; [|exact H11].
    rewrite H6. split.
    - intros (p0 & n0 & M1 & M2 & M3). split; [|exact M3]. exists p0, n0. split; [exact M1|]. apply match_linked. exact M2.
    - intros ((p0 & n0 & M1 & M2) & M3). exists p0, n0. split; [exact M1|]. split; [|exact M3]. apply linked_match; assumption.
  Qed.
  (** Full statement: running it again reports no change and changes nothing.  Missing: paths that lead to a directory, links that got
      another target, and accounts that share an id (as in [C44_again_refuted]). *)
  Theorem C45_again_partial a a2 c r c' r2 c2 reqs path target owner group touch :
    ready c reqs -> c_string path -> absolute path -> c_string target -> target <> [] -> healthy c -> hash_ok sha512 -> unaliased (sysof c) ->
    feasible (sysof c) (c_base c) (reqs ++ [asking owner group None None]) ->
    (sees_none (sysof c) path /\ creatable (sysof c) path /\ tree (o_fs (sysof c))) \/ (exists pl n, sees (sysof c) path pl n /\ n_kind n = KLink target) ->
    operation a (link path target true touch owner group) c = (r, c') -> operation a2 (link path target true touch owner group) c' = (r2, c2) ->
    exists res2, r2 = Ok res2 /\ or_success res2 = true /\ (touch = false -> or_changed res2 = false /\ c2 = c').
  Proof.
    intros Hrd Hp Ha Hct Htg Hhl Hha Hun Hfe Hat E E2. apply absolute_isabs in Ha.
    assert (Hcl : clear (sysof c) path target).
    { destruct Hat as [(A1 & A2 & A3)|A]; [left|right; exact A]. split; [exact A3|]. apply none_enterable; auto; [apply Hp|]. intros ->. discriminate Ha. }
    assert (Hex : (resolve_node (o_fs (sysof c)) [] path false = Err (oserr ENOENT) /\ creatable (sysof c) path) \/ (exists pl n, resolve_node (o_fs (sysof c)) [] path false = Ok (pl, n) /\ a_link n)).
    { destruct Hat as [(A1 & A2 & _)|(pl & n & A1 & A2)]; [left; auto|right; exists pl, n; split; [exact A1|exists target; exact A2]]. }
    destruct (link_works a c r c' reqs path target touch owner group Hcl Hrd Hp Ha Hct Htg E Hhl Hha Hfe Hex) as
      (Hset & res & attr & -> & Hsu & Hhl' & Hse & _ & x & y & pl & n & Hof & Hsit & Hc & (Hk & Hgo & Htm) & _).
    destruct Hrd as ((d0 & Hac0 & He) & Hkb & Hac & Hos). assert (Hof' := sits_only _ _ _ _ _ Hsit).
    assert (Hg : good_owner attr x y n).
    { destruct Hgo as [Hgo|(n0 & t & G1 & G2 & G3 & _)]; [exact Hgo|exfalso]. destruct Hat as [(A1 & _ & _)|(pl' & n' & A1 & A2)]; [unfold sees_none in A1; congruence|].
      unfold sees in A1. rewrite A1 in G1. injection G1 as -> ->. congruence. }
    assert (Hno : node_ok n).
    { assert (Hos' := Hos). destruct Hos' as (O1 & O2 & _ & _ & _ & O6 & _ & _ & O9 & _). destruct Hg as [G1 G2], Hof as (A1 & A2 & _). rewrite Forall_forall in O1. rewrite Forall_forall in O2. specialize (O1 x A1). specialize (O2 y A2).
      assert (Hm : (n_mode n < 4096)%N /\ in_u64 (n_mtime n) /\ in_u64 (n_ctime n)).
      { unfold link_times in Htm. destruct (o_fs (sysof c) !! pl) as [n0|] eqn:En.
        - destruct (O6 _ _ En) as (_ & K1 & _ & _ & K2 & K3). destruct Htm as [T1 T2]. assert (Hd : n_kind n0 = KLink target \/ n_kind n0 <> KLink target).
          { destruct (n_kind n0) as [?| |t|?]; try (right; discriminate). destruct (decide (t = target)); [left|right]; congruence. }
          destruct Hd as [K|K].
          + destruct (T2 K) as (-> & C & ->). split; [exact K1|]. split; [destruct touch; assumption|]. destruct C as [-> | ->]; assumption.
          + destruct (T1 K) as (-> & -> & ->). split; [lia|auto].
        - destruct Htm as (-> & -> & ->). split; [lia|auto]. }
      destruct Hm as (M1 & M2 & M3). split_and!; auto; [rewrite Hk; apply Hct|rewrite G1; apply O1|rewrite G2; apply O2]. }
    assert (Hos' : os_ok (sysof c')) by (eapply sits_os_ok; [exact Hos|exact Hsit|exact Hno|apply Hhl']).
    assert (Hb : c_base c' = c_base c) by (rewrite Hset; reflexivity).
    assert (Hrd' : ready c' reqs).
    { split; [exists d0; split; [rewrite Hset; exact Hac0|rewrite Hb; apply (enclosing_files _ _ _ _ _ Hof'); exact He]|]. rewrite Hb. split; [exact Hkb|]. split; [apply (accounts_files _ _ Hof'); exact Hac|exact Hos']. }
    assert (Hfe' : feasible (sysof c') (c_base c') (reqs ++ [want owner group None None])) by (rewrite Hb; eapply feasible_steady; [exact Hof'|eapply link_conf_steady; eassumption|exact Hfe]).
    assert (Hr' : resolve_node (o_fs (sysof c')) [] path false = Ok (pl, n)) by apply Hsit.
    destruct (link_works a2 c' r2 c2 reqs path target touch owner group) as
      (Hset2 & res2 & attr2 & -> & Hsu2 & Hhl2 & Hse2 & Hch2 & x2 & y2 & pl2 & n2 & _ & _ & _ & _ & Hun2); auto; [right; exists pl, n; auto|right; exists pl, n; split; [exact Hr'|exists target; exact Hk]|].
    exists res2. split; [reflexivity|]. split; [exact Hsu2|]. intros Ht.
    assert (Hch : or_changed res2 = false).
    { apply Hch2. exists pl, n. split; [exact Hr'|]. split; [|exact Ht].
      assert (Hse' : settles (sysof c) (c_base c) (reqs ++ [want owner group None None]) attr2) by (rewrite Hb in Hse2; apply (settles_files _ _ _ _ _ Hof') in Hse2; exact Hse2).
      assert (Eo : s_owner attr2 = s_owner attr) by (eapply user_settles_unique; [exact Hac|exact Hun|apply Hse'|apply Hse]).
      assert (Eg : s_group attr2 = s_group attr) by (eapply group_settles_unique; [exact Hac|exact Hun|apply Hse'|apply Hse]).
      split; [exact Hk|]. destruct Hg as [G1 G2], Hof as (A1 & A2 & A3 & A4), Hun as [U1 U2]. unfold seen_owner, seen_group, statres_of, getpwuid, getgrgid. cbn [fmap option_fmap option_map st_owner st_group].
      rewrite (only_files_passwd _ _ Hof'), (only_files_group _ _ Hof'), G1, G2, (find_id pw_uid _ _ U1 A1), (find_id gr_gid _ _ U2 A2), Eo, Eg, A3, A4. auto. }
    split; [exact Hch|]. specialize (Hun2 Hch). rewrite Hset2. destruct Hhl2 as (L2 & Fl2 & _), Hhl' as (L1 & Fl1 & _).
    assert (Hrem2 : c_remote c2 = c_remote c').
    { unfold sysof in *. destruct (c_remote c2) as [s2 l2], (c_remote c') as [s1 l1]. cbn in *. subst. f_equal. rewrite Hun2, Fl2, <- Fl1. unfold set_faults. destruct s1; reflexivity. }
    rewrite Hrem2. apply set_remote_self.
  Qed.
  (** present=False *)
  Theorem C45_absent a c r c' reqs path target touch owner group :
    ready c reqs -> honest (sysof c) -> c_string path ->
    operation a (link path target false touch owner group) c = (r, c') ->
    (unaffected (sysof c) (sysof c') \/ exists pl n t, at_path (sysof c) path pl n /\ n_kind n = KLink t /\ only_files (sysof c) (sysof c') /\ o_fs (sysof c') = delete pl (o_fs (sysof c))) /\
    (forall res, r = Ok res -> or_success res = true -> missing (sysof c') path /\ (or_changed res = false -> unaffected (sysof c) (sysof c'))).
  Proof.
    intros Hr Hh Hp E. destruct (decide (target = [])) as [-> |Htg].
    { destruct (link_empty a path false touch owner group c) as [m Hm]. rewrite Hm in E. injection E as <- <-. split; [left; apply unaffected_refl|discriminate]. }
    destruct (absent_op rest sha512 path (fun k => exists t, k = KLink t) (fun s pl s' => only_files s s' /\ o_fs s' = delete pl (o_fs s)) (fun _ _ => True) _ _ _
      (link_form path target false touch owner group Htg) (fun d => remotely_link _ _ _ _ d) (fun attr s c x c' => link_absent_any rest sha512 path target touch attr s c x c') a c r c' reqs Hr Hh Hp E) as [H1 H2].
    split; [|exact H2]. destruct H1 as [H1|(pl & n & H3 & (t & H4) & H5)]; [left; exact H1|right]. exists pl, n, t. split; [apply resolve_node_names; exact H3|]. auto.
  Qed.
  Theorem C45_absent_works a c r c' reqs path target touch owner group :
    ready c reqs -> c_string path -> absolute path -> target <> [] -> healthy c -> hash_ok sha512 ->
    feasible (sysof c) (c_base c) (reqs ++ [asking owner group None None]) ->
    sees_none (sysof c) path \/ (exists pl n t, sees (sysof c) path pl n /\ n_kind n = KLink t) ->
    operation a (link path target false touch owner group) c = (r, c') ->
    exists res, r = Ok res /\ or_success res = true /\ healthy c' /\ missing (sysof c') path /\
      (or_changed res = false <-> sees_none (sysof c) path) /\ (or_changed res = false -> c' = c).
  Proof.
    intros Hr Hp Ha Htg Hhl Hha Hfe Hat E. apply absolute_isabs in Ha.
    destruct (absent_works rest sha512 path (fun k => exists t, k = KLink t) (fun s pl s' => only_files s s' /\ o_fs s' = delete pl (o_fs s)) (fun _ _ => True) _ _ _
      (link_form path target false touch owner group Htg) (fun d => remotely_link _ _ _ _ d) (fun attr s c x c' => link_absent_any rest sha512 path target touch attr s c x c') a c r c' reqs Hr Hp Ha E Hhl Hha Hfe)
      as (_ & res & -> & H1 & H2 & H3 & H4).
    - destruct Hat as [H|(pl & n & t & H & H')]; [left; exact H|right; exists pl, n; eauto].
    - exists res. split; [reflexivity|]. split; [exact H1|]. split; [exact H2|]. split; [|split; [exact H3|exact H4]].
      eapply C45_absent in E; [|eassumption| |assumption]; [|intros k Hk; destruct Hhl as (_ & Hf & _); rewrite Hf in Hk; inversion Hk].
      destruct E as [_ E]. apply (E res eq_refl H1).
  Qed.
End theorems.
Print Assumptions C45_link_partial.
Print Assumptions C45_confined_partial.
Print Assumptions C45_link_works_partial.
Print Assumptions C45_again_partial.
Print Assumptions C45_absent.
Print Assumptions C45_absent_works.

(** ** Refutations *)
Definition mkl path target owner := operation NotGiven (link (coreutils echo) fake_hash false path target true false owner None).
Definition p_now := lit "/srv/now". Definition p_etc := lit "/etc". Definition p_lnk := lit "/srv/old/lnk".
(** Full statement (false): if the operation succeeds, the path is a link to the target, nothing else has changed, and a second run
    reports no change.  /srv/now is a link to the directory /srv/old: the new link is created inside that directory. *)
Theorem C45_link_refuted : exists c r c' r2 c2 pl n, ready c [] /\ healthy c /\
  mkl p_now p_etc None c = (Ok r, c') /\ or_success r = true /\
  at_path (sysof c') p_now pl n /\ n_kind n = KLink (lit "/srv/old") /\
  file_at c [lit "etc"; lit "old"; lit "srv"] = None /\ file_at c' [lit "etc"; lit "old"; lit "srv"] = Some (Node (KLink p_etc) 511 0 0 200 200) /\
  mkl p_now p_etc None c' = (Ok r2, c2) /\ or_success r2 = true /\ or_changed r2 = true.
Proof.
  exists on_site. set (c1 := snd (mkl p_now p_etc None on_site)). set (c2 := snd (mkl p_now p_etc None c1)).
  exists (result_of (mkl p_now p_etc None on_site)), c1, (result_of (mkl p_now p_etc None c1)), c2, [lit "now"; lit "srv"], (Node (KLink (lit "/srv/old")) 511 0 0 100 100).
  split; [exact site_ready|]. split; [exact site_healthy|]. split; [ran|]. split; [vm_compute; reflexivity|]. split; [apply resolve_node_names; vm_compute; reflexivity|]. split; [reflexivity|].
  split; [vm_compute; reflexivity|]. split; [vm_compute; reflexivity|]. split; [ran|]. split; vm_compute; reflexivity.
Qed.
Print Assumptions C45_link_refuted.
(** Full statement (false): after success the link has the owner asked for.  A link of alice's gets another target; it is replaced by
    one that belongs to root, the executing user, because the owner was right before.  The second run has to change the owner. *)
Theorem C45_owner_refuted : exists c r c' r2 c2 r3 c3 pl n, ready c [] /\ healthy c /\
  mkl p_lnk (lit "old") alice c = (Ok r, c') /\ or_success r = true /\
  mkl p_lnk (lit "new") alice c' = (Ok r2, c2) /\ or_success r2 = true /\
  at_path (sysof c2) p_lnk pl n /\ n_kind n = KLink (lit "new") /\ n_uid n = 0%N /\ ~ user_name (sysof c2) (n_uid n) (lit "alice") /\
  mkl p_lnk (lit "new") alice c2 = (Ok r3, c3) /\ or_success r3 = true /\ or_changed r3 = true.
Proof.
  exists on_site. set (c1 := snd (mkl p_lnk (lit "old") alice on_site)). set (c2 := snd (mkl p_lnk (lit "new") alice c1)). set (c3 := snd (mkl p_lnk (lit "new") alice c2)).
  exists (result_of (mkl p_lnk (lit "old") alice on_site)), c1, (result_of (mkl p_lnk (lit "new") alice c1)), c2, (result_of (mkl p_lnk (lit "new") alice c2)), c3, [lit "lnk"; lit "old"; lit "srv"], (Node (KLink (lit "new")) 511 0 0 200 200).
  split; [exact site_ready|]. split; [exact site_healthy|]. split; [ran|]. split; [vm_compute; reflexivity|]. split; [ran|]. split; [vm_compute; reflexivity|].
  split; [apply resolve_node_names; vm_compute; reflexivity|]. split; [reflexivity|]. split; [reflexivity|]. split; [|split; [ran|split; vm_compute; reflexivity]].
  assert (Hp : o_passwd (sysof c2) = o_passwd site) by (vm_compute; reflexivity). unfold user_name. rewrite Hp. cbn [n_uid].
  intros [(a & A1 & A2 & A3)|[_ H]]; [|vm_compute in H; discriminate H].
  cbn [site site_with o_passwd app] in A1. repeat (apply elem_of_cons in A1 as [-> |A1]; [cbn in A2, A3; discriminate|]). inversion A1.
Qed.
Print Assumptions C45_owner_refuted.

(** ** Cases that meet the hypotheses *)
Definition tree_b (fs : fsys) : bool :=
  match kind_at fs [] with Some KDir => true | _ => false end &&
  forallb (fun x => match fst x with [] => true | _ :: q => match kind_at fs q with Some KDir => true | _ => false end end) (map_to_list fs).
Lemma tree_dec fs : tree_b fs = true -> tree fs.
Proof.
  unfold tree_b. intros H. apply andb_prop in H as [H1 H2]. split; [destruct (kind_at fs []) as [[]|]; congruence|].
  intros x q n Hn. rewrite forallb_forall in H2. specialize (H2 (x :: q, n)). cbn in H2. destruct (kind_at fs q) as [[]|]; try reflexivity; discriminate H2; apply elem_of_list_In, elem_of_map_to_list; exact Hn.
Qed.
Lemma site_tree : tree (o_fs (sysof on_site)).
Proof. apply tree_dec. vm_compute. reflexivity. Qed.
Example C45_link_case :
  ready on_site [] /\ healthy on_site /\ honest (sysof on_site) /\ c_string p_lnk /\ absolute p_lnk /\ c_string p_etc /\ hash_ok fake_hash /\ unaliased (sysof on_site) /\
  feasible (sysof on_site) (c_base on_site) ([] ++ [asking alice None None None]) /\ attainable (fun k => exists t, k = KLink t) (sysof on_site) p_lnk /\ clear (sysof on_site) p_lnk p_etc /\
  let x := mkl p_lnk p_etc alice on_site in let y := mkl p_lnk p_etc alice (snd x) in
  or_success (result_of x) = true /\ or_changed (result_of x) = true /\
  file_at (snd x) [lit "lnk"; lit "old"; lit "srv"] = Some (Node (KLink p_etc) 511 1000 0 200 200) /\
  or_success (result_of y) = true /\ or_changed (result_of y) = false.
Proof.
  assert (Hp : c_string p_lnk) by (split; [text|dec]).
  split; [exact site_ready|]. split; [exact site_healthy|]. split; [exact site_honest|]. split; [exact Hp|]. split; [eexists; reflexivity|]. split; [split; [text|dec]|]. split; [exact ex_hash|].
  split; [apply site_accounts|]. split; [apply site_feasible; [right; reflexivity|exact I|exact I]|]. split; [|split].
  - left. split; [vm_compute; reflexivity|]. exists (lit "/srv/old"), (lit "lnk"). eexists _, _. split; [reflexivity|]. split; [split_and!; try dec; split_and!; dec|].
    split; [|right; split; [eexists; reflexivity|]; split; [reflexivity|vm_compute; reflexivity]]. reflexivity.
  - left. split; [exact site_tree|]. apply none_enterable; [exact site_tree|apply Hp|discriminate|vm_compute; reflexivity].
  - cbn zeta. split; [vm_compute; reflexivity|]. split; [vm_compute; reflexivity|]. split; [vm_compute; reflexivity|]. split; vm_compute; reflexivity.
Qed.
(** /etc/link is a link to a file and gets another target: the path is clear *)
Example C45_retarget_case : clear (sysof on_site) (lit "/etc/link") p_etc /\ sees (sysof on_site) (lit "/etc/link") [lit "link"; lit "etc"] (Node (KLink (lit "app.conf")) 511 0 0 100 100) /\
  let x := mkl (lit "/etc/link") p_etc alice on_site in let y := mkl (lit "/etc/link") p_etc alice (snd x) in
  or_success (result_of x) = true /\ or_changed (result_of x) = true /\ file_at (snd x) [lit "link"; lit "etc"] = Some (Node (KLink p_etc) 511 1000 0 200 200) /\
  or_success (result_of y) = true /\ or_changed (result_of y) = false.
Proof.
  split; [|split; [vm_compute; reflexivity|]].
  - left. split; [exact site_tree|]. intros [d Hd]. destruct (leads_walk _ _ _ _ _ Hd 40) as [E|E]; vm_compute in E; discriminate E.
  - cbn zeta. split; [vm_compute; reflexivity|]. split; [vm_compute; reflexivity|]. split; [vm_compute; reflexivity|]. split; vm_compute; reflexivity.
Qed.
Example C45_absent_case : let x := operation NotGiven (link (coreutils echo) fake_hash false p_now p_etc false false None None) on_site in
  or_success (result_of x) = true /\ or_changed (result_of x) = true /\ file_at (snd x) [lit "now"; lit "srv"] = None.
Proof. cbn zeta. split; [vm_compute; reflexivity|]. split; vm_compute; reflexivity. Qed.
