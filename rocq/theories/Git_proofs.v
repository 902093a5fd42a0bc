(** git.repo: which commands it runs, and what they achieve *)
From Coq Require Import Lia ZifyBool ZifyN ZifyNat.
From stdpp Require Import gmap.
From Verif Require Import Base Utf8 Utf8_proofs Dict_proofs Codec Spec_Codec Codec_proofs2 Paths Sys Spec_Sys Sys_proofs Dispatcher Client Spec_Session Spec_Remote Remote_run Control Spec_Control Control_proofs
  Remote_safe Remote_proofs Walk_proofs Quiet Digits Direct Thrift Prop_Control Op Op_proofs Files Files_plain Spec_Files Shell_proofs Steps Dir_proofs Prop_Files System Spec_Commands Commands_proofs Package_proofs Bash Prop_Detect Prop_Logger Spec_Account Spec_Service Spec_Git.
Local Open Scope nat_scope.

(** ** The operation without its bookkeeping *)
Section plain.
  Variable exec : proc -> M xres.
  Variable sha512 : bytes -> bytes.
  Variable dry : bool.
  Notation sh := (sh exec sha512).
  Notation crun := (crun exec sha512).
  Notation stat := (stat exec sha512).
  Variable (url path : pystr) (branch : option pystr) (update : bool) (depth : option Z) (rebase ff submodules recursive shallow : bool).
  Definition refuse (i f : state) (m : pystr) : W opres := mret (OpRes false false i f (Some m)).
  Definition pattern : pystr := match branch with Some ((_ :: _) as b) => b | _ => lit "HEAD" end.
  Definition same_commit (there : bool) (cur : option pystr) (newest : pystr) : bool := there && bool_decide (cur = Some newest).
  Lemma repo_eq there cur newest : py_eq (VDict (repo_state there cur)) (VDict (repo_state true (Some newest))) = same_commit there cur newest.
  Proof using.
    change (Bool.eqb there true && (py_eq (vopt cur) (VStr newest) && true) = same_commit there cur newest). rewrite andb_true_r. unfold same_commit. f_equal; [destruct there; reflexivity|].
    destruct cur as [t|]; cbn; [|reflexivity]. destruct (str_eqb_spec t newest) as [-> |H]; symmetry; [apply bool_decide_eq_true_2; reflexivity|apply bool_decide_eq_false_2; congruence].
  Qed.
  Definition sub_work : W () := if submodules then sh (submodule_cmd path depth recursive shallow) else mret tt.
  Definition finish (there : bool) (cur : option pystr) : W opres :=
    let i := repo_state there cur in
    if there && negb update then mret (OpRes true (negb (py_eq (VDict i) (VDict (repo_state true cur)))) i (repo_state true cur) None)
    else
      n ← crun (git_list url pattern);
      match py_words (out_bsr n) with
      | [] => wraise IndexError
      | newest :: _ =>
          let f := repo_state true (Some newest) in
          if same_commit there cur newest then mret (OpRes true false i f None)
          else if dry then mret (OpRes true true i f None)
          else if negb there then
            _ ← sh (clone_cmd url path branch depth); _ ← sub_work; mret (OpRes true true i f None)
          else
            r ← crun (git_origin path);
            if negb (str_eqb (out_bsr r) url) then refuse i f (lit "refusing to update existing git repository with different remote url '" ++ out_bsr r ++ lit "'")
            else _ ← sh (pull_cmd path depth rebase ff); _ ← sub_work; mret (OpRes true true i f None)
      end.
  Definition repo_body : W opres :=
    _ ← check_absolute_path path;
    st ← stat path false false;
    match st with
    | None => finish false None
    | Some st =>
        if str_eqb (st_type st) (lit "dir") then
          g ← stat (path_join path (lit ".git")) false false;
          match g with
          | None => refuse [] [] (lit "directory '" ++ path ++ lit "' already exists but is not a git repository")
          | Some g =>
              if negb (str_eqb (st_type g) (lit "dir")) then refuse [] [] (lit "directory '" ++ path ++ lit "' already exists but doesn't contains a valid .git directory")
              else r ← crun (git_head path); finish true (Some (out_bsr r))
          end
        else refuse [] [] (lit "path '" ++ path ++ lit "' exists but is not a directory!")
    end.
  Lemma pattern_eq : default (lit "HEAD") (or_str branch None) = pattern.
  Proof using. unfold pattern. destruct branch as [[|x b]|]; reflexivity. Qed.
  Lemma yields_sub o (w : W opres) : yields success o w -> yields (_ ← (if submodules then olift (sh (submodule_cmd path depth recursive shallow)) else mret tt); success) o (_ ← sub_work; w).
  Proof using. intros H. eapply yields_bind; [|intros []; exact H]. unfold sub_work. destruct submodules; [apply keeps_lift|apply keeps_ret]. Qed.
  Lemma repo_plain : yields (repo exec sha512 dry url path branch update depth rebase ff submodules recursive shallow) new_op repo_body.
  Proof using.
    unfold repo, repo_body. eapply yields_bind; [apply keeps_lift|intros []]. eapply yields_bind; [apply keeps_lift|intros st].
    assert (Hc : forall there cur, yields
      (_ ← initial_state (repo_state there cur);
       if there && negb update then
        _ ← final_state (repo_state true cur);
        success
       else
        n ← olift (crun (git_list url (default (lit "HEAD") (or_str branch None))));
        match py_words (out_bsr n) with
        | [] => oraise IndexError
        | newest :: _ =>
            _ ← final_state (repo_state true (Some newest));
            u ← unchanged false;
            if u : bool then success
            else if dry then success
            else if negb there then
              _ ← olift (sh (clone_cmd url path branch depth));
              _ ← (if submodules then olift (sh (submodule_cmd path depth recursive shallow)) else mret tt);
              success
            else
              r ← olift (crun (git_origin path));
              if negb (str_eqb (out_bsr r) url) then failure (lit "refusing to update existing git repository with different remote url '" ++ out_bsr r ++ lit "'")
              else
                _ ← olift (sh (pull_cmd path depth rebase ff));
                _ ← (if submodules then olift (sh (submodule_cmd path depth recursive shallow)) else mret tt);
                success
        end) new_op (finish there cur)).
    { intros there cur. rewrite pattern_eq. unfold new_op, finish. apply yields_initial. destruct (there && negb update).
      - apply yields_final. apply keeps_yields, keeps_success.
      - eapply yields_bind; [apply keeps_lift|intros n]. destruct (py_words (out_bsr n)) as [|newest ws]; [apply yields_raise|].
        apply yields_final. cbv zeta. eapply yields_pure; [apply keeps_unchanged|]. rewrite <- (repo_eq there cur newest).
        set (i := repo_state there cur). set (f := repo_state true (Some newest)).
        assert (Hs : yields success (Op false (Some i) (Some f) []) (mret (OpRes true (negb (py_eq (VDict i) (VDict f))) i f None))) by (apply keeps_yields, keeps_success).
        destruct (py_eq (VDict i) (VDict f)); [exact Hs|]. destruct dry; [exact Hs|]. destruct (negb there).
        + eapply yields_bind; [apply keeps_lift|intros []]. apply yields_sub. exact Hs.
        + eapply yields_bind; [apply keeps_lift|intros r]. destruct (negb (str_eqb (out_bsr r) url)); [apply yields_failure|].
          eapply yields_bind; [apply keeps_lift|intros []]. apply yields_sub. exact Hs. }
    destruct st as [st|]; [|apply (Hc false None)]. destruct (str_eqb (st_type st) (lit "dir")); [|apply yields_failure].
    eapply yields_bind; [apply keeps_lift|intros g]. destruct g as [g|]; [|apply yields_failure]. destruct (negb (str_eqb (st_type g) (lit "dir"))); [apply yields_failure|].
    eapply yields_bind; [apply keeps_lift|intros r]. apply (Hc true).
  Qed.
End plain.

(** ** Texts *)
Lemma lstrip_split s : exists sp, s = sp ++ lstrip s /\ Forall (fun c => is_space c = true) sp.
Proof.
  induction s as [|c s (sp & E & H)]; [exists []; split; [reflexivity|constructor]|]. cbn. destruct (is_space c) eqn:Ec.
  - exists (c :: sp). split; [cbn; congruence|]. constructor; assumption.
  - exists []. split; [reflexivity|constructor].
Qed.
Lemma words_spaces sp : Forall (fun c => is_space c = true) sp -> py_words sp = [].
Proof. induction 1 as [|c sp H _ IH]; [reflexivity|]. cbn. rewrite H. exact IH. Qed.
Lemma words_trail s sp : Forall (fun c => is_space c = true) sp -> py_words (s ++ sp) = py_words s.
Proof.
  intros H. induction s as [|c s IH]; [apply words_spaces; exact H|]. cbn [app py_words]. destruct (is_space c); [exact IH|]. destruct s as [|d s].
  - cbn [app]. destruct sp as [|d sp]; [reflexivity|]. inversion H as [|? ? H1 H2]; subst. rewrite H1. rewrite (words_spaces (d :: sp)) by exact H. reflexivity.
  - cbn [app] in IH |- *. destruct (is_space d); rewrite IH; reflexivity.
Qed.
Lemma words_strip s : py_words (strip s) = py_words s.
Proof.
  assert (Hl : py_words (lstrip s) = py_words s).
  { induction s as [|c s IH]; [reflexivity|]. cbn [lstrip]. destruct (is_space c) eqn:E; [|reflexivity]. rewrite IH. cbn [py_words]. rewrite E. reflexivity. }
  unfold strip. rewrite <- Hl. unfold rstrip. destruct (lstrip_split (rev (lstrip s))) as (sp & E & H).
  apply (f_equal (@rev N)) in E. rewrite rev_involutive, rev_app_distr in E. rewrite E at 2. symmetry. apply words_trail. rewrite Forall_forall in H |- *.
  intros x Hx. apply H. rewrite elem_of_list_In, in_rev, <- elem_of_list_In. exact Hx.
Qed.
Lemma words_first w c r : Forall (fun c => is_space c = false) w -> w <> [] -> is_space c = true -> exists ws, py_words (w ++ c :: r) = w :: ws.
Proof.
  intros H Hne Hc. induction H as [|x w Hx Hw IH]; [contradiction|]. cbn [app py_words]. rewrite Hx. destruct w as [|y w].
  - cbn [app]. rewrite Hc. eauto.
  - destruct IH as [ws IH]; [discriminate|]. inversion Hw as [|? ? Hy _]; subst. cbn [app] in IH |- *. rewrite Hy, IH. eauto.
Qed.
Lemma bsr_ascii t : Forall (fun c => (c < 128)%N) t -> utf8_decode_bsr (List.map n2b t) = t.
Proof. intros H. assert (E := bsr_spec (List.map n2b t)). rewrite decode_ascii in E by exact H. injection E as E. congruence. Qed.
Lemma visible_ascii t : visible t -> Forall (fun c => (c < 128)%N) t.
Proof. intros H. eapply Forall_impl; [exact H|]. cbn. intros; lia. Qed.
Lemma visible_nospace t : visible t -> Forall (fun c => is_space c = false) t.
Proof. intros H. eapply Forall_impl; [exact H|]. cbn. intros x Hx. unfold is_space. lia. Qed.
Lemma out_line t z : id_text t -> cr_stdout z = Some (List.map n2b t ++ [n2b 10]) -> out_bsr z = t.
Proof.
  intros [H Hne] E. unfold out_bsr. rewrite E. cbn [default from_option]. unfold id. change [n2b 10] with (List.map n2b [10%N]). rewrite <- map_app, bsr_ascii.
  - apply strip_last; [apply visible_nospace; exact H|exact Hne].
  - apply Forall_app. split; [apply visible_ascii; exact H|constructor; [lia|constructor]].
Qed.
Lemma mjoin_cons {A} (x : list A) l : mjoin (x :: l) = x ++ mjoin l. Proof. reflexivity. Qed.
Lemma lines_text l : lines l = List.map n2b (mjoin ((fun r : pystr * pystr => r.2 ++ [9%N] ++ r.1 ++ [10%N]) <$> l)).
Proof.
  unfold lines. induction l as [|r l IH]; [reflexivity|]. rewrite !fmap_cons, !mjoin_cons, map_app, IH. f_equal. rewrite !map_app. reflexivity.
Qed.
Lemma out_first (r : pystr * pystr) l z : Forall (fun r : pystr * pystr => id_text r.1 /\ id_text r.2) (r :: l) -> cr_stdout z = Some (lines (r :: l)) -> exists ws, py_words (out_bsr z) = r.2 :: ws.
Proof.
  intros H E. unfold out_bsr. rewrite E. cbn [default from_option]. unfold id. rewrite words_strip, lines_text, bsr_ascii.
  - rewrite fmap_cons, mjoin_cons, <- app_assoc. inversion H as [|? ? [_ [H1 H2]] _]; subst. apply words_first; [apply visible_nospace; exact H1|exact H2|reflexivity].
  - clear E. induction H as [|x l' [[H1 _] [H2 _]] _ IH]; [constructor|]. rewrite fmap_cons, mjoin_cons. apply Forall_app. split; [|exact IH].
    repeat (apply Forall_app; split); try (apply visible_ascii; assumption); repeat constructor; lia.
Qed.

Section git.
  Variable exec : proc -> M xres.
  Variable sha512 : bytes -> bytes.
  Variable up : os -> pystr -> upstream.
  Variable checkout : os -> pystr -> option work.
  Variable behind : pystr -> pystr -> Prop.
  Hypothesis Hb : bounded exec.
  Hypothesis Hg : git_program exec up checkout behind.
  Variable (url path : pystr) (branch : option pystr) (update : bool) (depth : option Z) (rebase ff submodules recursive shallow : bool).
  Notation pattern := (pattern branch).

  Lemma same_up s s' : unaffected s s' -> up s' = up s. Proof. intros H. apply (g_stable _ _ _ _ Hg _ _ H). Qed.
  Lemma same_checkout s s' : unaffected s s' -> checkout s' = checkout s. Proof. intros H. apply (g_stable _ _ _ _ Hg _ _ H). Qed.

  Definition asked (cmd : list pystr) (P : os -> completed -> Prop) s (l : list (list pystr)) s' (r : result completed) : Prop :=
    unaffected s s' /\ l `prefix_of` [cmd] /\ forall z, r = Ok z -> l = [cmd] /\ P s z.
  Lemma ask_does cmd (P : os -> completed -> Prop) : (forall q s x s', p_argv q = cmd -> exec q s = (x, s') -> unaffected s s' /\ forall out err, x = Ok (XExit 0 out err) -> P s (Completed (Some out) (Some err) 0%Z)) ->
    (forall s s' z, unaffected s s' -> P s' z -> P s z) ->
    does exec (crun exec sha512 cmd) (asked cmd P).
  Proof using Hb.
    intros HP Hs. eapply does_mono; [apply run_does|]. intros s l s' r H. destruct r as [z|e].
    - apply ran_ok in H as (-> & p & s1 & rc & out & err & H1 & H2 & H3 & -> & H4); [|exact Hb]. rewrite (H4 eq_refl) in *.
      destruct (HP p s1 _ s' H3 H2) as (G1 & G2). split; [eapply unaffected_trans; eassumption|]. split; [reflexivity|].
      intros z [= <-]. split; [reflexivity|]. eapply Hs; [exact H1|]. eapply G2. reflexivity.
    - destruct H as [(-> & H1 & _)|(-> & p & s1 & x & H1 & H2 & H3 & _)].
      + split; [exact H1|]. split; [apply prefix_nil|]. intros z [=].
      + destruct (HP p s1 _ s' H3 H2) as (G1 & _). split; [eapply unaffected_trans; eassumption|]. split; [reflexivity|]. intros z [=].
  Qed.
  Lemma head_does : does exec (crun exec sha512 (git_head path)) (asked (git_head path) (fun s z => exists w, checkout s path = Some w /\ out_bsr z = w_head w)).
  Proof using Hb Hg.
    apply ask_does.
    - intros q s x s' H1 H2. destruct (g_head _ _ _ _ Hg q s x s' path H1 H2) as [G1 G2]. split; [exact G1|]. intros out err Hx. destruct (G2 out err Hx) as (w & W1 & W2 & W3).
      exists w. split; [exact W1|]. apply out_line; [exact W2|]. exact (f_equal Some W3).
    - intros s s' z H (w & W1 & W2). exists w. rewrite <- (same_checkout _ _ H). auto.
  Qed.
  Lemma origin_does : does exec (crun exec sha512 (git_origin path)) (asked (git_origin path) (fun s z => exists w, checkout s path = Some w /\ out_bsr z = w_origin w)).
  Proof using Hb Hg.
    apply ask_does.
    - intros q s x s' H1 H2. destruct (g_origin _ _ _ _ Hg q s x s' path H1 H2) as [G1 G2]. split; [exact G1|]. intros out err Hx. destruct (G2 out err Hx) as (w & W1 & W2 & W3).
      exists w. split; [exact W1|]. apply out_line; [exact W2|]. exact (f_equal Some W3).
    - intros s s' z H (w & W1 & W2). exists w. rewrite <- (same_checkout _ _ H). auto.
  Qed.
  Lemma list_does pat : does exec (crun exec sha512 (git_list url pat)) (asked (git_list url pat) (fun s z => literal pat -> exists r l ws, chosen (up s url) pat = r :: l /\ py_words (out_bsr z) = r.2 :: ws)).
  Proof using Hb Hg.
    apply ask_does.
    - intros q s x s' H1 H2. destruct (g_list _ _ _ _ Hg q s x s' url pat H1 H2) as [G1 G2]. split; [exact G1|]. intros out err Hx Hp. destruct (G2 out err Hx Hp) as (W1 & W2 & W3).
      destruct (chosen (up s url) pat) as [|r l]; [contradiction|]. destruct (out_first r l (Completed (Some out) (Some err) 0%Z) W2) as [ws Hws]; [exact (f_equal Some W3)|]. exists r, l, ws. auto.
    - intros s s' z H G Hp. rewrite <- (same_up _ _ H). apply G. exact Hp.
  Qed.
  Lemma stat_does p f sha : does exec (stat exec sha512 p f sha) (fun s l s' r => l = [] /\ spends s s' /\
    (isabs p = true ->
      match r with
      | Ok (Some st) => os_ok s -> exists pl n, resolve_node (o_fs s) [] p f = Ok (pl, n) /\ st_type st = node_type n /\ node_ok n
      | Ok None => short p -> honest s -> resolve_node (o_fs s) [] p f = Err (oserr ENOENT)
      | Err _ => True
      end)).
  Proof using.
    intros c r c' E. assert (E0 := E). unfold stat, via in E0. destruct (conn_stat exec sha512 p f sha (c_remote c)) as [y v] eqn:Es. injection E0 as <- <-.
    assert (H := stat_conn exec sha512 _ _ _ _ _ _ Es). destruct H as [H1 H2]. split; [reflexivity|]. exists []. split; [constructor; exact H1|]. split; [reflexivity|]. split; [exact (thrifty_stat exec sha512 _ _ _ _ _ _ E)|].
    intros Ha. rewrite (isabs_cwd_node _ _ (o_cwd (sysof c)) _ _ Ha). destruct y as [[st|]|e]; [|intros Hp Hh|exact I].
    - intros Ho. destruct (H2 Ho) as (pl & n & H3 & ->). exists pl, n. split; [exact H3|]. split; [reflexivity|]. apply resolve_node_split in H3 as [_ H3]. apply Ho in H3. exact H3.
    - destruct H2 as [H2|H2]; [|apply H2; exact Hh]. destruct H2. apply packet_ok_write. cbn. apply short_ok. assumption.
  Qed.

  (** the commands that change something *)
  Definition acted (cmd : list pystr) (done : os -> os -> Prop) s (l : list (list pystr)) s' (r : result unit) : Prop :=
    up s' = up s /\ l `prefix_of` [cmd] /\ (l = [] -> unaffected s s') /\ (r = Ok tt -> l = [cmd] /\ done s s').
  Lemma act_does cmd (done : os -> os -> Prop) : (forall q s x s', p_argv q = cmd -> exec q s = (x, s') -> up s' = up s /\ forall out err, x = Ok (XExit 0 out err) -> done s s') ->
    (forall s s1 s', unaffected s s1 -> done s1 s' -> done s s') ->
    does exec (sh exec sha512 cmd) (acted cmd done).
  Proof using Hb Hg.
    intros HP Hs. eapply does_mono; [apply sh_does; exact Hb|]. intros s l s' r [(-> & H & e & ->)|(-> & p & s1 & x & H1 & H2 & H3 & H4)].
    - split; [apply same_up; exact H|]. split; [apply prefix_nil|]. split; [auto|]. intros [=].
    - destruct (HP p s1 x s' H3 H2) as [G1 G2]. split; [rewrite G1; apply same_up; exact H1|]. split; [reflexivity|]. split; [discriminate|]. intros Hr. split; [reflexivity|].
      destruct (H4 Hr) as (out & err & ->). eapply Hs; [exact H1|]. eapply G2. reflexivity.
  Qed.
  Definition cloned s s' : Prop := checkout s path = None /\ exists h, tip (up s url) branch = Some h /\ checkout s' path = Some (Work url (branch_ref (up s url) branch) h).
  Lemma clone_does : does exec (sh exec sha512 (clone_cmd url path branch depth)) (acted (git_clone url path branch depth) cloned).
  Proof using Hb Hg.
    change (clone_cmd url path branch depth) with (git_clone url path branch depth). apply act_does.
    - intros q s x s' H1 H2.
      set (args := with_depth depth ++ match branch with Some b => [lit "--branch"; b] | None => [] end ++ [lit "--"; url; path]).
      set (opts := match depth with Some d => [(lit "--depth", str_of_Z d)] | None => [] end ++ match branch with Some b => [(lit "--branch", b)] | None => [] end).
      assert (Ho : getopt args = (opts, [url; path])) by (subst args opts; destruct depth, branch; reflexivity).
      assert (Hd : dget (lit "--branch") opts = branch) by (subst opts; destruct depth, branch; reflexivity).
      destruct (g_clone _ _ _ _ Hg q s x s' args opts url path H1 Ho H2) as [G1 G2]. split; [exact G1|]. intros out err Hx. rewrite Hd in G2. exact (G2 out err Hx).
    - intros s s1 s' H. unfold cloned. rewrite (same_up _ _ H), (same_checkout _ _ H). auto.
  Qed.
  Definition pulled s s' : Prop := exists w f t h, checkout s path = Some w /\ w_follows w = Some f /\ dget f (up_refs (up s (w_origin w))) = Some t /\
        checkout s' path = Some (Work (w_origin w) (Some f) h) /\ (behind (w_head w) t -> h = t).
  Lemma pull_does : does exec (sh exec sha512 (pull_cmd path depth rebase ff)) (acted (git_pull path depth rebase ff) pulled).
  Proof using Hb Hg.
    change (pull_cmd path depth rebase ff) with (git_pull path depth rebase ff). apply act_does.
    - intros q s x s' H1 H2. apply (g_pull _ _ _ _ Hg q s x s' path depth rebase ff H1 H2).
    - intros s s1 s' H. unfold pulled. rewrite (same_up _ _ H), (same_checkout _ _ H). auto.
  Qed.
  Definition subs : list (list pystr) := submodule_plan path depth submodules recursive shallow.
  Definition updated s (l : list (list pystr)) s' (r : result unit) : Prop :=
    up s' = up s /\ checkout s' path = checkout s path /\ l `prefix_of` subs /\ (l = [] -> unaffected s s') /\ (r = Ok tt -> l = subs).
  Lemma sub_does : does exec (sub_work exec sha512 path depth submodules recursive shallow) updated.
  Proof using Hb Hg.
    unfold sub_work, updated, subs, submodule_plan. destruct submodules.
    - assert (E : submodule_cmd path depth recursive shallow = git_submodules path (if shallow then depth else None) recursive) by (destruct shallow, depth; reflexivity).
      rewrite E. eapply does_mono; [apply sh_does; exact Hb|]. intros s l s' r [(-> & H & e & ->)|(-> & p & s1 & x & H1 & H2 & H3 & H4)].
      + split; [apply same_up; exact H|]. split; [rewrite (same_checkout _ _ H); reflexivity|]. split; [apply prefix_nil|]. split; [auto|]. intros [=].
      + destruct (g_submodules _ _ _ _ Hg p s1 x s' path _ _ H3 H2) as [G1 G2]. split; [rewrite G1; apply same_up; exact H1|]. split; [rewrite G2, (same_checkout _ _ H1); reflexivity|].
        split; [reflexivity|]. split; [discriminate|]. auto.
    - eapply does_mono; [apply does_ret|]. intros s l s' r (-> & -> & ->). split_and!; auto. intros; apply unaffected_refl.
  Qed.

  (** both together *)
  Definition both (cmd : list pystr) (done : os -> os -> Prop) (y : opres) s (l : list (list pystr)) s' (r : result opres) : Prop :=
    up s' = up s /\ l `prefix_of` cmd :: subs /\ (l = [] -> unaffected s s') /\
    forall x, r = Ok x -> x = y /\ l = cmd :: subs /\ exists s1, done s s1 /\ checkout s' path = checkout s1 path.
  Lemma both_does cmd done (m : W unit) y : does exec m (acted cmd done) ->
    does exec (_ ← m; _ ← sub_work exec sha512 path depth submodules recursive shallow; mret y) (both cmd done y).
  Proof using Hb Hg.
    intros Hm. eapply does_bind; [exact Hm|intros u|..].
    - eapply (does_bind exec _ _ _ (fun _ s l s' r => l = [] /\ s' = s /\ r = Ok y) (fun s l s' r => updated s l s' (match r with Ok _ => Ok tt | Err e => Err e end) /\ forall x, r = Ok x -> x = y)); [apply sub_does|intros ?; apply does_ret|..].
      + intros s l s' e H. split; [exact H|]. intros x [=].
      + intros s l1 s1 v l2 s2 r H (-> & -> & ->). rewrite app_nil_r. destruct v. split; [exact H|]. intros x [= <-]. reflexivity.
    - intros s l s' e (H1 & H2 & H3 & H4). split; [exact H1|]. split; [|split; [exact H3|intros x [=]]]. etrans; [exact H2|]. exists subs. reflexivity.
    - intros s l1 s1 v l2 s2 r (H1 & H2 & H3 & H4) [(G1 & G2 & G3 & G4 & G5) G6]. destruct v. destruct (H4 eq_refl) as [-> H5]. split; [congruence|]. split.
      + cbn [app]. apply prefix_cons. exact G3.
      + split; [discriminate|]. intros x ->. split; [apply G6; reflexivity|]. rewrite (G5 eq_refl). split; [reflexivity|]. exists s1. auto.
  Qed.

  Definition rest_plan (there lags : bool) : list (list pystr) :=
    if there then if update then git_list url pattern :: if lags then [git_origin path; git_pull path depth rebase ff] ++ subs else [] else []
    else [git_list url pattern; git_clone url path branch depth] ++ subs.
  Lemma plan_rest there lags : repo_plan url path branch update depth rebase ff submodules recursive shallow there lags = (if there then [git_head path] else []) ++ rest_plan there lags.
  Proof using. destruct there; reflexivity. Qed.
  Definition finished (there : bool) (cur : option pystr) s (l : list (list pystr)) s' (r : result opres) : Prop := exists lags,
    l `prefix_of` rest_plan there lags /\ up s' = up s /\ (asking_only url path l -> unaffected s s') /\
    forall x, r = Ok x ->
      (or_success x = false -> asking_only url path l /\ or_changed x = false) /\
      (or_success x = true -> l = rest_plan there lags /\ or_changed x = negb there || (update && lags) /\
        (literal (default [] branch) -> distinct (up s url) branch -> there = false \/ update = true -> (there = true -> exists w, checkout s path = Some w /\ cur = Some (w_head w)) ->
          ((forall w, checkout s path = Some w -> w_origin w = url -> follows behind (up s url) branch w) -> current up checkout url path branch s') /\
          (or_changed x = false <-> current up checkout url path branch s))).

  Lemma literal_pattern : literal (default [] branch) -> literal pattern.
  Proof using.
    unfold pattern. destruct branch as [[|x b]|]; intros H; [| exact H|]; repeat constructor; rewrite !elem_of_cons, elem_of_nil; intuition discriminate.
  Qed.
  Lemma chosen_tip u r l : distinct u branch -> chosen u pattern = r :: l -> tip u branch = Some r.2.
  Proof using.
    intros Hd E. assert (H : r ∈ chosen u pattern) by (rewrite E; left). unfold chosen in H. apply elem_of_list_filter in H as [H1 H2]. apply Hd; assumption.
  Qed.
  Lemma asking_not cmd l : cmd ∈ l -> asking_only url path l -> cmd = git_head path \/ cmd = git_origin path \/ exists pat, cmd = git_list url pat.
  Proof using. intros H1 H2. apply H2. exact H1. Qed.
  Lemma clone_acts l : ~ asking_only url path (git_clone url path branch depth :: l).
  Proof using.
    intros H. destruct (H _ (elem_of_list_here _ _)) as [E|[E|[pat E]]]; apply (f_equal (fun l => l !! 1)) in E; vm_compute in E; discriminate.
  Qed.

  Lemma pull_acts l1 l : ~ asking_only url path (l1 ++ git_pull path depth rebase ff :: l).
  Proof using.
    intros H. destruct (H (git_pull path depth rebase ff) ltac:(apply elem_of_app; right; left)) as [E|[E|[pat E]]].
    - apply (f_equal (fun l => l !! 3)) in E; vm_compute in E; discriminate.
    - apply (f_equal (fun l => l !! 3)) in E; vm_compute in E; discriminate.
    - apply (f_equal (fun l => l !! 1)) in E; vm_compute in E; discriminate.
  Qed.
  Lemma asking_list pat : asking_only url path [git_list url pat].
  Proof using. intros cmd ->%elem_of_list_singleton. eauto. Qed.
  Lemma asking_prefix l l' : l `prefix_of` l' -> asking_only url path l' -> asking_only url path l.
  Proof using. intros [k ->] H cmd Hc. apply H. apply elem_of_app. auto. Qed.
  Lemma asking_cons cmd l : (cmd = git_head path \/ cmd = git_origin path \/ exists pat, cmd = git_list url pat) -> asking_only url path l -> asking_only url path (cmd :: l).
  Proof using. intros H1 H2 x [-> |Hx]%elem_of_cons; auto. Qed.

  (** the update of a checkout that is not at the commit [newest] *)
  Definition pull_part (i f : state) : W opres :=
    r ← crun exec sha512 (git_origin path);
    if negb (str_eqb (out_bsr r) url) then refuse i f (lit "refusing to update existing git repository with different remote url '" ++ out_bsr r ++ lit "'")
    else _ ← sh exec sha512 (pull_cmd path depth rebase ff); _ ← sub_work exec sha512 path depth submodules recursive shallow; mret (OpRes true true i f None).
  Lemma pull_part_does i f : does exec (pull_part i f) (fun s l s' r =>
    l `prefix_of` [git_origin path; git_pull path depth rebase ff] ++ subs /\ up s' = up s /\ (asking_only url path l -> unaffected s s') /\
    forall x, r = Ok x -> (or_success x = false -> asking_only url path l /\ or_changed x = false) /\
      (or_success x = true -> l = [git_origin path; git_pull path depth rebase ff] ++ subs /\ or_changed x = true /\
        exists w s1, checkout s path = Some w /\ w_origin w = url /\ pulled s s1 /\ checkout s' path = checkout s1 path)).
  Proof using Hb Hg.
    unfold pull_part. eapply (does_bind exec _ _ _ (fun r s l s' x =>
      (exists m, out_bsr r <> url /\ l = [] /\ s' = s /\ x = Ok (OpRes false false i f (Some m))) \/
      (out_bsr r = url /\ both (git_pull path depth rebase ff) pulled (OpRes true true i f None) s l s' x))); [apply origin_does|..].
    - intros r. destruct (str_eqb_spec (out_bsr r) url) as [E|E]; cbn [negb].
      + eapply does_mono; [apply both_does, pull_does|]. auto.
      + eapply does_mono; [apply does_ret|]. intros s l s' x (-> & -> & ->). left. eauto.
    - intros s l s' e (H1 & H2 & H3). split; [etrans; [exact H2|]; eexists (_ :: _); reflexivity|]. split; [apply same_up; exact H1|]. split; [auto|]. intros x [=].
    - intros s l1 s1 z l2 s2 r (H1 & H2 & H3) H4. destruct (H3 z eq_refl) as [-> (w & W1 & W2)]. destruct H4 as [(m & M1 & -> & -> & ->)|(M1 & B1 & B2 & B3 & B4)].
      + split; [eexists (_ :: _); reflexivity|]. split; [apply same_up; exact H1|]. split; [auto|]. intros x [= <-]. split; [|discriminate]. intros _. split; [|reflexivity]. apply asking_cons; [auto|]. intros cmd H. inversion H.
      + split; [cbn [app]; apply prefix_cons; exact B2|]. split; [rewrite B1; apply same_up; exact H1|]. split.
        * intros Ha. destruct l2 as [|y l2]; [eapply unaffected_trans; [exact H1|auto]|]. exfalso. apply prefix_cons_inv_1 in B2. subst y. exact (pull_acts [git_origin path] l2 Ha).
        * intros x Hx. destruct (B4 x Hx) as (-> & -> & s3 & D1 & D2). cbn [or_success or_changed]. split; [discriminate|]. intros _. split; [reflexivity|]. split; [reflexivity|].
          exists w, s3. split; [exact W1|]. split; [congruence|]. split; [|exact D2]. unfold pulled in *. rewrite (same_up _ _ H1), (same_checkout _ _ H1) in D1. exact D1.
  Qed.
  Lemma finish_does there cur : does exec (finish exec sha512 false url path branch update depth rebase ff submodules recursive shallow there cur) (finished there cur).
  Proof using Hb Hg.
    unfold finish. cbv zeta. destruct (there && negb update) eqn:Etu.
    { apply andb_true_iff in Etu as [-> Hu]. apply negb_true_iff in Hu. eapply does_mono; [apply does_ret|]. intros s l s' r (-> & -> & ->). exists false.
      unfold rest_plan. rewrite Hu. split; [reflexivity|]. split; [reflexivity|]. split; [intros; apply unaffected_refl|]. intros x [= <-]. cbn [or_success or_changed]. split; [discriminate|]. intros _. split; [reflexivity|]. split.
      - destruct cur as [t|]; [change (negb (py_eq (VDict (repo_state true (Some t))) (VDict (repo_state true (Some t)))) = negb true || false && false); rewrite repo_eq; unfold same_commit; rewrite bool_decide_eq_true_2 by reflexivity|]; reflexivity.
      - intros _ _ [?|?]; congruence. }
    set (i := repo_state there cur).
    eapply (does_bind exec _ _ _ (fun z s l s' r =>
      (py_words (out_bsr z) = [] /\ l = [] /\ s' = s /\ r = Err IndexError) \/
      exists newest ws, py_words (out_bsr z) = newest :: ws /\
        ((same_commit there cur newest = true /\ l = [] /\ s' = s /\ r = Ok (OpRes true false i (repo_state true (Some newest)) None)) \/
         (same_commit there cur newest = false /\ there = false /\ both (git_clone url path branch depth) cloned (OpRes true true i (repo_state true (Some newest)) None) s l s' r) \/
         (same_commit there cur newest = false /\ there = true /\
            l `prefix_of` [git_origin path; git_pull path depth rebase ff] ++ subs /\ up s' = up s /\ (asking_only url path l -> unaffected s s') /\
            forall x, r = Ok x -> (or_success x = false -> asking_only url path l /\ or_changed x = false) /\
              (or_success x = true -> l = [git_origin path; git_pull path depth rebase ff] ++ subs /\ or_changed x = true /\
                exists w s1, checkout s path = Some w /\ w_origin w = url /\ pulled s s1 /\ checkout s' path = checkout s1 path))))); [apply list_does|..].
    - intros z. destruct (py_words (out_bsr z)) as [|newest ws].
      + eapply does_mono; [apply does_raise|]. intros s l s' r H. left. auto.
      + destruct (same_commit there cur newest) eqn:Es.
        * eapply does_mono; [apply does_ret|]. intros s l s' r H. right. exists newest, ws. split; [reflexivity|]. left. split; [exact Es|exact H].
        * destruct there; cbn [negb].
          -- eapply does_mono; [apply (pull_part_does i (repo_state true (Some newest)))|]. intros s l s' r H. right. exists newest, ws. split; [reflexivity|]. right. right. split; [exact Es|]. split; [reflexivity|exact H].
          -- eapply does_mono; [apply both_does, clone_does|]. intros s l s' r H. right. exists newest, ws. split; [reflexivity|]. right. left. auto.
    - intros s l s' e (H1 & H2 & H3). exists false. split.
      { etrans; [exact H2|]. unfold rest_plan. destruct there; [|eexists (_ :: _); reflexivity]. destruct update; [reflexivity|discriminate Etu]. }
      split; [apply same_up; exact H1|]. split; [auto|]. intros x [=].
    - intros s l1 s1 z l2 s2 r (H1 & H2 & H3) H4. destruct (H3 z eq_refl) as [-> Hz].
      assert (Htu : there = true -> update = true) by (intros ->; destruct update; [reflexivity|discriminate Etu]).
      destruct H4 as [(E & -> & -> & ->)|(newest & ws & E & [(Es & -> & -> & ->)|[(Es & -> & B1 & B2 & B3 & B4)|(Es & -> & B1 & B2 & B3 & B4)]])].
      + exists false. split; [unfold rest_plan; destruct there; [rewrite Htu by reflexivity; reflexivity|eexists (_ :: _); reflexivity]|]. split; [apply same_up; exact H1|]. split; [auto|]. intros x [=].
      + unfold same_commit in Es. apply andb_true_iff in Es as [-> Ec]. apply bool_decide_eq_true in Ec. exists false. unfold rest_plan. rewrite Htu by reflexivity.
        split; [reflexivity|]. split; [apply same_up; exact H1|]. split; [auto|]. intros x [= <-]. cbn [or_success or_changed]. split; [discriminate|]. intros _. split; [reflexivity|]. split; [reflexivity|].
        intros Hl Hd _ Hw. destruct (Hw eq_refl) as (w & W1 & W2). destruct (Hz (literal_pattern Hl)) as (r & l & ws' & C1 & C2). rewrite E in C2. injection C2 as -> _.
        assert (Hc : current up checkout url path branch s) by (exists w; split; [exact W1|]; rewrite (chosen_tip _ _ _ Hd C1); congruence).
        split; [|tauto]. intros _. unfold current. rewrite (same_up _ _ H1), (same_checkout _ _ H1). exact Hc.
      + exists false. unfold rest_plan. split; [cbn [app]; apply prefix_cons; exact B2|]. split; [rewrite B1; apply same_up; exact H1|]. split.
        * intros Ha. destruct l2 as [|y l2]; [eapply unaffected_trans; [exact H1|auto]|]. exfalso. apply prefix_cons_inv_1 in B2. subst y.
          apply (clone_acts l2). intros cmd Hc. apply Ha. right. exact Hc.
        * intros x Hx. destruct (B4 x Hx) as (-> & -> & s3 & [D1 (h & D2 & D3)] & D4). cbn [or_success or_changed]. split; [discriminate|]. intros _. split; [reflexivity|]. split; [reflexivity|].
          intros _ _ _ _. split.
          -- intros _. exists (Work url (branch_ref (up s1 url) branch) h). split; [congruence|]. rewrite B1. exact D2.
          -- split; [discriminate|]. intros (w & W1 & _). rewrite (same_checkout _ _ H1) in D1. congruence.
      + exists true. unfold rest_plan. rewrite Htu by reflexivity. split; [cbn [app]; apply prefix_cons; exact B1|]. split; [rewrite B2; apply same_up; exact H1|]. split.
        * intros Ha. eapply unaffected_trans; [exact H1|]. apply B3. intros cmd Hc. apply Ha. right. exact Hc.
        * intros x Hx. destruct (B4 x Hx) as [F1 F2]. split; [intros Hf; destruct (F1 Hf); split; [apply asking_cons; eauto|assumption]|]. intros Hs. destruct (F2 Hs) as (-> & -> & w & s3 & D1 & D2 & D3 & D4).
          split; [reflexivity|]. split; [reflexivity|]. intros Hl Hd _ Hw. destruct (Hw eq_refl) as (w' & W1 & W2). destruct (Hz (literal_pattern Hl)) as (r1 & l & ws' & C1 & C2). rewrite E in C2. injection C2 as -> _.
          rewrite (same_checkout _ _ H1) in D1. assert (w' = w) as -> by congruence. assert (Ht := chosen_tip _ _ _ Hd C1). split.
          -- intros Hf. destruct (Hf w D1 D2) as [K1 K2]. destruct D3 as (w2 & f & t & h & P1 & P2 & P3 & P4 & P5). rewrite (same_checkout _ _ H1) in P1. assert (w2 = w) as -> by congruence.
             rewrite (same_up _ _ H1), D2 in P3. assert (Htt : tip (up s url) branch = Some t).
             { unfold branch_ref in K1. unfold tip. destruct branch as [b|]; [destruct (dget (heads b) (up_refs (up s url))) eqn:Eb|]; congruence. }
             rewrite (P5 (K2 t Htt)) in P4. exists (Work (w_origin w) (Some f) t). split; [congruence|]. rewrite B2, (same_up _ _ H1). exact Htt.
          -- split; [discriminate|]. intros (w2 & V1 & V2). assert (w2 = w) as -> by congruence. exfalso. unfold same_commit in Es. cbn [andb] in Es. apply bool_decide_eq_false in Es. apply Es. congruence.
  Qed.

  Lemma type_dir n : node_ok n -> str_eqb (node_type n) (lit "dir") = true -> n_kind n = KDir.
  Proof using. intros H1 H2. apply is_dir; [exact H1|]. destruct (str_eqb_spec (node_type n) (lit "dir")); [assumption|discriminate]. Qed.
  Lemma join_abs p x : isabs p = true -> isabs x = false -> isabs (path_join p x) = true.
  Proof using.
    intros H1 H2. unfold path_join. rewrite H2. apply absolute_isabs in H1 as [r ->]. destruct (endswith (slash :: r) (lit "/")); apply absolute_isabs; eexists; reflexivity.
  Qed.
  Lemma asking_nil : asking_only url path []. Proof using. intros cmd H. inversion H. Qed.
  Definition outcome_at (there : bool) s (l : list (list pystr)) s' (r : result opres) : Prop := exists lags : bool,
    l `prefix_of` repo_plan url path branch update depth rebase ff submodules recursive shallow there lags /\
    up s' = up s /\ (asking_only url path l -> unaffected s s') /\
    forall x, r = Ok x ->
      (or_success x = false -> asking_only url path l /\ or_changed x = false) /\
      (or_success x = true ->
        l = repo_plan url path branch update depth rebase ff submodules recursive shallow there lags /\ or_changed x = negb there || (update && lags) /\
        (literal (default [] branch) -> distinct (up s url) branch -> there = false \/ update = true ->
          ((forall w, checkout s path = Some w -> w_origin w = url -> follows behind (up s url) branch w) -> current up checkout url path branch s') /\
          (or_changed x = false <-> current up checkout url path branch s))).
  Lemma outcome_before there s s1 l s' r : unaffected s s1 -> outcome_at there s1 l s' r -> outcome_at there s l s' r.
  Proof using Hg.
    intros Hu (lags & L1 & L2 & L3 & L4). exists lags. split; [exact L1|]. split; [rewrite L2; apply same_up; exact Hu|]. split; [intros Hx; eapply unaffected_trans; [exact Hu|auto]|].
    intros x Hx. specialize (L4 x Hx). unfold current in L4 |- *. rewrite (same_up _ _ Hu), (same_checkout _ _ Hu) in L4. exact L4.
  Qed.
  Lemma there_does : does exec (r ← crun exec sha512 (git_head path); finish exec sha512 false url path branch update depth rebase ff submodules recursive shallow true (Some (out_bsr r))) (outcome_at true).
  Proof using Hb Hg.
    eapply (does_bind exec _ _ _ (fun r => finished true (Some (out_bsr r)))); [apply head_does|intros r; apply finish_does|..].
    - intros s l s' e (H1 & H2 & H3). exists false. split; [etrans; [exact H2|]; unfold repo_plan; eexists; reflexivity|]. split; [apply same_up; exact H1|]. split; [auto|]. intros x [=].
    - intros s l1 s1 z l2 s2 r (H1 & H2 & H3) (lags & L1 & L2 & L3 & L4). destruct (H3 z eq_refl) as [-> (w & W1 & W2)]. exists lags. rewrite plan_rest. cbn [app].
      split; [apply prefix_cons; exact L1|]. split; [rewrite L2; apply same_up; exact H1|]. split; [intros H; eapply unaffected_trans; [exact H1|]; apply L3; intros cmd Hc; apply H; right; exact Hc|].
      intros x Hx. destruct (L4 x Hx) as [M1 M2]. split; [intros Hf; destruct (M1 Hf); split; [apply asking_cons; auto|assumption]|]. intros Hs. destruct (M2 Hs) as (-> & M3 & M4). split; [reflexivity|]. split; [exact M3|].
      unfold current in M4 |- *. rewrite (same_up _ _ H1), (same_checkout _ _ H1) in M4. intros Hl Hd Hu. apply M4; [assumption..|]. intros _. exists w. split; [exact W1|congruence].
  Qed.
  Lemma none_does : does exec (finish exec sha512 false url path branch update depth rebase ff submodules recursive shallow false None) (outcome_at false).
  Proof using Hb Hg.
    eapply does_mono; [apply finish_does|]. intros s l s' r (lags & L1 & L2 & L3 & L4). exists lags. rewrite plan_rest. cbn [app]. split; [exact L1|]. split; [exact L2|]. split; [exact L3|].
    intros x Hx. destruct (L4 x Hx) as [M1 M2]. split; [exact M1|]. intros Hs. destruct (M2 Hs) as (N1 & N2 & N3). split; [exact N1|]. split; [exact N2|]. intros Hl Hd Ht. apply N3; [assumption..|]. discriminate.
  Qed.
  Definition refused s (l : list (list pystr)) s' (r : result opres) : Prop := l = [] /\ unaffected s s' /\ forall x, r = Ok x -> or_success x = false /\ or_changed x = false.
  Lemma refuse_does m : does exec (refuse [] [] m) refused.
  Proof using. eapply does_mono; [apply does_ret|]. intros s l s' r (-> & -> & ->). split; [reflexivity|]. split; [apply unaffected_refl|]. intros x [= <-]. auto. Qed.
  Lemma refused_before s s1 l s' r : unaffected s s1 -> refused s1 l s' r -> refused s l s' r.
  Proof using. intros H1 (H2 & H3 & H4). split; [exact H2|]. split; [eapply unaffected_trans; eassumption|exact H4]. Qed.
  Definition git_dir := path_join path (lit ".git").
  Lemma dir_does : isabs path = true -> does exec
      (g ← stat exec sha512 git_dir false false;
       match g with
       | None => refuse [] [] (lit "directory '" ++ path ++ lit "' already exists but is not a git repository")
       | Some g =>
          if negb (str_eqb (st_type g) (lit "dir")) then refuse [] [] (lit "directory '" ++ path ++ lit "' already exists but doesn't contains a valid .git directory")
          else r ← crun exec sha512 (git_head path); finish exec sha512 false url path branch update depth rebase ff submodules recursive shallow true (Some (out_bsr r))
       end) (fun s l s' r => refused s l s' r \/ ((os_ok s -> directory_at s git_dir) /\ outcome_at true s l s' r)).
  Proof using Hb Hg.
    intros Ha. eapply (does_bind exec _ _ _ (fun g s l s' r => refused s l s' r \/ exists g', g = Some g' /\ str_eqb (st_type g') (lit "dir") = true /\ outcome_at true s l s' r)); [apply stat_does|..].
    - intros [g|]; [|eapply does_mono; [apply refuse_does|]; auto]. destruct (str_eqb (st_type g) (lit "dir")) eqn:Eg; cbn [negb]; [|eapply does_mono; [apply refuse_does|]; auto].
      eapply does_mono; [apply there_does|]. intros s l s' r H. right. eauto.
    - intros s l s' e (-> & [H1 _] & _). left. split; [reflexivity|]. split; [exact H1|]. intros x [=].
    - intros s l1 s1 g l2 s2 r (-> & [H1 _] & H2) [H3|(g' & -> & Eg & H3)]; cbn [app]; [left; eapply refused_before; eassumption|]. right. split; [|eapply outcome_before; eassumption].
      intros Ho. destruct (H2 (join_abs path (lit ".git") Ha eq_refl) Ho) as (pl & n & N1 & N2 & N3). exists pl, n. split; [exact N1|]. apply type_dir; congruence.
  Qed.
  Lemma repo_does : short path -> does exec (repo_body exec sha512 false url path branch update depth rebase ff submodules recursive shallow)
    (repo_outcome up checkout behind url path branch update depth rebase ff submodules recursive shallow).
  Proof using Hb Hg.
    intros Hp. set (R := repo_outcome up checkout behind url path branch update depth rebase ff submodules recursive shallow). unfold repo_body.
    assert (Hnone : forall s l s' r, refused s l s' r -> R s l s' r).
    { intros s l s' r (-> & Hu & Hr). exists false, false. split; [apply prefix_nil|]. split; [apply same_up; exact Hu|]. split; [auto|]. split; [congruence|]. intros x Hx. destruct (Hr x Hx) as [E1 E2]. rewrite E1.
      split; [intros _; split; [apply asking_nil|exact E2]|discriminate]. }
    assert (Hsome : forall (there : bool) s l s' r, (os_ok s -> honest s -> if there then directory_at s path /\ directory_at s git_dir else sees_none s path) -> outcome_at there s l s' r -> R s l s' r).
    { intros there s l s' r Hd (lags & L1 & L2 & L3 & L4). exists there, lags. split; [exact L1|]. split; [exact L2|]. split; [exact L3|]. split; [|exact L4]. intros Ho Hh _. exact (Hd Ho Hh). }
    assert (Hcheck : if isabs path then check_absolute_path path = mret tt else exists e, check_absolute_path path = wraise e).
    { destruct (isabs path) eqn:Ha; [apply absolute_isabs in Ha as [r ->]; reflexivity|]. unfold check_absolute_path. destruct path as [|c p]; [eauto|].
      destruct (c =? slash)%N eqn:E; [|eauto]. apply N.eqb_eq in E as ->. discriminate (eq_trans (eq_sym Ha) (proj2 (absolute_isabs (slash :: p)) (ex_intro _ p eq_refl))). }
    destruct (isabs path) eqn:Ha.
    2:{ destruct Hcheck as [e ->]. intros c r c' E. injection E as <- <-. destruct (does_raise exec (A := opres) e c (Err e) c eq_refl) as [K1 (l & K2 & -> & K3 & K4)]. split; [exact K1|]. exists []. split; [exact K2|].
      apply Hnone. split; [reflexivity|]. split; [apply unaffected_refl|]. intros x [=]. }
    rewrite Hcheck. intros c0 r0 c0' E0.
    refine (does_bind exec _ _ _ (fun st s l s' r =>
        match st with
        | None => outcome_at false s l s' r
        | Some st => refused s l s' r \/ (str_eqb (st_type st) (lit "dir") = true /\ (os_ok s -> directory_at s git_dir) /\ outcome_at true s l s' r)
        end) R (stat_does path false false) _ _ _ c0 r0 c0' E0).
    - intros [st|]; [|apply none_does]. destruct (str_eqb (st_type st) (lit "dir")); [|eapply does_mono; [apply refuse_does|]; auto].
      eapply does_mono; [apply dir_does; exact Ha|]. intros s l s' r [H|[H1 H2]]; auto.
    - intros s l s' e (-> & [H1 _] & _). apply Hnone. split; [reflexivity|]. split; [exact H1|]. intros x [=].
    - intros s l1 s1 st l2 s2 r (-> & Hsp & H2) H3. assert (H1 := proj1 Hsp). cbn [app]. specialize (H2 Ha). destruct st as [st|].
      + destruct H3 as [H3|(Ed & H3 & H4)]; [apply Hnone; eapply refused_before; eassumption|]. eapply (Hsome true); [|eapply outcome_before; eassumption]. intros Ho _. split.
        * destruct (H2 Ho) as (pl & n & N1 & N2 & N3). exists pl, n. split; [exact N1|]. apply type_dir; congruence.
        * assert (Hd := H3 (spends_os_ok _ _ Hsp Ho)). rewrite H1 in Hd. exact Hd.
      + eapply (Hsome false); [|eapply outcome_before; eassumption]. intros _ Hh. apply H2; assumption.
  Qed.
End git.
