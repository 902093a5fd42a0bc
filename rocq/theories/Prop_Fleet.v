(** C93: the whole program does to the hosts what the command line says. *)
From Coq Require Import Lia.
From stdpp Require Import gmap.
From Verif Require Import Base Dict_proofs Codec Spec_Codec Paths Sys Spec_Sys Sys_proofs Dispatcher Client Spec_Remote Remote_run Control Spec_Control Control_proofs
  Walk_proofs Quiet Op Op_proofs Files Files_plain Spec_Files Steps System Spec_Commands Commands_proofs Dry_proofs Dry_system Prop_Tried Coreutils Remote_examples Files_examples Prop_Control Prop_Files Prop_Dry Options Spec_Options Prop_Options Fleet Spec_Fleet.
From Verif Require Main Prop_Main Prop_Status.
Local Open Scope nat_scope.

Section one.
  Variable exec : proc -> M xres.
  Variable sha512 : bytes -> bytes.
  Variable search : bool -> pystr -> pystr -> result bool.
  Variable date : pystr.
  Variable set_order : list pystr -> list pystr.
  Variable realpath : pystr -> pystr -> pystr.
  Variable isdir : pystr -> bool.
  Variable inode : pystr -> option N.
  Variable code : pystr -> option (params -> tale unit).
  Variable args : opts.
  Variable P : list pystr -> Prop.
  Hypothesis Hdry : n_dry args = true.
  Hypothesis Hcode : forall f t ps, code f = Some t -> by_operations P (t ps).

  Lemma asks_try {A} (m : W A) h : asks exec P m -> (forall e, asks exec P (h e)) -> asks exec P (wtry m h).
  Proof.
    intros Hm Hh c r c' E. unfold wtry in E. destruct (m c) as [[a|e] c1] eqn:E1; [injection E as <- <-; exact (Hm _ _ _ E1)|].
    destruct (Hm _ _ _ E1) as (l1 & H1 & H2). destruct (Hh _ _ _ _ E) as (l2 & H3 & H4). exists (l1 ++ l2). split; [eapply history_app; eassumption|apply Forall_app; auto].
  Qed.
  Lemma asks_with {A} i q (body : settings -> W A) : (forall d, asks exec P (body d)) -> asks exec P (with_defaults exec sha512 i q body).
  Proof.
    intros Hb. unfold with_defaults. apply asks_bind; [apply asks_quiet, quiet_defaults|]. intros new. apply asks_bind; [apply asks_quiet, quiet_enter|]. intros d.
    apply asks_finally; [apply Hb|apply quiet_mod; reflexivity].
  Qed.
  Lemma quiet_chdir p : quiet (chdir isdir p).
  Proof. apply quiet_id. intros c. unfold chdir. destruct (_ && _); reflexivity. Qed.
  Lemma asks_run_script load path : (forall f, asks exec P (load f)) -> asks exec P (run_script exec sha512 realpath isdir load path).
  Proof.
    intros Hl. unfold run_script. apply asks_bind; [apply asks_quiet, quiet_mod; reflexivity|]. intros _. apply asks_finally; [|apply quiet_mod; reflexivity].
    apply asks_bind; [apply asks_quiet, quiet_get|]. intros c. cbv zeta. apply asks_bind; [apply asks_quiet, quiet_mod; reflexivity|]. intros _. apply asks_finally; [|apply quiet_mod; reflexivity].
    apply asks_bind; [apply asks_quiet, quiet_get|]. intros c1. cbv zeta. apply asks_bind; [apply asks_quiet, quiet_chdir|]. intros _.
    apply asks_finally; [|apply quiet_bind; [apply quiet_chdir|intros; apply quiet_mod; reflexivity]].
    apply asks_bind; [apply asks_quiet, quiet_mod; reflexivity|]. intros _. apply asks_with. intros _. apply asks_bind; [apply asks_quiet, quiet_get|]. intros c2.
    apply asks_bind; [apply asks_quiet, quiet_mod; reflexivity|]. intros _. apply Hl.
  Qed.
  Lemma quiet_check path ws : quiet (check_recursion realpath inode path ws).
  Proof.
    induction ws as [|i ws IH]; [apply quiet_ret|]. cbn [check_recursion]. apply quiet_bind; [apply quiet_get|]. intros c. apply quiet_bind; [apply quiet_lift|]. intros []; [apply quiet_raise|exact IH].
  Qed.
  Lemma asks_local load path recursive : (forall f, asks exec P (load f)) -> asks exec P (local_script exec sha512 realpath isdir inode load path recursive).
  Proof.
    intros Hl. unfold local_script. apply asks_bind; [|intros _; apply asks_run_script, Hl]. apply asks_quiet. destruct recursive; [apply quiet_ret|]. apply quiet_bind; [apply quiet_get|]. intros c. apply quiet_check.
  Qed.
  Lemma asks_tell local : (forall p r ps, asks exec P (local p r ps)) -> forall A (t : tale A), by_operations P t -> asks exec P (tell exec sha512 search date set_order isdir args local t).
  Proof.
    intros Hl A t. induction t as [A a|A e|A B p IHp k IHk|A p IHp h IHh|a k|A m| |A q body IH|p|p|path recursive ps]; cbn [by_operations tell]; intros H.
    - apply asks_quiet, quiet_ret.
    - apply asks_quiet, quiet_raise.
    - apply asks_bind; [apply IHp, H|]. intros x. apply IHk, H.
    - apply asks_try; [apply IHp, H|]. intros e. apply IHh, H.
    - rewrite Hdry. intros c r c' E. apply C41_dry in E as (l & H1 & H2). exists l. split; [exact H1|]. eapply Forall_impl; [exact H2|]. exact H.
    - apply asks_quiet, quiet_via. exact H.
    - apply asks_quiet, quiet_current.
    - apply asks_block. intros d. apply IH, H.
    - apply asks_quiet, quiet_chdir.
    - apply asks_quiet, quiet_mod. reflexivity.
    - apply Hl.
  Qed.
  Lemma asks_narrate depth : forall A (t : tale A), by_operations P t -> asks exec P (narrate exec sha512 search date set_order realpath isdir inode code args depth A t).
  Proof.
    induction depth as [|d IH]; intros A t H; cbn [narrate].
    - apply asks_tell; [|exact H]. intros. apply asks_quiet, quiet_raise.
    - apply asks_tell; [|exact H]. intros path recursive ps. apply asks_local. intros f. unfold load_tale. destruct (code f) as [g|] eqn:E; [|apply asks_quiet, quiet_raise]. apply IH, (Hcode _ _ _ E).
  Qed.
  Lemma asks_cmdline depth path : asks exec P (run_cmdline exec sha512 search date set_order realpath isdir inode code args depth path).
  Proof.
    destruct path as [p|]; cbn [run_cmdline]; [|apply asks_quiet, quiet_raise]. apply asks_run_script. intros f. unfold load_tale.
    destruct (code f) as [g|] eqn:E; [|apply asks_quiet, quiet_raise]. apply asks_narrate, (Hcode _ _ _ E).
  Qed.
  Lemma quiet_identity : quiet (resolve_identity exec sha512).
  Proof. unfold resolve_identity. apply quiet_bind; [apply quiet_resolve_user|]. intros u. apply quiet_bind; [apply quiet_resolve_group|]. intros g. apply quiet_mod. reflexivity. Qed.
End one.

Section all.
  Variable exec : pystr -> proc -> M xres.
  Variable sha512 : bytes -> bytes.
  Variable search : bool -> pystr -> pystr -> result bool.
  Variable date : pystr.
  Variable set_order : list pystr -> list pystr.
  Variable realpath : pystr -> pystr -> pystr.
  Variable isdir : pystr -> bool.
  Variable inode : pystr -> option N.
  Variable code : pystr -> pystr -> option (params -> tale unit).
  Variable depth : nat.
  Variable digit : N -> bool.
  Variable inventory : option pystr -> result (list pystr).
  Variable base : settings.
  Variable opens : pystr -> result Client.link.
  Variable closes : pystr -> result unit.
  Notation fora := (fora exec sha512 search date set_order realpath isdir inode code depth digit inventory base opens closes).
  Notation session := (session exec sha512 search date set_order realpath isdir inode code depth).
  Notation run_host := (run_host exec sha512 search date set_order realpath isdir inode code depth base opens closes).
  Notation run_hosts := (run_hosts exec sha512 search date set_order realpath isdir inode code depth base opens closes).
  Hypothesis Hdigit : digit 45%N = false.

  (** [visited args path fl fl' h x]: the script ran on [h] and ended with [x], and what it did there is what happened to [h]. *)
  Definition visited (args : opts) (path : option pystr) (fl fl' : fleet) (h : pystr) (x : result unit) : Prop :=
    exists l c0 c1, opens h = Ok l /\ c_remote c0 = Remote (fl h) l /\ c_base c0 = base /\ session args path h c0 = (x, c1) /\ fl' h = r_os (c_remote c1).

  Lemma put_same h s f : put h s f h = s. Proof. unfold put. rewrite str_eqb_refl. reflexivity. Qed.
  Lemma put_other h x s f : x <> h -> put h s f x = f x.
  Proof. intros H. unfold put. destruct (str_eqb_spec x h); [contradiction|reflexivity]. Qed.
  Lemma run_host_spec args path h fl c r fl' c' : run_host args path h (fl, c) = (r, (fl', c')) ->
    (forall x, x <> h -> fl' x = fl x) /\
    ((exists e, opens h = Err e /\ r = Err e /\ forall x, fl' x = fl x) \/ exists x, visited args path fl fl' h x /\ (r = Ok tt -> x = Ok tt /\ closes h = Ok tt)).
  Proof.
    unfold Fleet.run_host. cbn [fst snd]. destruct (opens h) as [l|e] eqn:Eo.
    - destruct (session args path h _) as [x c1] eqn:Es. intros [= <- <- <-]. split; [intros y Hy; apply put_other, Hy|]. right. exists x. split.
      + eexists l, _, c1. split; [exact Eo|]. split; [|split; [|split; [exact Es|apply put_same]]]; reflexivity.
      + destruct (closes h) as [[]|]; [|discriminate]. intros ->. auto.
    - intros [= <- <- <-]. split; [reflexivity|]. left. eauto.
  Qed.
  Lemma run_hosts_spec args path : forall sel fl c r fl' c', NoDup sel -> run_hosts args path sel (fl, c) = (r, (fl', c')) ->
    exists done rest, sel = done ++ rest /\ (forall h, h ∉ done -> fl' h = fl h) /\ (forall h, h ∈ done -> exists x, visited args path fl fl' h x /\ (r = Ok tt -> x = Ok tt)) /\ (r = Ok tt -> rest = []).
  Proof.
    intros sel. induction sel as [|h sel IH]; intros fl c r fl' c' Hn E; cbn [Fleet.run_hosts] in E.
    - injection E as <- <- <-. exists [], []. split; [reflexivity|]. split; [reflexivity|]. split; [intros h H; inversion H|reflexivity].
    - apply NoDup_cons in Hn as [Hh Hn]. destruct (run_host args path h (fl, c)) as [x [fl1 c1]] eqn:E1. apply run_host_spec in E1 as [O1 O2]. destruct x as [[]|e].
      + destruct O2 as [(e & _ & [=] & _)|(x & V & Vx)]. destruct (IH _ _ _ _ _ Hn E) as (done & rest & -> & D1 & D2 & D3).
        assert (Hd : h ∉ done) by (intros H; apply Hh, elem_of_app; auto).
        exists (h :: done), rest. split; [reflexivity|]. split; [|split; [|exact D3]].
        * intros y Hy. apply not_elem_of_cons in Hy as [Y1 Y2]. rewrite D1 by exact Y2. apply O1, Y1.
        * intros y Hy. apply elem_of_cons in Hy as [-> |Hy].
          -- exists x. split; [|intros _; apply Vx; reflexivity]. destruct V as (l & c0 & c2 & V1 & V2 & V3 & V4 & V5). exists l, c0, c2. repeat (split; [assumption|]). rewrite D1 by exact Hd. exact V5.
          -- destruct (D2 y Hy) as (x2 & (l & c0 & c2 & V1 & V2 & V3 & V4 & V5) & Hx). exists x2. split; [|exact Hx]. exists l, c0, c2. split; [exact V1|]. split; [|auto].
             rewrite V2, O1; [reflexivity|]. intros ->. contradiction.
      + injection E as <- <- <-. destruct O2 as [(e' & _ & _ & O2)|(x & V & _)].
        * exists [], (h :: sel). split; [reflexivity|]. split; [intros; apply O2|]. split; [intros y H; inversion H|discriminate].
        * exists [h], sel. split; [reflexivity|]. split; [intros y Hy; apply O1; intros ->; apply Hy; left|]. split; [|discriminate].
          intros y ->%elem_of_list_singleton. exists x. split; [exact V|discriminate].
  Qed.

  (** Who is touched, and how: nobody; or the selected hosts (all of them known) one after the other, each once, up to the first on which something goes wrong.
      What happens to a host is what the script does there, starting from the state in which the host was. *)
  Theorem C93_hosts argv fl c r fl' c' : fora argv (fl, c) = (r, (fl', c')) ->
    ((forall h, fl' h = fl h) /\ r <> Ok tt) \/
    exists args loaded names sel done rest, parse_args digit argv = Runs args /\ inventory (default None (n_words args !! 0)) = Ok loaded /\
      Prop_Main.asked loaded (n_hosts args) names /\ Forall (fun h => h ∈ loaded) names /\ Prop_Main.once_each names sel /\ sel = done ++ rest /\
      (forall h, h ∉ done -> fl' h = fl h) /\
      (forall h, h ∈ done -> exists x, visited args (default None (n_words args !! 1)) fl fl' h x /\ (r = Ok tt -> x = Ok tt)) /\
      (r = Ok tt -> rest = []).
  Proof using.
    unfold Fleet.fora. destruct (parse_args digit argv) as [| | | | |args] eqn:Ep; try (intros [= <- <- <-]; left; split; [reflexivity|discriminate]).
    unfold Fleet.main_run. intros E. destruct (inventory _) as [loaded|e] eqn:Ei; [|left; destruct e; injection E as <- <- <-; (split; [reflexivity|discriminate])].
    pose proof (Prop_Main.select_spec loaded (match n_hosts args with Some s => split_char 44 s | None => loaded end) [] [] Prop_Main.once_nil) as H. destruct (Main.select _ _ _) as [sel|e] eqn:Es.
    - destruct H as (H1 & _ & H3). right. destruct (run_hosts_spec _ _ _ _ _ _ _ _ (proj1 H1) E) as (done & rest & E1 & D1 & D2 & D3).
      exists args, loaded, (match n_hosts args with Some s => split_char 44 s | None => loaded end), sel, done, rest. split; [reflexivity|]. split; [exact Ei|]. split; [apply Prop_Main.asked_iff|].
      split; [eapply Forall_impl; [exact H3|]; intros x [Hx|Hx]; [exact Hx|inversion Hx]|]. auto 10.
    - left. injection E as <- <- <-. split; [reflexivity|discriminate].
  Qed.

  (** A command line with an option for it is a dry run, whatever hosts there are: the only commands that are run anywhere are the questions of the operations. *)
  Theorem C93_dry (P : pystr -> list pystr -> Prop) argv w fl c r fl' c' : In w (before_dashes argv) -> In w dry_words ->
    (forall h f t ps, code h f = Some t -> by_operations (P h) (t ps)) ->
    fora argv (fl, c) = (r, (fl', c')) ->
    forall h, exists l, history (exec h) (fl h) l (fl' h) /\ Forall (P h) l.
  Proof using Hdigit.
    intros Hw1 Hw2 Hc E h. assert (Hn : exists l, history (exec h) (fl h) l (fl h) /\ Forall (P h) l) by (exists []; split; [constructor; apply unaffected_refl|constructor]).
    destruct (C93_hosts _ _ _ _ _ _ E) as [[H _]|(args & loaded & names & sel & done & rest & Ep & _ & _ & _ & _ & _ & D1 & D2 & _)]; [rewrite H; exact Hn|].
    destruct (decide (h ∈ done)) as [Hd|Hd]; [|rewrite D1 by exact Hd; exact Hn].
    destruct (D2 h Hd) as (x & (l & c0 & c1 & _ & V1 & _ & V2 & V3) & _).
    assert (Hdry : n_dry args = true) by (apply (proj1 (proj2 (C91_partial digit Hdigit)) argv args Ep); eauto).
    assert (Ha : asks (exec h) (P h) (session args (default None (n_words args !! 1)) h)).
    { unfold Fleet.session. apply asks_bind; [apply asks_quiet, quiet_identity|]. intros _. apply asks_cmdline; [exact Hdry|apply Hc]. }
    destruct (Ha _ _ _ V2) as (l' & H1 & H2). exists l'. split; [|exact H2]. rewrite V3. unfold sysof in H1. rewrite V1 in H1. exact H1.
  Qed.
  Theorem C93_dry_harmless argv w fl c r fl' c' : In w (before_dashes argv) -> In w dry_words ->
    (forall h f t ps, code h f = Some t -> by_operations (harmless (exec h)) (t ps)) ->
    fora argv (fl, c) = (r, (fl', c')) -> forall h, unaffected (fl h) (fl' h).
  Proof using Hdigit. intros H1 H2 H3 E h. destruct (C93_dry (fun h => harmless (exec h)) _ _ _ _ _ _ _ H1 H2 H3 E h) as (l & K1 & K2). eapply history_harmless; [exact K1|exact K2|auto]. Qed.

  (** With -H or --hosts nothing is done to the hosts that are not named there; nor to any host if one that is named is unknown. *)
  Theorem C93_named items ws v names fl c r fl' c' : Forall proper items -> Forall (fun w => w <> lit "--") ws -> length (words items ++ ws) = 2 ->
    last_hosts items = Some v -> v = join_str [44%N] names -> Forall (fun n => 44%N ∉ n) names -> names <> [] ->
    fora (List.concat (List.map written items) ++ match ws with [] => [] | _ => lit "--" :: ws end) (fl, c) = (r, (fl', c')) ->
    forall h, (h ∉ names \/ exists inv loaded x, hd_error (words items ++ ws) = Some inv /\ inventory (Some inv) = Ok loaded /\ x ∈ names /\ x ∉ loaded) -> fl' h = fl h.
  Proof using Hdigit.
    intros H1 H2 H3 H4 H5 H6 H7 E h Hh. destruct (proj1 (C91_partial digit Hdigit) items ws H1 H2 H3) as (n & Ep & (K1 & _) & K2).
    destruct (C93_hosts _ _ _ _ _ _ E) as [[H _]|(args & loaded & names' & sel & done & rest & Ep' & Ei & Ha & Hl & (_ & Hs & _) & Hd & D1 & _)]; [apply H|].
    rewrite Ep in Ep'. injection Ep' as <-. rewrite K1, H4 in Ha. assert (names' = names) as ->.
    { apply (Prop_Status.asked_unique loaded (Some v)); [exact Ha|]. split; [exact H7|]. split; [exact H5|exact H6]. }
    destruct Hh as [Hh|(inv & loaded' & x & I1 & I2 & I3 & I4)].
    - apply D1. intros Hx. apply Hh, Hs. rewrite Hd. apply elem_of_app. auto.
    - exfalso. assert (default None (n_words n !! 0) = Some inv) as En by (rewrite K2; destruct (words items ++ ws); [discriminate|]; injection I1 as ->; reflexivity).
      rewrite En, I2 in Ei. injection Ei as <-. rewrite Forall_forall in Hl. exact (I4 (Hl x I3)).
  Qed.
End all.
Print Assumptions C93_hosts.
Print Assumptions C93_dry.
Print Assumptions C93_dry_harmless.
Print Assumptions C93_named.

(** ** A case: two hosts, a script that makes a directory and, if that changed something, calls another script that makes a file. *)
Definition p_note : pystr := lit "/srv/new/note".
Definition more : tale unit := Bind (Operate NotGiven (OnFile (CFile p_note true false (Some (lit "600")) None None))) (fun _ => Ret tt).
Definition deploy_py : tale unit :=
  Bind (Operate NotGiven (OnFile (CDirectory p_new true false m755 alice None)))
    (fun x => if or_changed x then Try (Local (lit "more.py") false []) (fun _ => Ret tt) else Ret tt).
Definition ex_code (h f : pystr) : option (params -> tale unit) :=
  if str_eqb f (lit "/d/deploy.py") then Some (fun _ => deploy_py) else if str_eqb f (lit "/d/more.py") then Some (fun _ => more) else None.
Definition ex_inode (f : pystr) : option N := if str_eqb f (lit "/d/deploy.py") then Some 1%N else if str_eqb f (lit "/d/more.py") then Some 2%N else if str_eqb f (lit "/d") then Some 3%N else None.
Definition ex_fora (argv : list string) : result unit * (fleet * ctl) :=
  fora (fun _ => coreutils echo) fake_hash (fun _ _ _ => Ok false) (lit "d") (fun l => l) (fun cwd p => if isabs p then p else cwd ++ lit "/" ++ p) (fun _ => true) ex_inode ex_code 5 (fun _ => false)
    (fun w => match w with Some f => if str_eqb f (lit "inv.py") then Ok [lit "a"; lit "b"] else Err (FatalError []) | None => Err TypeError end)
    ex_base (fun _ => Ok Up) (fun _ => Ok tt) (List.map lit argv)
    (fun _ => site, Ctl (Remote site Down) no_settings [] None [] (lit "/d") [] 0).
Definition there (x : result unit * (fleet * ctl)) (h : string) : bool := if o_fs (fst (snd x) (lit h)) !! [lit "new"; lit "srv"] then true else false.
Definition noted (x : result unit * (fleet * ctl)) (h : string) : bool := if o_fs (fst (snd x) (lit h)) !! [lit "note"; lit "new"; lit "srv"] then true else false.
Definition went (x : result unit * (fleet * ctl)) : bool := if fst x then true else false.
Example C93_case :
  (forall h f t ps, ex_code h f = Some t -> by_operations (harmless (coreutils echo)) (t ps)) /\
  (let x := ex_fora ["inv.py"; "--dry"; "deploy.py"]%string in went x = true /\ there x "a" = false /\ there x "b" = false) /\
  (let x := ex_fora ["inv.py"; "deploy.py"]%string in went x = true /\ there x "a" = true /\ there x "b" = true /\ noted x "a" = true /\ noted x "b" = true) /\
  (let x := ex_fora ["-H"; "b"; "inv.py"; "deploy.py"]%string in went x = true /\ there x "a" = false /\ there x "b" = true) /\
  (let x := ex_fora ["--hosts=b,c"; "inv.py"; "deploy.py"]%string in went x = false /\ there x "a" = false /\ there x "b" = false) /\
  List.concat (List.map written [Hosts_next (lit "-H") (lit "b"); Word (lit "inv.py"); Word (lit "deploy.py")]) = List.map lit ["-H"; "b"; "inv.py"; "deploy.py"]%string /\
  In (lit "--dry") (before_dashes (List.map lit ["inv.py"; "--dry"; "deploy.py"]%string)) /\ In (lit "--dry") dry_words.
Proof.
  split; [|split; [vm_compute; auto|split; [vm_compute; auto 6|split; [vm_compute; auto|split; [vm_compute; auto|split; [reflexivity|split; [right; left; reflexivity|left; reflexivity]]]]]]].
  intros h f t ps. unfold ex_code. destruct (str_eqb f _); [|destruct (str_eqb f _); [|discriminate]]; intros [= <-]; cbn [by_operations deploy_py more].
  - split; [intros cmd []|]. intros x. destruct (or_changed x); cbn; auto.
  - split; [intros cmd []|]. auto.
Qed.

(** Scripts that act on their own are out of the reach of --dry: here with [fora.host.connection.upload]. *)
Definition sly (h f : pystr) : option (params -> tale unit) := Some (fun _ => Direct (conn_upload (coreutils echo) fake_hash (lit "/srv/x") [] None None None)).
Example C93_direct : let x := fora (fun _ => coreutils echo) fake_hash (fun _ _ _ => Ok false) (lit "d") (fun l => l) (fun _ p => p) (fun _ => true) (fun _ => None) sly 5 (fun _ => false)
    (fun _ => Ok [lit "a"]) ex_base (fun _ => Ok Up) (fun _ => Ok tt) (List.map lit ["--dry"; "inv.py"; "deploy.py"]%string)
    (fun _ => site, Ctl (Remote site Down) no_settings [] None [] (lit "/d") [] 0) in
  went x = true /\ (if o_fs (fst (snd x) (lit "a")) !! [lit "x"; lit "srv"] then true else false) = true.
Proof. vm_compute. auto. Qed.
