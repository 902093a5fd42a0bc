(** Properties C19-C24: default settings and scripts. *)
From Coq Require Import Lia ZifyBool ZifyN ZifyNat.
From stdpp Require Import gmap.
From Verif Require Import Base Utf8 Codec Spec_Codec Paths Sys Spec_Sys Sys_proofs Dispatcher Client Spec_Session Spec_Remote Remote_run Remote_examples Prop_Remote
  Control Spec_Control Control_proofs Quiet Digits Control_settle Control_isolation.

(** ** An example *)
(** Scripts under /s.  a.py calls itself unless it got a parameter; b.py runs in its own directory and opens two blocks;
    c.py removes the directory it was called from. *)
Definition ex_realpath (cwd p : pystr) : pystr := if isabs p then p else cwd ++ lit "/" ++ p.
Definition ex_isdir (p : pystr) : bool := str_in p [lit "/"; lit "/s"; lit "/d"].
Definition ex_inode (p : pystr) : option N :=
  dget p [(lit "/s", 1%N); (lit "/s/a.py", 2%N); (lit "/s/b.py", 3%N); (lit "/s/c.py", 4%N); (lit "/d", 5%N)].
Definition want (u fm : option pystr) : settings := Settings u None None None fm None None None.
Definition ex_base : settings :=
  Settings (Some (lit "root")) (Some (lit "root")) (Some (lit "root")) (Some (lit "root")) (Some (lit "600")) (Some (lit "700")) (Some (lit "077")) (Some (lit "/tmp")).
Definition ex_code (p : pystr) : option (params -> prog unit) :=
  if str_eqb p (lit "/s/a.py") then Some (fun ps => match ps with [] => Local (lit "a.py") false [(lit "stop", [])] | _ => Raise (UserExn 5) end)
  else if str_eqb p (lit "/s/b.py") then
    Some (fun _ => With (want (Some (lit "1000")) (Some (lit "0644"))) (fun _ => With (want None (Some (lit "0o7"))) (fun d =>
      Raise (ValueError (default [] (s_as_user d) ++ lit " " ++ default [] (s_file_mode d))))))
  else if str_eqb p (lit "/s/c.py") then Some (fun _ => Rmdir (lit "/d"))
  else None.
Definition ex_ctl : ctl := Ctl (Remote demo Up) ex_base [] None [] (lit "/d") [] 0.
(** inside a script that is being run from /d *)
Definition ex_settled : settings :=
  Settings (Some (lit "root")) (Some (lit "root")) (Some (lit "root")) (Some (lit "root")) (Some (lit "600")) (Some (lit "700")) (Some (lit "077")) (Some (lit "/tmp")).
Definition ex_inside : ctl :=
  Ctl (Remote demo Up) ex_base [Script' [ex_settled; no_settings] (Some (lit "/s"))] (Some 0%nat) [0%nat] (lit "/d") [] 1.
Notation ex_interp := (interp echo fake_hash ex_realpath ex_isdir ex_inode ex_code).

(** ** C19 *)
(** A command is executed with the arguments given, and the defaults for all others. *)
Theorem C19_run : forall exec sha512 command input check u g m w c d r c',
  active c = Some d -> r_link (c_remote c) = Up ->
  let u' := innermost [s_as_user d; u] in let g' := innermost [s_as_group d; g] in
  let m' := innermost [s_umask d; m] in let w' := innermost [s_cwd d; w] in
  encodable (PProcessRun command input true u' g' m' w') -> opt_ok (fun d => isabs d = true) w' ->
  run exec sha512 command input true check u g m w c = (r, c') ->
  let s := r_os (c_remote c) in let s' := r_os (c_remote c') in
  c' = set_remote (c_remote c') c /\
  ((unaffected s s' /\ exists e, r = Err e) \/
   exists p s1 x, unaffected s s1 /\ exec p s1 = (x, s') /\
     p_argv p = command /\ p_stdin p = input /\ run_ids s u' g' (p_uid p) (p_gid p) /\ run_umask m' (p_umask p) /\ run_dir s w' (p_cwd p) /\
     run_result check command x r).
Proof.
  intros exec sha512 command input check u g m w c d r c' Ha Hl u' g' m' w' Henc Hw E. cbn zeta. unfold run in E.
  assert (Hc : current_defaults c = (Ok d, c)).
  { unfold active in Ha. unfold current_defaults, current_of. destruct (c_script c) as [i|]; [|discriminate]. cbn in Ha.
    destruct (c_scripts c !! i) as [x|]; [|discriminate]. cbn in Ha. destruct (sw_defaults x); [discriminate|]. injection Ha as ->. reflexivity. }
  assert (Hor : forall A (a b : option A), or_else a b = innermost [b; a]) by (intros A [|] [|]; reflexivity).
  unfold mbind, W_bind in E. rewrite Hc in E. unfold via in E. rewrite !Hor in E.
  destruct (conn_run exec sha512 command input true check _ _ _ _ (c_remote c)) as [x v] eqn:Er. injection E as <- <-. cbn.
  split; [reflexivity|]. destruct (c_remote c) as [s l]. cbn in Hl |- *. subst l.
  exact (C13_run_identity exec sha512 s command input check u' g' m' w' x v Henc Hw Er).
Qed.
Print Assumptions C19_run.
(** Outside of scripts nothing is executed. *)
Theorem C19_no_script : forall exec sha512 command input capture check u g m w c, c_script c = None ->
  run exec sha512 command input capture check u g m w c = (Err AttributeError, c).
Proof. intros. unfold run, mbind, W_bind, current_defaults. rewrite H. reflexivity. Qed.
Print Assumptions C19_no_script.
Example C19_example :
  fst (run reveal fake_hash [lit "id"] None true true (Some (lit "alice")) (Some (lit "users")) (Some (lit "022")) None ex_inside)
    = Ok (Completed (Some []) (Some []) 0) /\
  fst (run reveal fake_hash [lit "id"] None true true None None None None ex_inside)
    = Err (CalledProcessError 1 (Some []) (Some []) [lit "id"]) /\
  fst (run reveal fake_hash [lit "id"] None true false None None None None ex_inside) = Ok (Completed (Some []) (Some []) 1).
Proof. vm_compute. split_and!; reflexivity. Qed.

(** ** C20 *)
(** Whatever a program does and however it ends, the defaults of all scripts that existed before are as before; and the active
    defaults are the same, as long as no directory of the local machine was removed in between (see C23). *)
Theorem C20_balanced : forall exec sha512 realpath isdir inode code depth A (p : prog A) c r c',
  interp exec sha512 realpath isdir inode code depth A p c = (r, c') ->
  (forall i w, c_scripts c !! i = Some w -> exists w', c_scripts c' !! i = Some w' /\ sw_defaults w' = sw_defaults w) /\
  (dirs_kept c c' -> cwd_ok isdir c -> c_script c' = c_script c /\ (c_script c <> None -> active c <> None -> active c' = active c)).
Proof.
  intros exec sha512 realpath isdir inode code depth A p c r c' E. apply (neutral_interp isdir) in E as (H1 & _ & _ & _ & _ & H2).
  assert (H3 : forall i w, c_scripts c !! i = Some w -> exists w', c_scripts c' !! i = Some w' /\ sw_defaults w' = sw_defaults w).
  { intros i w Hw. specialize (H1 i (sw_defaults w)). unfold defs in H1. rewrite Hw in H1. specialize (H1 eq_refl).
    destruct (c_scripts c' !! i) as [w'|]; [|discriminate]. cbn in H1. injection H1 as H1. eauto. }
  split; [exact H3|]. intros Hd Hok. destruct (H2 Hd Hok) as [_ H4]. split; [assumption|]. intros Hs Ha. unfold active in *. rewrite H4.
  destruct (c_script c) as [i|]; [|congruence]. cbn in *. destruct (c_scripts c !! i) as [w|] eqn:Hw; [|destruct Ha; reflexivity].
  destruct (H3 i w Hw) as (w' & -> & E). cbn. rewrite E. reflexivity.
Qed.
Print Assumptions C20_balanced.
(** In particular a block, whatever is inside. *)
Example C20_example :
  let p := With (want None (Some (lit "0644"))) (fun _ => Try (With (want (Some (lit "nobody")) None) (fun _ => Ret tt)) (fun _ => Raise (UserExn 1))) in
  fst (ex_interp 3%nat unit p ex_inside) = Err (UserExn 1) /\ active (snd (ex_interp 3%nat unit p ex_inside)) = active ex_inside /\
  cwd_ok ex_isdir ex_inside.
Proof. vm_compute. split_and!; [reflexivity|reflexivity|reflexivity|]. intros H. inversion H. Qed.

(** ** C21 *)
(** Inside nested blocks every setting has the value of the innermost block that sets it, resolved on the remote, or of the
    connection; if a block cannot be entered, the body is not run and nothing was changed. *)
Theorem C21_innermost_wins : forall exec sha512 realpath isdir inode code depth A reqs (body : prog A) c r c' done d0,
  let I := interp exec sha512 realpath isdir inode code depth in
  active c = Some d0 -> enclosing (r_os (c_remote c)) (c_base c) done d0 -> reqs <> [] ->
  I A (nest reqs body) c = (r, c') ->
  (exists e, r = Err e /\ unaffected (r_os (c_remote c)) (r_os (c_remote c'))) \/
  exists c1 d c2, I A body c1 = (r, c2) /\ active c1 = Some d /\ settles (r_os (c_remote c)) (c_base c) (done ++ reqs) d /\
    unaffected (r_os (c_remote c)) (r_os (c_remote c1)) /\ c_script c1 = c_script c /\ c_cwd c1 = c_cwd c /\ c_remote c2 = c_remote c'.
Proof.
  intros exec sha512 realpath isdir inode code depth A reqs body c r c' done d0 I Ha He Hne E. unfold I in *.
  assert (H : exists local, forall B (p : prog B), interp exec sha512 realpath isdir inode code depth B p = step exec sha512 isdir local p).
  { destruct depth; eexists; intros B p; reflexivity. }
  destruct H as [local H]. rewrite H in E. apply (nest_settles exec sha512 isdir local reqs body c r c' done d0) in E; [|assumption|assumption].
  destruct E as [E|(c1 & d & c2 & E1 & E2 & E3 & E4 & E5 & E6 & E7 & E8)]; [left; exact E|]. right. exists c1, d, c2. rewrite H.
  split_and!; auto. destruct E3 as [E3|[E3 _]]; [exact E3|]. destruct reqs; [congruence|]. destruct done; discriminate.
Qed.
Print Assumptions C21_innermost_wins.
(** A block with valid values is entered: its body runs, and [as] names the active defaults. *)
Theorem C21_enters : forall exec sha512 realpath isdir inode code depth A q (body : settings -> prog A) c s d0 done,
  let I := interp exec sha512 realpath isdir inode code depth in
  c_remote c = Remote s Up -> os_ok s -> hash_ok sha512 -> o_faults s = [] ->
  active c = Some d0 -> enclosing s (c_base c) done d0 -> request_valid s (c_base c) d0 q ->
  exists c1 d, active c1 = Some d /\ settles s (c_base c) (done ++ [q]) d /\ c_script c1 = c_script c /\
    fst (I A (With q body) c) = fst (I A (body d) c1).
Proof.
  intros exec sha512 realpath isdir inode code depth A q body c s d0 done I Hr Hs Hh Hf Ha He Hv. unfold I.
  assert (H : exists local, forall B (p : prog B), interp exec sha512 realpath isdir inode code depth B p = step exec sha512 isdir local p).
  { destruct depth; eexists; intros B p; reflexivity. }
  destruct H as [local H]. rewrite !H. cbn [step]. unfold script_defaults.
  destruct (c_script c) as [i|] eqn:Hi; [|unfold active in Ha; rewrite Hi in Ha; discriminate].
  destruct (enter_works exec sha512 i q c d0 s Hr Hs Hh Hf Hi Ha Hv) as (new & d & c1 & E0 & E1 & _).
  assert (He' : enclosing (r_os (c_remote c)) (c_base c) done d0) by (rewrite Hr; exact He).
  destruct (enter_settles exec sha512 i q c new c d c1 done d0 E0 E1 Hi Ha He') as (res & F1 & F2 & -> & _ & F4 & _).
  rewrite Hr in F2. exists c1, res. split_and!; auto. unfold with_defaults. rewrite (bind_works _ _ c new c E0), (bind_works _ _ c res c1 E1).
  rewrite H. unfold wfinally. destruct (step exec sha512 isdir local (body res) c1) as [r2 c2]. reflexivity.
Qed.
Print Assumptions C21_enters.
(** The settings of ex_inside are those of the connection. *)
Lemma ex_denotes_root : denotes_user demo (lit "root") (Account (lit "root") 0 0 [] (lit "/root") (lit "/bin/sh")).
Proof. split; [left|left; reflexivity]. Qed.
Lemma ex_denotes_root_group : denotes_group demo (lit "root") (Grent (lit "root") 0 []).
Proof. split; [left|left; reflexivity]. Qed.
Lemma ex_settled_settles : settles demo ex_base [] ex_settled.
Proof.
  pose proof ex_denotes_root. pose proof ex_denotes_root_group.
  split_and!; try (eexists; split; [eassumption|reflexivity]); try (split; [reflexivity|discriminate]). reflexivity.
Qed.
Example C21_example : active ex_inside = Some ex_settled /\ enclosing (r_os (c_remote ex_inside)) (c_base ex_inside) [] ex_settled /\
  fst (ex_interp 3%nat unit (nest [want (Some (lit "alice")) (Some (lit "0644")); want None (Some (lit "0o7"))]
        (Bind Current (fun d => Raise (ValueError (default [] (s_as_user d) ++ lit " " ++ default [] (s_file_mode d) ++ lit " " ++ default [] (s_umask d))))))
       ex_inside) = Err (ValueError (lit "alice 7 077")).
Proof. split; [reflexivity|]. split; [left; exact ex_settled_settles|]. vm_compute. reflexivity. Qed.
(** "1000" is the name of another account *)
Example C21_example_resolved :
  fst (ex_interp 3%nat unit (With (want (Some (lit "1000")) None) (fun d => Raise (ValueError (default [] (s_as_user d))))) ex_inside) = Err (ValueError (lit "1000")) /\
  fst (ex_interp 3%nat unit (With (want (Some (lit "7")) None) (fun d => Raise (ValueError (default [] (s_as_user d))))) ex_inside) = Err (ValueError (lit "1000")).
Proof. vm_compute. split; reflexivity. Qed.
Example C21_example_valid : request_valid demo ex_base ex_settled (want (Some (lit "alice")) (Some (lit "0644"))) /\ hash_ok fake_hash.
Proof.
  assert (Hg : group_valid demo (lit "root")) by (split; [split; [text|dec]|]; eexists; apply ex_denotes_root_group).
  assert (Hu : user_valid demo (lit "root")) by (split; [split; [text|dec]|]; eexists; apply ex_denotes_root).
  assert (Ha : user_valid demo (lit "alice")).
  { split; [split; [text|dec]|]. exists (Account (lit "alice") 1000 100 [] (lit "/home") (lit "/bin/sh")). split; [right; left|left; reflexivity]. }
  split.
  - unfold request_valid. cbn [innermost ex_base ex_settled want s_as_user s_as_group s_owner s_group s_file_mode s_dir_mode s_umask s_cwd opt_ok].
    split_and!; try assumption.
    + exists (lit "0644"). split; [reflexivity|]. exists 420%N. vm_compute. reflexivity.
    + exists (lit "700"). split; [reflexivity|]. exists 448%N. vm_compute. reflexivity.
    + exists (lit "077"). split; [reflexivity|]. exists 63%N. vm_compute. reflexivity.
    + right. split; [split; [text|dec]|]. eexists _, _. split; [vm_compute; reflexivity|reflexivity].
  - intros b. unfold fake_hash, small. pose proof (firstn_le_length 3 b). lia.
Qed.

(** ** C22 *)
(** Two mode strings that are accepted get the same canonical string iff they denote the same number. *)
Theorem C22_canonical : forall a b x y, canonicalize_mode (Some a) = Ok (Some x) -> canonicalize_mode (Some b) = Ok (Some y) ->
  x = y <-> py_int 8 a = py_int 8 b.
Proof.
  intros a b x y. unfold canonicalize_mode. destruct (py_int 8 a) as [m|]; [|discriminate]. destruct (py_int 8 b) as [n|]; [|discriminate].
  intros [= <-] [= <-]. split; [|intros [= ->]; reflexivity]. intros E. f_equal.
  assert (Hneg : forall p k, oct_tail (Z.neg p) <> show_N 8 k).
  { intros p k H. change (oct_tail (Z.neg p)) with (111%N :: show_N 8 (N.pos p)) in H. destruct (show_spec 8 k ltac:(lia)) as (F & _).
    rewrite <- H in F. inversion F as [|? ? F1 _]. unfold is_digit in F1. lia. }
  assert (Hpos : forall z, (0 <= z)%Z -> oct_tail z = show_N 8 (Z.to_N z)) by (intros [|p|p] Hz; [reflexivity|reflexivity|lia]).
  destruct (decide (0 <= m)%Z) as [Hm|Hm], (decide (0 <= n)%Z) as [Hn|Hn].
  - rewrite !Hpos in E by assumption. apply show_inj in E; [lia|auto].
  - rewrite (Hpos m) in E by assumption. destruct n as [|p|p]; try lia. destruct (Hneg p (Z.to_N m)). congruence.
  - rewrite (Hpos n) in E by assumption. destruct m as [|p|p]; try lia. destruct (Hneg p (Z.to_N n)). congruence.
  - destruct m as [|p|p], n as [|q|q]; try lia.
    change (oct_tail (Z.neg p)) with (111%N :: show_N 8 (N.pos p)) in E. change (oct_tail (Z.neg q)) with (111%N :: show_N 8 (N.pos q)) in E.
    injection E as E. apply show_inj in E; [lia|auto].
Qed.
Print Assumptions C22_canonical.
(** The canonical string of a mode that is not negative consists of octal digits without leading zeros and denotes the same number. *)
Theorem C22_same_number : forall a n, py_int 8 a = Some (Z.of_N n) ->
  exists x, canonicalize_mode (Some a) = Ok (Some x) /\ octal_text n x /\ canonicalize_mode (Some x) = Ok (Some x).
Proof.
  intros a n E. cbn [canonicalize_mode]. rewrite E. eexists. split; [reflexivity|].
  assert (Ho : oct_tail (Z.of_N n) = show_N 8 n) by (destruct n; reflexivity). rewrite Ho.
  assert (Hp : py_int 8 (show_N 8 n) = Some (Z.of_N n)) by (apply py_int_show; auto).
  split; [|rewrite Hp, Ho; reflexivity]. destruct (show_spec 8 n ltac:(lia)) as (H1 & H2 & H3 & H4).
  split; [exact Hp|]. split; [|split; assumption]. eapply Forall_impl; [exact H1|]. intros d. unfold is_digit. lia.
Qed.
Print Assumptions C22_same_number.
(** Malformed and negative modes: the block is not entered. *)
Definition bad_mode (m : pystr) : Prop := match py_int 8 m with None => True | Some z => (z < 0)%Z end.
Theorem C22_rejected : forall exec sha512 realpath isdir inode code depth q m c, bad_mode m ->
  s_file_mode q = Some m \/ s_dir_mode q = Some m \/ s_umask q = Some m ->
  exists e c', unaffected (r_os (c_remote c)) (r_os (c_remote c')) /\
    forall A (body : settings -> prog A), interp exec sha512 realpath isdir inode code depth A (With q body) c = (Err e, c').
Proof.
  intros exec sha512 realpath isdir inode code depth q m c Hm Hq.
  assert (H : exists local, forall B (p : prog B), interp exec sha512 realpath isdir inode code depth B p = step exec sha512 isdir local p).
  { destruct depth; eexists; intros B p; reflexivity. }
  destruct H as [local H].
  destruct (c_script c) as [i|] eqn:Hi.
  2: { exists AttributeError, c. split; [apply unaffected_refl|]. intros A body. rewrite H. cbn [step]. unfold script_defaults. rewrite Hi. reflexivity. }
  destruct (defaults i q c) as [[new|e] c0] eqn:E0.
  2: { exists e, c0. split; [eapply quiet_defaults; exact E0|]. intros A body. rewrite H. cbn [step]. unfold script_defaults, with_defaults. rewrite Hi.
       unfold mbind, W_bind. rewrite E0. reflexivity. }
  destruct (enter_defaults exec sha512 i new c0) as [[d|e] c1] eqn:E1.
  2: { exists e, c1. split; [eapply unaffected_trans; [eapply quiet_defaults; exact E0|eapply quiet_enter; exact E1]|].
       intros A body. rewrite H. cbn [step]. unfold script_defaults, with_defaults. rewrite Hi. unfold mbind, W_bind. rewrite E0, E1. reflexivity. }
  exfalso.
  unfold defaults in E0.
  apply bind_spec in E0 as [(fm & ? & Hfm & E0)|(e & _ & [=])]. injection Hfm as Hfm <-.
  apply bind_spec in E0 as [(dm & ? & Hdm & E0)|(e & _ & [=])]. injection Hdm as Hdm <-.
  apply bind_spec in E0 as [(um & ? & Hum & E0)|(e & _ & [=])]. injection Hum as Hum <-.
  apply bind_spec in E0 as [(? & ? & Hg & E0)|(e & _ & [=])]. injection Hg as <- <-.
  apply bind_spec in E0 as [(cur & ? & Hc & E0)|(e & _ & [=])]. injection E0 as <- <-.
  apply enter_spec in E1 as (res & c2 & E1 & _ & _). apply resolve_defaults_ok in E1 as (cur' & _ & G). cbn zeta in G.
  destruct G as (_ & _ & _ & _ & _ & _ & _ & _ & (x1 & z1 & Hx1 & Hz1) & (x2 & z2 & Hx2 & Hz2) & (x3 & z3 & Hx3 & Hz3) & _).
  cbn [overlay s_file_mode s_dir_mode s_umask] in *.
  assert (Hbad : forall o o' a b x z, o = Some m -> canonicalize_mode o = Ok o' -> over a (over b o') = Some x -> py_int 8 x = Some z -> False).
  { intros o o' a b x0 z -> Hcan Hx Hz. unfold canonicalize_mode in Hcan. unfold bad_mode in Hm. destruct (py_int 8 m) as [k|]; [|discriminate].
    injection Hcan as <-. cbn in Hx. injection Hx as <-. destruct k as [|k|k]; try lia.
    change (oct_tail (Z.neg k)) with (111%N :: show_N 8 (N.pos k)) in Hz. rewrite py_int_letter in Hz. discriminate. }
  destruct Hq as [Hq|[Hq|Hq]]; eapply Hbad; eassumption.
Qed.
Print Assumptions C22_rejected.
Example C22_example : canonicalize_mode (Some (lit " 0o0_644 ")) = Ok (Some (lit "644")) /\ canonicalize_mode (Some (lit "644")) = Ok (Some (lit "644")) /\
  bad_mode (lit "-644") /\ bad_mode (lit "648") /\ bad_mode [] /\
  fst (ex_interp 3%nat unit (With (want None (Some (lit "-644"))) (fun _ => Ret tt)) ex_inside) = Err (ValueError (lit "Error while resolving settings: must be octal!")).
Proof. vm_compute. split_and!; try reflexivity; exact I. Qed.

(** ** C23 *)
(** When a script has been run, normally or not, the script stack, the indentation and the defaults of all scripts are as before;
    so are the working directory and fora.script, if no local directory was removed meanwhile. *)
Theorem C23_restored_partial : forall exec sha512 realpath isdir inode code depth path b ps c r c',
  interp exec sha512 realpath isdir inode code depth unit (Local path b ps) c = (r, c') ->
  c_stack c' = c_stack c /\ c_indent c' = c_indent c /\ c_base c' = c_base c /\
  (forall i w, c_scripts c !! i = Some w -> exists w', c_scripts c' !! i = Some w' /\ sw_defaults w' = sw_defaults w) /\
  (dirs_kept c c' -> cwd_ok isdir c -> c_cwd c' = c_cwd c /\ c_script c' = c_script c).
Proof.
  intros exec sha512 realpath isdir inode code depth path b ps c r c' E.
  pose proof (C20_balanced _ _ _ _ _ _ _ _ _ _ _ _ E) as [H1 H2].
  pose proof E as E0; apply (neutral_interp isdir) in E0; destruct E0 as (_ & K2 & K3 & K4 & _ & _).
  split_and!; auto. intros Hd Hok. split; [|apply H2; assumption].
  destruct depth as [|n]; cbn [interp step] in E; [injection E as _ <-; reflexivity|].
  unfold local_script in E. apply bind_spec in E as [(u & c1 & E1 & E)|(e & E & _)].
  - assert (c1 = c) as ->.
    { destruct b; [injection E1 as _ <-; reflexivity|]. apply bind_spec in E1 as [(x & c2 & E2 & E1)|(e & _ & [=])]. injection E2 as <- <-.
      revert u E1. generalize (rev (c_stack c)). intros l. induction l as [|i l IH]; cbn [check_recursion]; intros u E1; [injection E1 as _ <-; reflexivity|].
      apply bind_spec in E1 as [(x & c2 & E2 & E1)|(e & _ & [=])]. injection E2 as <- <-.
      apply bind_spec in E1 as [(x & c2 & E2 & E1)|(e & _ & [=])]. injection E2 as _ <-. destruct x; [discriminate|]. eauto. }
    eapply run_script_spec; [|exact E|assumption|assumption]. intros p. apply neutral_load. apply neutral_interp.
  - destruct b; [discriminate|]. apply bind_spec in E as [(x & c2 & E2 & E)|(e' & [=] & _)]. injection E2 as <- <-.
    revert E. generalize (rev (c_stack c)). intros l. induction l as [|i l IH]; cbn [check_recursion]; intros E; [discriminate|].
    apply bind_spec in E as [(x & c2 & E2 & E)|(e' & [=] & _)]. injection E2 as <- <-.
    apply bind_spec in E as [(x & c2 & E2 & E)|(e' & E & _)]; [|injection E as _ <-; reflexivity]. injection E2 as _ <-.
    destruct x; [injection E as _ <-; reflexivity|auto].
Qed.
Print Assumptions C23_restored_partial.
(** Full statement (false):
      forall ... c r c', interp ... depth unit (Local path b ps) c = (r, c') -> cwd_ok isdir c -> c_script c' = c_script c
    If the directory that the caller works in is removed, [os.chdir] fails and the script stays the current one. *)
Theorem C23_restored_refuted : exists realpath isdir inode code depth path b ps c r c',
  interp echo fake_hash realpath isdir inode code depth unit (Local path b ps) c = (r, c') /\ cwd_ok isdir c /\ c_script c' <> c_script c.
Proof.
  exists ex_realpath, ex_isdir, ex_inode, ex_code, 2%nat, (lit "/s/c.py"), true, [], ex_inside.
  destruct (interp echo fake_hash ex_realpath ex_isdir ex_inode ex_code 2%nat unit (Local (lit "/s/c.py") true []) ex_inside) as [r c'] eqn:E.
  exists r, c'. split; [reflexivity|]. split; [split; [reflexivity|intros H; inversion H]|].
  assert (H : c_script c' = Some 1%nat) by (change c' with (snd (r, c')); rewrite <- E; vm_compute; reflexivity). rewrite H. discriminate.
Qed.
Print Assumptions C23_restored_refuted.
(** The code of a script runs with the settings of the connection, its own wrapper and in its own directory, whatever the caller
    has set; otherwise it is not run at all and nothing was changed on the remote. *)
Theorem C23_fresh : forall exec sha512 realpath isdir inode code depth path ps c r c',
  let I := interp exec sha512 realpath isdir inode code in let file := realpath (c_cwd c) path in
  I (S depth) unit (Local path true ps) c = (r, c') ->
  (exists e, r = Err e /\ unaffected (r_os (c_remote c)) (r_os (c_remote c'))) \/
  exists f c1 d r1 c2, code file = Some f /\ I depth unit (f ps) c1 = (r1, c2) /\
    active c1 = Some d /\ settles (r_os (c_remote c)) (c_base c) [] d /\ unaffected (r_os (c_remote c)) (r_os (c_remote c1)) /\
    c_script c1 = Some (length (c_scripts c)) /\ c_stack c1 = length (c_scripts c) :: c_stack c /\ c_cwd c1 = dirname file /\
    (exists w, c_scripts c1 !! length (c_scripts c) = Some w /\ sw_file w = Some (realpath (dirname file) (dirname file))) /\
    c_remote c2 = c_remote c' /\ (dirs_kept c c' -> cwd_ok isdir c -> r = r1).
Proof.
  intros exec sha512 realpath isdir inode code depth path ps c r c' I file E. unfold I in *. cbn [interp step] in E. unfold local_script in E.
  apply bind_spec in E as [(u & ? & E1 & E)|(e & [=] & _)]. injection E1 as _ <-.
  unfold run_script in E. apply bind_spec in E as [([] & ca & Ea & E)|(e & [=] & _)]. injection Ea as <-.
  apply finally_spec in E as (r1 & cz & E & [(u' & Ez & ->)|(e & [=] & _)]). injection Ez as _ <-.
  apply bind_spec in E as [(cb' & cb & Eb & E)|(e & [=] & _)]. injection Eb as <- <-.
  apply bind_spec in E as [([] & cc & Ec & E)|(e & [=] & _)]. injection Ec as <-.
  apply finally_spec in E as (r2 & cy & E & [(u'' & Ey & ->)|(e & [=] & _)]). injection Ey as _ <-.
  apply bind_spec in E as [(cd' & cd & Ed & E)|(e & [=] & _)]. injection Ed as <- <-.
  set (cs := set_stack _ _) in E.
  change (realpath (c_cwd cs) path) with file in E.
  apply bind_spec in E as [([] & ce & Ee & E)|(e & Ee & ->)].
  2: { left. exists e. split; [reflexivity|]. unfold chdir in Ee. destruct (isdir _ && _) in Ee; [discriminate|]. injection Ee as _ <-. apply unaffected_refl. }
  unfold chdir in Ee. destruct (isdir _ && _) eqn:Edir in Ee; [|discriminate]. injection Ee as <-.
  apply finally_spec in E as (r3 & cx & E & Hfin).
  apply bind_spec in E as [([] & cf & Ef & E)|(e & [=] & _)]. injection Ef as <-.
  set (cg := set_script _ _) in E.
  assert (Hrem : c_remote cy = c_remote cx /\ (dirs_kept c cx -> cwd_ok isdir c -> r2 = r3) /\ c_gone cy = c_gone cx /\ ((exists e, r3 = Err e) -> exists e, r2 = Err e)).
  { destruct Hfin as [(u0 & Ef & ->)|(e & Ef & ->)].
    - apply bind_spec in Ef as [(u1 & c3 & E3 & Ef)|(e & _ & [=])]. injection Ef as _ <-. unfold chdir in E3. destruct (_ && _) in E3; [|discriminate].
      injection E3 as _ <-. split_and!; auto.
    - apply bind_spec in Ef as [(u1 & c3 & E3 & [=])|(e' & E3 & Ef)]. unfold chdir in E3. destruct (_ && _) eqn:Hdir in E3; [discriminate|].
      injection E3 as _ <-. split_and!; auto; [|eauto]. intros Hd [H1 H2]. exfalso. change (c_cwd cs) with (c_cwd c) in Hdir. rewrite H1 in Hdir. unfold dirs_kept in Hd.
      rewrite Hd, bool_decide_eq_false_2 in Hdir by assumption. discriminate. }
  destruct Hrem as (R1 & R2 & R3 & R4).
  apply with_quiet_fail in E as [(e & -> & H)|(new & c0 & d & c1 & r4 & c2 & E0 & E1 & E2 & E3 & ->)].
  { left. destruct (R4 ltac:(eauto)) as [e' ->]. exists e'. split; [reflexivity|]. cbn [c_remote set_indent set_stack]. rewrite R1. exact H. }
  set (i := length (c_scripts c)) in *.
  assert (Hact : active cg = Some no_settings).
  { unfold active. cbn. rewrite lookup_app_r by (unfold i; cbn; lia). unfold i. cbn. rewrite Nat.sub_diag. reflexivity. }
  destruct (enter_settles exec sha512 i no_settings cg new c0 d c1 [] no_settings E0 E1 eq_refl Hact ltac:(right; split; reflexivity))
    as (res & F1 & F2 & -> & F3 & F4 & F5 & F6 & F7 & F8).
  injection E3 as <-. apply bind_spec in E2 as [(cq & c3 & E2 & E4)|(e & [=] & _)]. injection E2 as <- <-.
  apply bind_spec in E4 as [([] & c3 & E5 & E4)|(e & [=] & _)]. injection E5 as <-.
  set (ch := set_scripts (alter _ _ _) c1) in E4.
  unfold load in E4. destruct (code file) as [f|] eqn:Hcode.
  2: { left. injection E4 as <- <-. destruct (R4 ltac:(eauto)) as [e' ->]. exists e'. split; [reflexivity|]. cbn [c_remote set_indent set_stack]. rewrite R1. exact F3. }
  right. exists f, ch, res, r4, c2. split; [reflexivity|]. split; [exact E4|].
  assert (Hch : active ch = Some res).
  { unfold active in F1 |- *. cbn. rewrite F4 in F1 |- *. cbn in F1 |- *. rewrite list_lookup_alter. fold i. destruct (c_scripts c1 !! i); [|discriminate]. exact F1. }
  split; [exact Hch|]. split; [exact F2|]. split; [exact F3|]. split; [exact F4|]. split; [exact F8|]. split; [exact F6|].
  split.
  { unfold active in F1. rewrite F4 in F1. cbn in F1. destruct (c_scripts c1 !! i) as [w|] eqn:Hw; [|discriminate].
    eexists. split; [cbn; rewrite list_lookup_alter; fold i; rewrite Hw; reflexivity|]. cbn. rewrite F6. reflexivity. }
  split; [cbn; rewrite R1; reflexivity|]. intros Hd Hok. apply R2; [|exact Hok]. unfold dirs_kept in *. cbn in Hd |- *. rewrite R3 in Hd. exact Hd.
Qed.
Print Assumptions C23_fresh.
(** What a script does depends in no way on the defaults active in the calling script. *)
Theorem C23_isolated : forall exec sha512 realpath isdir inode code depth path b ps c1 c2, same_but_defaults c1 c2 ->
  let m := interp exec sha512 realpath isdir inode code depth unit (Local path b ps) in
  fst (m c1) = fst (m c2) /\ same_but_defaults (snd (m c1)) (snd (m c2)).
Proof.
  intros exec sha512 realpath isdir inode code [|depth] path b ps c1 c2 H; cbv zeta.
  - cbn [interp step]. split; [reflexivity|exact H].
  - destruct (isolation exec sha512 realpath isdir inode code depth path b ps c1 c2 H) as (H1 & H2 & _). split; assumption.
Qed.
Print Assumptions C23_isolated.
(** b.py called inside a block: the modes are those of its own blocks, "1000" is uid 7 of the demo host; afterwards all is as before *)
Example C23_example :
  let p := With (want (Some (lit "alice")) (Some (lit "0777"))) (fun _ => Local (lit "/s/b.py") false []) in
  let x := ex_interp 3%nat unit p ex_inside in
  fst x = Err (ValueError (lit "1000 7")) /\ c_cwd (snd x) = lit "/d" /\ c_script (snd x) = Some 0%nat /\ active (snd x) = active ex_inside /\
  c_stack (snd x) = [0%nat] /\ c_indent (snd x) = 1%nat.
Proof. vm_compute. split_and!; reflexivity. Qed.
Definition ex_inside' : ctl :=
  Ctl (Remote demo Up) ex_base [Script' [want (Some (lit "alice")) (Some (lit "0777")); ex_settled; no_settings] (Some (lit "/s"))] (Some 0%nat) [0%nat] (lit "/d") [] 1.
Example C23_example_isolated : same_but_defaults ex_inside ex_inside' /\ active ex_inside <> active ex_inside'.
Proof. split; [split_and!; reflexivity|]. vm_compute. discriminate. Qed.

(** ** C24 *)
(** Full statement (false): a script that calls itself with recursive=False fails with ValueError,
      forall ... file ps f c, code file = Some f -> f [] = Local file false ps -> fst (run_main ... depth file c) = Err (ValueError ...).
    The guard compares the script with the directory of the running scripts.  Here /s/a.py runs inside itself (and raises UserExn 5 there). *)
Theorem C24_recursion_refuted : exists realpath isdir inode code depth c file f ps e,
  code file = Some f /\ f [] = Local (lit "a.py") false ps /\ realpath (dirname file) (lit "a.py") = file /\
  f ps = Raise (UserExn e) /\ fst (run_main echo fake_hash realpath isdir inode code depth file c) = Err (UserExn e).
Proof.
  exists ex_realpath, ex_isdir, ex_inode, ex_code, 3%nat, ex_ctl, (lit "/s/a.py"). eexists. exists [(lit "stop", [])], 5%N.
  split; [reflexivity|]. split_and!; try reflexivity; vm_compute; reflexivity.
Qed.
Print Assumptions C24_recursion_refuted.
(** What the guard does: with recursive=False a call is rejected, without any effect, iff the script is the same file as the
    recorded path of a running script, which is its directory (see C23_fresh); otherwise it is like recursive=True. *)
Definition same_as_running (realpath : pystr -> pystr -> pystr) (inode : pystr -> option N) (c : ctl) (path : pystr) (i : nat) : Prop :=
  exists w f n, c_scripts c !! i = Some w /\ sw_file w = Some f /\ inode (realpath (c_cwd c) path) = Some n /\ inode (realpath (c_cwd c) f) = Some n.
Definition files_exist (realpath : pystr -> pystr -> pystr) (inode : pystr -> option N) (c : ctl) : Prop :=
  forall i, i ∈ c_stack c -> exists w f, c_scripts c !! i = Some w /\ sw_file w = Some f /\ inode (realpath (c_cwd c) f) <> None.
Theorem C24_recursion_partial : forall exec sha512 realpath isdir inode code depth path ps c,
  let I := interp exec sha512 realpath isdir inode code (S depth) unit in
  files_exist realpath inode c -> inode (realpath (c_cwd c) path) <> None ->
  ((exists i, i ∈ c_stack c /\ same_as_running realpath inode c path i) -> exists t, I (Local path false ps) c = (Err (ValueError t), c)) /\
  ((forall i, i ∈ c_stack c -> ~ same_as_running realpath inode c path i) -> I (Local path false ps) c = I (Local path true ps) c).
Proof.
  intros exec sha512 realpath isdir inode code depth path ps c I Hfiles Hpath. unfold I. cbn [interp step]. unfold local_script.
  assert (Hl : forall l, (forall i, i ∈ l -> i ∈ c_stack c) ->
    ((exists i, i ∈ l /\ same_as_running realpath inode c path i) -> exists t, check_recursion realpath inode path l c = (Err (ValueError t), c)) /\
    ((forall i, i ∈ l -> ~ same_as_running realpath inode c path i) -> check_recursion realpath inode path l c = (Ok tt, c))).
  { induction l as [|i l IH]; intros Hsub; [split; [intros (i & H & _); inversion H|reflexivity]|].
    destruct IH as [IH1 IH2]; [intros j Hj; apply Hsub; right; exact Hj|].
    destruct (Hfiles i (Hsub i ltac:(left))) as (w & f & Hw & Hf & Hn).
    cbn [check_recursion]. unfold mbind, W_bind, getW, liftW, samefile. cbn beta iota. rewrite Hw, Hf. cbn [default id].
    destruct (inode (realpath (c_cwd c) path)) as [n|] eqn:Hi; [|congruence]. destruct (inode (realpath (c_cwd c) f)) as [k|] eqn:Hk; [|congruence].
    cbn beta iota. destruct (n =? k)%N eqn:Enk.
    - apply N.eqb_eq in Enk as ->. assert (Hs : same_as_running realpath inode c path i) by (exists w, f, k; auto).
      split; [intros _; eexists; reflexivity|]. intros Hno. destruct (Hno i ltac:(left) Hs).
    - split.
      + intros (j & Hj & Hs). apply elem_of_cons in Hj as [->|Hj]; [|apply IH1; eauto].
        destruct Hs as (w' & f' & n' & S1 & S2 & S3 & S4). rewrite Hw in S1. injection S1 as <-. rewrite Hf in S2. injection S2 as <-.
        rewrite Hi in S3. rewrite Hk in S4. injection S3 as <-. injection S4 as ->. rewrite N.eqb_refl in Enk. discriminate.
      + intros Hno. apply IH2. intros j Hj. apply Hno. right. exact Hj. }
  destruct (Hl (rev (c_stack c))) as [H1 H2]; [intros i Hi; rewrite elem_of_list_In, <- in_rev, <- elem_of_list_In in Hi; exact Hi|].
  split.
  - intros (i & Hi & Hs). destruct H1 as [t Ht]; [exists i; split; [rewrite elem_of_list_In, <- in_rev, <- elem_of_list_In; exact Hi|exact Hs]|].
    exists t. unfold mbind, W_bind, getW at 1. cbn beta iota. rewrite Ht. reflexivity.
  - intros Hno. assert (Hc : check_recursion realpath inode path (rev (c_stack c)) c = (Ok tt, c)).
    { apply H2. intros i Hi. apply Hno. rewrite elem_of_list_In, <- in_rev, <- elem_of_list_In in Hi. exact Hi. }
    unfold mbind, W_bind, getW at 1. cbn beta iota. rewrite Hc. reflexivity.
Qed.
Print Assumptions C24_recursion_partial.
Example C24_example :
  files_exist ex_realpath ex_inode ex_inside /\ same_as_running ex_realpath ex_inode ex_inside (lit "/s") 0 /\
  ~ same_as_running ex_realpath ex_inode ex_inside (lit "/s/a.py") 0 /\ ex_inode (ex_realpath (lit "/d") (lit "/s/a.py")) <> None.
Proof.
  split; [|split; [|split]].
  - intros i Hi. apply elem_of_list_singleton in Hi as ->. eexists _, _. split; [reflexivity|]. split; [reflexivity|]. vm_compute. discriminate.
  - eexists _, _, _. split; [reflexivity|]. split; [reflexivity|]. vm_compute. split; reflexivity.
  - intros (w & f & n & [= <-] & [= <-] & H3 & H4). vm_compute in H3, H4. congruence.
  - vm_compute. discriminate.
Qed.
