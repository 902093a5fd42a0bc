(** C85: operations run nothing but the commands they are documented for, and what they are given never becomes an option or
    the text of a shell.  C86: they take things away only if they are asked to. *)
From stdpp Require Import gmap.
From Verif Require Import Base Utf8 Codec Spec_Codec Codec_proofs Paths Sys Spec_Sys Sys_proofs Dispatcher Client Spec_Remote Control Spec_Control Op Files Coreutils
  System Package_proofs Spec_Footprint Footprint_proofs.

Section footprint.
  Variable sha512 : bytes -> bytes.
  Variable dry want_diff : bool.
  Variable search : bool -> pystr -> pystr -> result bool.
  Variable date : pystr.
  Variable set_order : list pystr -> list pystr.
  Hypothesis Horder : forall l, set_order l ≡ₚ l.

  Ltac start := intros exec exec' agree; apply same_operation.
  Lemma chmod_sets path x : head path = Some slash -> sets "chmod" [] path [lit "chmod"; x; lit "--"; path].
  Proof. apply (sets_one "chmod" [] path x). constructor. Qed.
  Lemma mode_sets want got path x : mode_given want got -> got = Some x -> head path = Some slash -> sets_mode want path [lit "chmod"; x; lit "--"; path].
  Proof.
    intros Hm Hx Hp. destruct want as [m|]; cbn [sets_mode]; [|apply chmod_sets, Hp]. specialize (Hm m x eq_refl Hx). exists x. eexists. split; [reflexivity|].
    rewrite reads_word by exact Hm. rewrite reads_end. reflexivity.
  Qed.
  Lemma chown_sets path x : head path = Some slash -> sets "chown" [] path [lit "chown"; x; lit "--"; path].
  Proof. apply (sets_one "chown" [] path x). constructor. Qed.
  Lemma link_sets path x : head path = Some slash -> sets "chown" ["--no-dereference"%string] path [lit "chown"; lit "--no-dereference"; x; lit "--"; path].
  Proof. apply (sets_one "chown" ["--no-dereference"%string] path x). constructor; [|constructor]. split_and!; [reflexivity|reflexivity|discriminate]. Qed.

  (** ** files *)
  Theorem C85_directory a path present touch mode owner group :
    only_runs (unless dry (directory_runs path present mode)) (fun exec => operation a (directory exec sha512 dry path present touch mode owner group)).
  Proof.
    start. unfold directory. same; (split; [reflexivity|]); cbn [directory_runs].
    - left. called. - right; right; left. eapply mode_sets; [apply Hattr|eassumption|assumption]. - right; right; right. apply chown_sets. assumption.
    - right; left. called. - called.
    - left. called. - right; right; left. eapply mode_sets; [apply Hattr|eassumption|assumption]. - right; right; right. apply chown_sets. assumption.
    - right; left. called. - called.
  Qed.
  Theorem C85_file a path present touch mode owner group :
    only_runs (unless dry (file_runs path present mode)) (fun exec => operation a (file exec sha512 dry path present touch mode owner group)).
  Proof.
    start. unfold file. same; (split; [reflexivity|]); cbn [file_runs].
    - left. called. - right; left. eapply mode_sets; [apply Hattr|eassumption|assumption]. - right; right. apply chown_sets. assumption. - called.
    - left. called. - right; left. eapply mode_sets; [apply Hattr|eassumption|assumption]. - right; right. apply chown_sets. assumption. - called.
  Qed.
  Theorem C85_link a path target present touch owner group :
    only_runs (one_or (link_asks path) (unless dry (link_runs path target present)))
      (fun exec => operation a (link exec sha512 dry path target present touch owner group)).
  Proof.
    assert (Hc : forall exec exec', (forall p s, one_or (link_asks path) (unless dry (link_runs path target present)) (p_argv p) -> exec p s = exec' p s) ->
      forall attr, head path = Some slash ->
      sameO (if dry then mret tt
               else if present then
                 _ ← when (changed s_target) (sh exec sha512 [lit "ln"; lit "-sf"; lit "--"; target; path]);
                 _ ← when (either (changed k_owner) (changed k_group))
                       (sh exec sha512 [lit "chown"; lit "--no-dereference"; owner_spec attr; lit "--"; path]);
                 when (both (nope (changed s_exists)) (changed s_touched)) (sh exec sha512 [lit "touch"; lit "--no-dereference"; lit "--"; path])
               else when (changed s_exists) (sh exec sha512 [lit "rm"; lit "--"; path]))
            (if dry then mret tt
               else if present then
                 _ ← when (changed s_target) (sh exec' sha512 [lit "ln"; lit "-sf"; lit "--"; target; path]);
                 _ ← when (either (changed k_owner) (changed k_group))
                       (sh exec' sha512 [lit "chown"; lit "--no-dereference"; owner_spec attr; lit "--"; path]);
                 when (both (nope (changed s_exists)) (changed s_touched)) (sh exec' sha512 [lit "touch"; lit "--no-dereference"; lit "--"; path])
               else when (changed s_exists) (sh exec' sha512 [lit "rm"; lit "--"; path]))).
    { intros exec exec' agree attr Hp. same; (right; split; [reflexivity|]); cbn [link_runs].
      - left. called. - right; right. apply link_sets, Hp. - right; left. called. - called. }
    start. unfold link. apply same_absolute. intros Hp _. apply sameO_bind; [apply sameO_refl|intros _].
    eapply same_op_defaults; [exact agree|intros attr _]. apply sameO_bind; [apply sameO_refl|intros _].
    apply sameO_bind; [apply same_olift; eapply same_stat; exact agree|intros st]. cbv zeta.
    destruct st as [st|].
    - destruct (negb _); [apply sameO_refl|]. apply sameO_bind; [apply same_olift; eapply same_crun; [exact agree|]; left; called|intros r].
      apply sameO_bind; [apply sameO_refl|intros t]. apply sameO_bind; [apply sameO_refl|intros _]. apply sameO_bind; [apply sameO_refl|intros []]; [apply sameO_refl|].
      apply sameO_bind; [apply Hc; assumption|intros; apply sameO_refl].
    - apply sameO_bind; [apply sameO_refl|intros _]. apply sameO_bind; [apply sameO_refl|intros []]; [apply sameO_refl|].
      apply sameO_bind; [apply Hc; assumption|intros; apply sameO_refl].
  Qed.
  Lemma same_save (may : list pystr -> Prop) exec exec' content dest mode owner group : (forall p s, may (p_argv p) -> exec p s = exec' p s) ->
    (forall argv, unless dry (content_runs dest mode) argv -> may argv) -> head dest = Some slash ->
    sameO (save_content exec sha512 dry want_diff content dest mode owner group) (save_content exec' sha512 dry want_diff content dest mode owner group).
  Proof.
    intros agree Hmay Hp. unfold save_content. same; apply Hmay; (split; [reflexivity|]).
    - left. eapply mode_sets; [apply Hattr|eassumption|assumption]. - right. apply chown_sets, Hp. - left. eapply mode_sets; [apply Hattr|eassumption|assumption]. - right. apply chown_sets, Hp.
  Qed.
  Theorem C85_upload_content a content dest mode owner group :
    only_runs (unless dry (content_runs dest mode)) (fun exec => operation a (upload_content exec sha512 dry want_diff content dest mode owner group)).
  Proof.
    start. unfold upload_content. apply same_absolute. intros Hp _. apply sameO_bind; [apply sameO_refl|intros b]. eapply same_save; [exact agree|auto|exact Hp].
  Qed.
  Theorem C85_template_content a render content dest mode owner group :
    only_runs (unless dry (content_runs dest mode)) (fun exec => operation a (template_content exec sha512 dry want_diff render content dest mode owner group)).
  Proof.
    start. unfold template_content. apply same_absolute. intros Hp _. apply sameO_bind; [apply sameO_refl|intros b]. eapply same_save; [exact agree|auto|exact Hp].
  Qed.
  Theorem C85_upload a content src dest mode owner group : exists d, lands dest d /\
    only_runs (unless dry (content_runs d mode)) (fun exec => operation a (upload_file exec sha512 dry want_diff content src dest mode owner group)).
  Proof.
    exists (into_dir src dest). split; [apply into_dir_lands|]. start. unfold upload_file. apply same_absolute. intros Hp _. cbv zeta.
    apply sameO_bind; [apply sameO_refl|intros b]. eapply same_save; [exact agree|auto|exact (lands_absolute _ _ (into_dir_lands src dest) Hp)].
  Qed.
  Theorem C85_template a render content src dest mode owner group : exists d, lands dest d /\
    only_runs (unless dry (content_runs d mode)) (fun exec => operation a (template exec sha512 dry want_diff render content src dest mode owner group)).
  Proof.
    exists (into_dir src dest). split; [apply into_dir_lands|]. start. unfold template. apply same_absolute. intros Hp _. cbv zeta.
    apply sameO_bind; [apply sameO_refl|intros t]. apply sameO_bind; [apply sameO_refl|intros b].
    eapply same_save; [exact agree|auto|exact (lands_absolute _ _ (into_dir_lands src dest) Hp)].
  Qed.
  Theorem C85_line a path text present regex ignore backup :
    only_runs (unless dry (line_runs path)) (fun exec => operation a (line exec sha512 dry want_diff search date path text present regex ignore backup)).
  Proof.
    start. unfold line. same; (split; [reflexivity|]); (eexists; called).
  Qed.
  Lemma same_tree (may : list pystr -> Prop) exec exec' a d dm fm owner group : (forall p s, may (p_argv p) -> exec p s = exec' p s) ->
    (forall argv, unless dry (tree_runs dm fm) argv -> may argv) ->
    sameW (operation a (directory exec sha512 dry d true false dm owner group)) (operation a (directory exec' sha512 dry d true false dm owner group)).
  Proof.
    intros agree Hmay. destruct d as [|x d]; [apply same_operation; unfold directory; apply same_absolute; discriminate|]. destruct (N.eqb_spec x slash) as [->|N].
    - refine (C85_directory a (slash :: d) true false dm owner group exec exec' _). intros p s [Hd H]. apply agree, Hmay. split; [exact Hd|]. exists (slash :: d). split; [reflexivity|left; exact H].
    - apply same_operation. unfold directory. apply same_absolute. intros [= ->]. contradiction.
  Qed.
  Lemma same_leaf (may : list pystr -> Prop) exec exec' a content src d dm fm owner group : (forall p s, may (p_argv p) -> exec p s = exec' p s) ->
    (forall argv, unless dry (tree_runs dm fm) argv -> may argv) ->
    sameW (operation a (upload_file exec sha512 dry want_diff content src d fm owner group)) (operation a (upload_file exec' sha512 dry want_diff content src d fm owner group)).
  Proof.
    intros agree Hmay. apply same_operation. unfold upload_file. apply same_absolute. intros Hp _. cbv zeta.
    apply sameO_bind; [apply sameO_refl|intros b]. assert (Hl := lands_absolute _ _ (into_dir_lands src d) Hp).
    eapply same_save; [exact agree| |exact Hl]. intros argv [Hd H]. apply Hmay. split; [exact Hd|]. exists (into_dir src d). split; [exact Hl|right; exact H].
  Qed.
  Theorem C85_upload_dir a tree src dest dm fm owner group :
    only_runs (unless dry (tree_runs dm fm)) (fun exec => operation a (upload_dir exec sha512 dry want_diff tree src dest dm fm owner group)).
  Proof.
    start. unfold upload_dir. apply sameO_bind; [apply sameO_refl|intros _]. apply same_absolute. intros Hp _.
    destruct tree as [t|]; [destruct t as [b|es| | |]|]; try match goal with |- sameO ?m ?m => apply sameO_refl end. cbv zeta.
    apply sameO_bind; [|intros _; apply sameO_bind; [|intros _; apply sameO_refl]].
    - induction (into_dir src dest :: walk_dirs (into_dir src dest) [] (LDir es)) as [|d ds IH]; cbn [nested_dirs]; [apply sameO_refl|].
      apply sameO_bind; [apply same_olift; refine (same_tree _ exec exec' _ _ dm fm _ _ agree _); auto|intros r]. apply sameO_bind; [apply sameO_refl|intros _; exact IH].
    - induction (walk_files (into_dir src dest) [] (LDir es)) as [|[[n content] d] fs IH]; cbn [nested_files]; [apply sameO_refl|].
      apply sameO_bind; [|intros _; exact IH]. destruct content as [b|]; [|apply sameO_refl].
      apply sameO_bind; [apply same_olift; refine (same_leaf _ exec exec' _ _ _ _ dm fm _ _ agree _); auto|intros r; apply sameO_refl].
  Qed.

  (** ** system *)
  Lemma asked_or_str w o v : or_str w o = Some v -> asked w v.
  Proof. intros H x -> Hx. destruct x as [|y x]; [contradiction|]. cbn in H. congruence. Qed.
  Lemma useradd_reads uid grp comment home shell hash name system z g gs c h sh x :
    (forall v, z = Some v -> asked uid (str_of_Z v)) -> (forall v, g = Some v -> asked grp v) -> (forall v, c = Some v -> asked comment v) -> asked home h -> asked shell sh ->
    (forall v, x = Some v -> asked hash v) ->
    exists opts, Forall (user_option uid grp comment home shell hash) opts /\ invokes "useradd" opts [name] (useradd_cmd name system z g gs c h sh x).
  Proof.
    intros Hz Hg Hc Hh Hs Hx.
    set (P := user_option uid grp comment home shell hash).
    assert (H : part P ((if system then [lit "--system"] else []) ++
      (match z with Some z => [lit "--uid"; str_of_Z z] | None => [] end) ++
      (match g with None => [lit "--user-group"] | Some g => [lit "--no-user-group"; lit "--gid"; g] end) ++
      (match gs with [] => [] | _ => [lit "--groups"; join_str (lit ",") gs] end) ++
      (match c with Some t => [lit "--comment"; t] | None => [] end) ++
      [lit "--no-create-home"; lit "--home-dir"; h] ++ [lit "--shell"; sh] ++
      (match x with Some ((_ :: _) as h) => [lit "--password"; h] | _ => [] end))).
    { apply part_app; [destruct system; [|apply part_nil]; opt_flag; cbn; left|].
      apply part_app; [destruct z as [v|]; [|apply part_nil]; opt_value; left; split; [reflexivity|apply Hz; reflexivity]|].
      apply part_app.
      { destruct g as [v|]; [|opt_flag; cbn; right; left]. apply (part_app P [lit "--no-user-group"] [lit "--gid"; v]); [opt_flag; cbn; right; right; left|].
        opt_value. right; left. split; [reflexivity|apply Hg; reflexivity]. }
      apply part_app; [destruct gs; [apply part_nil|]; opt_value; right; right; left; reflexivity|].
      apply part_app; [destruct c as [v|]; [|apply part_nil]; opt_value; right; right; right; left; split; [reflexivity|apply Hc; reflexivity]|].
      apply part_app.
      { apply (part_app P [lit "--no-create-home"] [lit "--home-dir"; h]); [opt_flag; cbn; right; right; right; left|].
        opt_value. right; right; right; right; left. split; [right; reflexivity|exact Hh]. }
      apply part_app; [opt_value; right; right; right; right; right; left; split; [reflexivity|exact Hs]|].
      destruct x as [[|y v]|]; [apply part_nil| |apply part_nil]. opt_value. right; right; right; right; right; right. split; [reflexivity|apply Hx; reflexivity]. }
    destruct (part_end P _ [name] H) as (o & Ho & Hr). exists o. split; [exact Ho|]. eexists. split; [|exact Hr].
    unfold useradd_cmd. rewrite <- !app_assoc. reflexivity.
  Qed.
  Lemma usermod_reads o v name : dashed (lit o) = true -> valued (lit o) = true -> invokes "usermod" [(lit o, Some v)] [name] (usermod (lit o) v name).
  Proof. intros H1 H2. eexists. split; [reflexivity|]. rewrite reads_value by assumption. rewrite reads_end. reflexivity. Qed.
  Lemma asked_uid uid o z : or_int uid o = Some z -> asked (wanted_uid uid) (str_of_Z z).
  Proof. intros H x Hx _. destruct uid as [u|]; [|discriminate]. cbn in *. destruct (u =? 0)%Z; congruence. Qed.
  Lemma asked_default w d : asked w (default d (or_str w None)).
  Proof. intros x -> Hx. destruct x; [contradiction|reflexivity]. Qed.
  Theorem C85_user a name present uid group groups append system hash home shell comment :
    only_runs (unless dry (user_runs (wanted_uid uid) group comment home shell hash name present))
      (fun exec => operation a (user exec sha512 dry name present uid group groups append system hash home shell comment)).
  Proof.
    start. unfold user. same; (split; [reflexivity|]); cbn [user_runs].
    - left. apply useradd_reads.
      + intros v Hv. exact (asked_uid _ _ _ Hv).
      + intros v Hv. exact (asked_or_str _ _ _ Hv).
      + intros v Hv. exact (asked_or_str _ _ _ Hv).
      + apply asked_default.
      + apply asked_default.
      + intros v Hv. exact (asked_or_str _ _ _ Hv).
    - called.
    - right. eexists _, _. split; [|apply usermod_reads; reflexivity]. left. split; [reflexivity|]. eapply asked_uid. eassumption.
    - right. eexists _, _. split; [|apply usermod_reads; reflexivity]. right; left. split; [reflexivity|]. eapply asked_or_str. eassumption.
    - right. eexists _, _. split; [|apply usermod_reads; reflexivity]. right; right; left. reflexivity.
    - right. eexists _, _. split; [|apply usermod_reads; reflexivity]. right; right; right; left. split; [reflexivity|]. eapply asked_or_str. eassumption.
    - right. eexists _, _. split; [|apply usermod_reads; reflexivity]. right; right; right; right; left. split; [left; reflexivity|]. apply asked_default.
    - right. eexists _, _. split; [|apply usermod_reads; reflexivity]. right; right; right; right; right; left. split; [reflexivity|]. apply asked_default.
    - right. eexists _, _. split; [|apply usermod_reads; reflexivity]. right; right; right; right; right; right. split; [reflexivity|]. eapply asked_or_str. eassumption.
  Qed.
  Theorem C85_group a name present gid system :
    only_runs (unless dry (group_runs name present (wanted_uid gid))) (fun exec => operation a (group exec sha512 dry name present gid system)).
  Proof.
    start. unfold group. same; (split; [reflexivity|]); cbn [group_runs].
    - unfold groupadd_cmd. destruct (or_int gid _) as [z|] eqn:E.
      + exists (str_of_Z z). split; [exact (asked_uid _ _ _ E)|]. destruct system; cbn [app]; [right; left; called|left; called].
      + exists (default [] (wanted_uid gid)). split; [intros x -> _; reflexivity|]. destruct system; cbn [app]; [right; right; right; left; called|right; right; left; called].
    - called.
    - eexists. split; [eapply asked_uid; eassumption|]. right; right; right; right. called.
  Qed.

  (** ** packages *)
  Lemma same_packages packages present has has' add add' del del' :
    (forall p, p ∈ packages -> sameW (has p) (has' p)) -> (dry = false -> present = true -> forall p, p ∈ packages -> sameW (add p) (add' p)) ->
    (dry = false -> present = false -> forall p, p ∈ packages -> sameW (del p) (del' p)) ->
    sameO (generic_package dry set_order packages present has add del) (generic_package dry set_order packages present has' add' del').
  Proof.
    intros Hhas Hadd Hdel. unfold generic_package.
    assert (Hprobe : forall l inst c, l ⊆ packages -> inst ⊆ packages -> probe_all has l inst c = probe_all has' l inst c /\
      forall r c', probe_all has l inst c = (Ok r, c') -> r ⊆ packages).
    { induction l as [|p l IH]; intros inst c Hl Hi; cbn [probe_all]; [split; [reflexivity|intros r c' [= <- <-]; exact Hi]|].
      cbv [mbind W_bind]. rewrite Hhas by (apply Hl; left). destruct (has' p c) as [[b|e] c1]; [|split; [reflexivity|discriminate]].
      apply IH; [intros x Hx; apply Hl; right; exact Hx|]. destruct b; [|exact Hi]. destruct (str_in p inst); [exact Hi|].
      intros x Hx. apply elem_of_app in Hx as [Hx|Hx]; [apply Hi, Hx|]. apply elem_of_list_singleton in Hx as ->. apply Hl. left. }
    assert (Heach : forall f f' l, (forall p, p ∈ l -> sameW (f p) (f' p)) -> sameW (for_each f l) (for_each f' l)).
    { induction l as [|p l IH]; intros H; cbn [for_each]; [apply sameW_refl|]. apply sameW_bind; [apply H; left|intros _; apply IH; intros q Hq; apply H; right; exact Hq]. }
    apply (same_such (fun inst => inst ⊆ packages)); [intros c; apply Hprobe; [exact (fun x H => H)|intros x Hx; apply elem_of_nil in Hx as []]|]. intros inst Hs.
    apply sameO_bind; [apply sameO_refl|intros _]. apply sameO_bind; [apply sameO_refl|intros _]. apply sameO_bind; [apply sameO_refl|intros []]; [apply sameO_refl|].
    apply sameO_bind; [|intros _; apply sameO_refl]. destruct dry; [apply sameO_refl|]. destruct present; apply same_olift, Heach; intros p Hp; rewrite Horder in Hp.
    - apply Hadd; [reflexivity..|]. apply elem_of_list_In, List.filter_In in Hp as [Hp _]. apply elem_of_list_In in Hp. apply (proj1 (Package_proofs.dedup_spec packages)), Hp.
    - apply Hdel; [reflexivity..|]. apply Hs, Hp.
  Qed.
  Theorem C85_pacman a packages present opts : Forall alone (default [] opts) ->
    only_runs (pacman_runs dry packages present (default [] opts)) (fun exec => operation a (pacman_package exec sha512 dry set_order packages present opts)).
  Proof.
    intros Ho. replace (default [] opts) with (opt_list opts) in * by (destruct opts as [[|]|]; reflexivity).
    start. apply same_packages; [intros p Hp|intros Hd Hpr p Hp|intros Hd Hpr p Hp].
    - unfold pacman_has. apply sameW_bind; [|intros; apply sameW_refl]. eapply same_wrun; [exact agree|]. exists p. split; [exact Hp|]. left. called.
    - eapply same_sh; [exact agree|]. exists p. split; [exact Hp|]. right. split; [exact Hd|]. rewrite Hpr. eexists. split; [reflexivity|]. cbn [app]. reading.
      rewrite reads_flags by exact Ho. rewrite reads_end. cbn [fst snd]. rewrite app_nil_r. reflexivity.
    - eapply same_sh; [exact agree|]. exists p. split; [exact Hp|]. right. split; [exact Hd|]. rewrite Hpr. eexists. split; [reflexivity|]. cbn [app]. reading.
      rewrite reads_flags by exact Ho. rewrite reads_end. cbn [fst snd]. rewrite app_nil_r. reflexivity.
  Qed.
  Theorem C85_apt a packages present opts : Forall alone (default [] opts) ->
    only_runs (apt_runs dry packages present (default [] opts)) (fun exec => operation a (apt_package exec sha512 dry set_order packages present opts)).
  Proof.
    intros Ho. replace (default [] opts) with (opt_list opts) in * by (destruct opts as [[|]|]; reflexivity).
    start. apply same_packages; [intros p Hp|intros Hd Hpr p Hp|intros Hd Hpr p Hp].
    - unfold apt_has. apply sameW_bind; [|intros; apply sameW_refl]. eapply same_crun; [exact agree|]. exists p. split; [exact Hp|]. left. called.
    - eapply same_sh; [exact agree|]. exists p. split; [exact Hp|]. right. split; [exact Hd|]. rewrite Hpr. eexists. split; [reflexivity|]. cbn [app]. reading.
      rewrite reads_flags by exact Ho. rewrite reads_end. cbn [fst snd]. rewrite app_nil_r. reflexivity.
    - eapply same_sh; [exact agree|]. exists p. split; [exact Hp|]. right. split; [exact Hd|]. rewrite Hpr. eexists. split; [reflexivity|]. cbn [app]. reading.
      rewrite reads_flags by exact Ho. rewrite reads_end. cbn [fst snd]. rewrite app_nil_r. reflexivity.
  Qed.
  Theorem C85_portage a packages present oneshot opts : Forall alone (default [] opts) ->
    only_runs (portage_runs dry packages present oneshot (default [] opts)) (fun exec => operation a (portage_package exec sha512 dry set_order packages present oneshot opts)).
  Proof.
    intros Ho. replace (default [] opts) with (opt_list opts) in * by (destruct opts as [[|]|]; reflexivity).
    start. apply same_packages; [intros p Hp|intros Hd Hpr p Hp|intros Hd Hpr p Hp].
    - unfold portage_has. apply sameW_bind; [|intros; apply sameW_refl]. eapply same_crun; [exact agree|]. exists p. split; [exact Hp|]. left. called.
    - eapply same_sh; [exact agree|]. exists p. split; [exact Hp|]. right. split; [exact Hd|]. rewrite Hpr. eexists. split; [reflexivity|]. destruct oneshot; cbn [app]; reading;
      rewrite reads_flags by exact Ho; rewrite reads_end; cbn [fst snd]; rewrite app_nil_r; reflexivity.
    - eapply same_sh; [exact agree|]. exists p. split; [exact Hp|]. right. split; [exact Hd|]. rewrite Hpr. eexists. split; [reflexivity|]. cbn [app]. reading.
      rewrite reads_flags by exact Ho. rewrite reads_end. cbn [fst snd]. rewrite app_nil_r. reflexivity.
  Qed.
  Lemma only_runs_more {A} (P Q : list pystr -> Prop) (m : (proc -> M xres) -> W A) : (forall argv, P argv -> Q argv) -> only_runs P m -> only_runs Q m.
  Proof. intros H1 H2 exec exec' agree. apply H2. intros p s Hp. apply agree, H1, Hp. Qed.
  Theorem C85_package a packages present :
    only_runs (one_or detects_package (one_or (apt_runs dry packages present []) (one_or (pacman_runs dry packages present []) (portage_runs dry packages present false []))))
      (fun exec => package exec sha512 dry set_order packages present a).
  Proof.
    intros exec exec' agree. unfold package. eapply same_manager; [exact agree|left; reflexivity|].
    apply List.Forall2_cons; [cbn [fst snd]; split; [reflexivity|]|apply List.Forall2_cons; [cbn [fst snd]; split; [reflexivity|]|apply List.Forall2_cons; [cbn [fst snd]; split; [reflexivity|]|apply List.Forall2_nil]]].
    - refine (C85_apt a packages present None _ exec exec' _); [constructor|]. intros p s Hp. apply agree. right; left. exact Hp.
    - refine (C85_pacman a packages present None _ exec exec' _); [constructor|]. intros p s Hp. apply agree. right; right; left. exact Hp.
    - refine (C85_portage a packages present false None _ exec exec' _); [constructor|]. intros p s Hp. apply agree. right; right; right. exact Hp.
  Qed.

  (** ** systemd *)
  Theorem C85_daemon_reload a user_mode : only_runs (unless dry (reload_runs user_mode)) (fun exec => operation a (daemon_reload exec sha512 dry user_mode)).
  Proof. start. unfold daemon_reload. same; (split; [reflexivity|]); called. Qed.
  Lemma systemctl_reads user_mode v name : dashed v = false -> invokes "systemctl" (user_flag user_mode) [v; name] (systemctl user_mode v name).
  Proof. intros H. unfold systemctl. destruct user_mode; cbn [app]; called. Qed.
  Lemma action_verb t v : dget t state_actions = Some v -> verb t v /\ dashed v = false.
  Proof.
    unfold state_actions. cbn [dget]. repeat (match goal with |- context [str_eqb t ?x] => destruct (str_eqb_spec t x) as [->|_] end; [intros [= <-]; split; [unfold verb; tauto|reflexivity]|]).
    discriminate.
  Qed.
  Theorem C85_service a name target enabled user_mode :
    only_runs (one_or (service_asks name) (unless dry (service_runs name target enabled user_mode)))
      (fun exec => operation a (service exec sha512 dry name target enabled user_mode)).
  Proof.
    start. unfold service.
    destruct (match target with Some t => dhas t state_actions | None => true end) eqn:Ht.
    2:{ destruct target as [t|]; [|discriminate]. rewrite Ht. apply same_raise. }
    apply sameO_bind; [apply sameO_refl|intros _].
    apply sameO_bind; [apply same_olift; eapply same_crun; [exact agree|]; left; exists (lit "ActiveState"); split; [left; reflexivity|called]|intros x]. cbv zeta.
    apply sameO_bind; [apply same_olift; eapply same_crun; [exact agree|]; left; exists (lit "UnitFileState"); split; [right; reflexivity|called]|intros y]. cbv zeta.
    apply sameO_bind; [apply sameO_refl|intros _]. apply sameO_bind; [apply sameO_refl|intros _]. apply sameO_bind; [apply sameO_refl|intros []]; [apply sameO_refl|].
    apply sameO_bind; [|intros _; apply sameO_refl]. destruct dry eqn:Ed; [apply sameO_refl|]. apply sameO_bind.
    - apply sameO_bind; [apply sameO_refl|intros ch]. destruct target as [t|]; [|apply sameO_refl]. destruct ch; [|apply sameO_refl].
      apply same_olift. eapply same_sh; [exact agree|]. right. split; [reflexivity|].
      unfold dhas in Ht. destruct (dget t state_actions) as [v|] eqn:Ev; [|discriminate]. destruct (action_verb t v Ev) as [Hv Hd].
      exists v. cbn [default]. split; [apply systemctl_reads, Hd|]. left. exists t. auto.
    - intros _. apply sameO_bind; [apply sameO_refl|intros ch]. destruct enabled as [e|]; [|apply sameO_refl]. destruct ch; [|apply sameO_refl].
      apply same_olift. eapply same_sh; [exact agree|]. right. split; [reflexivity|].
      exists (if e then lit "enable" else lit "disable"). split; [apply systemctl_reads; destruct e; reflexivity|]. right. destruct e; [left|right]; auto.
  Qed.
  Theorem C85_system_service a name target enabled :
    only_runs (one_or detects_service (one_or (service_asks name) (unless dry (service_runs name target enabled false))))
      (fun exec => system_service exec sha512 dry name target enabled a).
  Proof.
    intros exec exec' agree. unfold system_service. eapply same_manager; [exact agree|left; reflexivity|].
    apply List.Forall2_cons; [cbn [fst snd]; split; [reflexivity|]|apply List.Forall2_nil].
    refine (C85_service a name target enabled false exec exec' _). intros p s Hp. apply agree. right. exact Hp.
  Qed.

  (** ** git *)
  Section repo.
    Variable branch : option pystr.
    Variable depth : option Z.
    Variable rebase ff_only submodules recursive shallow : bool.
    Notation P := (git_option branch (str_of_Z <$> depth) rebase ff_only recursive).
    Lemma depth_part : part P (depth_args depth).
    Proof. destruct depth as [d|]; [|apply part_nil]. opt_value. left. exists (str_of_Z d). auto. Qed.
    Lemma clone_reads url path : repo_runs url path branch (str_of_Z <$> depth) rebase ff_only submodules recursive (clone_cmd url path branch depth).
    Proof.
      assert (H : part P (depth_args depth ++ match branch with Some b => [lit "--branch"; b] | None => [] end)).
      { apply part_app; [apply depth_part|]. destruct branch as [b|]; [|apply part_nil]. opt_value. right; left. exists b. auto. }
      destruct (part_end _ _ [url; path] H) as (o & Ho & Hr). exists o. split; [exact Ho|]. left. eexists. split; [reflexivity|].
      rewrite reads_word by reflexivity. rewrite app_assoc, Hr. reflexivity.
    Qed.
    Lemma pull_reads url path : repo_runs url path branch (str_of_Z <$> depth) rebase ff_only submodules recursive (pull_cmd path depth rebase ff_only).
    Proof.
      assert (H : part P (depth_args depth ++ (if rebase then [lit "--rebase"] else []) ++ (if ff_only then [lit "--ff-only"] else []))).
      { apply part_app; [apply depth_part|]. apply part_app.
        - destruct rebase eqn:E; [|apply part_nil]. opt_flag. right; right; left. auto.
        - destruct ff_only eqn:E; [|apply part_nil]. opt_flag. right; right; right; left. auto. }
      destruct (part_last _ _ H) as (o & Ho & Hr). exists o. split; [exact Ho|]. right; left. eexists. split; [reflexivity|].
      cbn [app]. rewrite reads_value by reflexivity. rewrite reads_word by reflexivity. rewrite Hr. reflexivity.
    Qed.
    Lemma submodule_reads url path : submodules = true ->
      repo_runs url path branch (str_of_Z <$> depth) rebase ff_only submodules recursive (submodule_cmd path depth recursive shallow).
    Proof.
      intros Hsub. assert (H : part P ([lit "--init"] ++ (if shallow then depth_args depth else []) ++ (if recursive then [lit "--recursive"] else []))).
      { apply part_app; [opt_flag; right; right; right; right; left; reflexivity|]. apply part_app; [destruct shallow; [apply depth_part|apply part_nil]|].
        destruct recursive eqn:E; [|apply part_nil]. opt_flag. right; right; right; right; right. auto. }
      destruct (part_last _ _ H) as (o & Ho & Hr). exists o. split; [exact Ho|]. right; right; left. split; [exact Hsub|]. eexists. split; [reflexivity|].
      cbn [app] in Hr |- *. rewrite reads_value by reflexivity. rewrite reads_word by reflexivity. rewrite (reads_word (lit "update")) by reflexivity. rewrite Hr. reflexivity.
    Qed.
  End repo.
  Theorem C85_repo a url path branch update depth rebase ff_only submodules recursive shallow :
      only_runs (one_or (repo_asks url path branch) (unless dry (repo_runs url path branch (str_of_Z <$> depth) rebase ff_only submodules recursive)))
        (fun exec => operation a (repo exec sha512 dry url path branch update depth rebase ff_only submodules recursive shallow)).
    Proof.
      assert (Hask : forall P : list pystr -> Prop, one_or (repo_asks url path branch) P
        [lit "git"; lit "ls-remote"; lit "--exit-code"; lit "--"; url; default (lit "HEAD") (or_str branch None)]).
      { intros Q. left. right. exists (default (lit "HEAD") (or_str branch None)). split; [apply asked_default|called]. }
      assert (Hhead : forall P : list pystr -> Prop, one_or (repo_asks url path branch) P [lit "git"; lit "-C"; path; lit "rev-parse"; lit "HEAD"]).
      { intros Q. left. left. called. }
      assert (Hget : forall d r f s rec, repo_runs url path branch d r f s rec [lit "git"; lit "-C"; path; lit "config"; lit "--get"; lit "remote.origin.url"]).
      { intros. exists []. split; [constructor|]. right; right; right. called. }
      start. unfold repo. same; first [apply Hask|apply Hhead|right; split; [reflexivity|]; first [apply Hget|apply clone_reads|apply pull_reads|apply submodule_reads; reflexivity]].
    Qed.
End footprint.
Print Assumptions C85_directory.
Print Assumptions C85_file.
Print Assumptions C85_link.
Print Assumptions C85_upload_content.
Print Assumptions C85_template_content.
Print Assumptions C85_upload.
Print Assumptions C85_template.
Print Assumptions C85_line.
Print Assumptions C85_upload_dir.
Print Assumptions C85_user.
Print Assumptions C85_group.
Print Assumptions C85_pacman.
Print Assumptions C85_apt.
Print Assumptions C85_portage.
Print Assumptions C85_package.
Print Assumptions C85_daemon_reload.
Print Assumptions C85_service.
Print Assumptions C85_system_service.
Print Assumptions C85_repo.
