(** Uploads and downloads as operations use them. *)
From Coq Require Import Lia ZifyBool ZifyN ZifyNat.
From stdpp Require Import gmap.
From Verif Require Import Base Utf8 Dict_proofs Codec Spec_Codec Codec_proofs Codec_proofs2 Paths Sys Spec_Sys Sys_proofs Dispatcher Client Spec_Session Session_proofs Spec_Remote
  Remote_safe Remote_proofs Remote_upload Remote_run Direct Control Spec_Control Control_proofs Control_settle Quiet Op Files Coreutils Walk_proofs Spec_Files Shell_proofs Files_plain Steps.
Local Open Scope nat_scope.

(** a place where an upload puts a regular file *)
Definition spot (s : os) (path : pystr) : Prop :=
  resolve_node (o_fs s) [] path false = Err (oserr ENOENT) \/ exists pl n b, resolve_node (o_fs s) [] path false = Ok (pl, n) /\ n_kind n = KFile b.
(** the file the path leads to before the upload, if any *)
Definition target (s : os) (path : pystr) (pl : place) : Prop :=
  match o_fs s !! pl with
  | Some n0 => resolve_node (o_fs s) [] path false = Ok (pl, n0) /\ exists b0, n_kind n0 = KFile b0
  | None => resolve_node (o_fs s) [] path false = Err (oserr ENOENT)
  end.
(** the mode that was asked for *)
Definition base_mode (s : os) (pl : place) (m : option pystr) (z : N) : Prop :=
  match m with
  | Some t => exists i, py_int 8 t = Some i /\ z = Z.to_N (i mod 4096)
  | None => z = match o_fs s !! pl with Some n0 => n_mode n0 | None => 384%N end
  end.
Definition uploaded (s : os) (pl : place) (b : bytes) (m o g : option pystr) (n : node) : Prop :=
  n_kind n = KFile b /\ upload_owner s (o_fs s !! pl) o g n /\ exists z, base_mode s pl m z /\ (n_mode n = z \/ n_mode n = drop_suid z).
Definition part_of (b : bytes) (k : kind) : Prop := exists i, k = KFile (take i b).

Section transfer.
  Variable exec : proc -> M xres.
  Variable sha512 : bytes -> bytes.

  Lemma spot_follow s path pl : isabs path = true -> spot s path -> resolve (o_fs s) (o_cwd s) path true = Ok pl ->
    (o_fs s !! pl = None \/ exists n b, o_fs s !! pl = Some n /\ n_kind n = KFile b) /\ target s path pl /\
    (forall n b, n_kind n = KFile b -> resolve_node (<[pl := n]> (o_fs s)) [] path false = Ok (pl, n)).
  Proof.
    intros Ha Hs Hr. rewrite (isabs_cwd _ _ [] _ _ Ha) in Hr. destruct Hs as [Hno|(pl0 & n0 & b0 & H0 & Hk)].
    - destruct (resolve_absent _ _ _ _ Hno Hr) as [H1 H2]. split; [left; exact H2|]. split; [unfold target; rewrite H2; exact Hno|]. intros n b Hn. apply resolve_create; auto. congruence.
    - assert (H1 : resolve_node (o_fs s) [] path true = Ok (pl0, n0)) by (eapply resolve_node_follow; [exact H0|congruence]).
      apply resolve_node_split in H1 as [H1 H2]. rewrite Hr in H1. injection H1 as <-. split; [right; eauto|]. split; [unfold target; rewrite H2; eauto|].
      intros n b Hn. eapply resolve_node_set; [exact H0|]. unfold shape. rewrite Hn, Hk. reflexivity.
  Qed.

  Lemma upload_any path b m o g c r c' : upload exec sha512 path b m o g c = (r, c') -> isabs path = true -> spot (sysof c) path ->
    c' = set_remote (c_remote c') c /\
    ((unaffected (sysof c) (sysof c') /\ exists e, r = Err e) \/
     exists pl n, sits path (sysof c) (sysof c') pl n /\ fresh (sysof c) n /\ part_of b (n_kind n) /\
       target (sysof c) path pl /\
       (r = Ok tt -> uploaded (sysof c) pl b m o g n)).
  Proof.
    intros E Ha Hsp. unfold upload, via in E. destruct (conn_upload exec sha512 path b m o g (c_remote c)) as [x v] eqn:Ec. injection E as <- <-.
    split; [reflexivity|]. unfold sysof in *. cbn [c_remote set_remote]. destruct (c_remote c) as [s l]. cbn [r_os] in *.
    unfold conn_upload in Ec. cbv [mbind C_bind] in Ec.
    destruct (request exec sha512 (PUpload path b m o g) (Remote s l)) as [y v1] eqn:Er.
    assert (Hv : v = v1) by (destruct y as [[]|]; injection Ec as _ <-; reflexivity). subst v1.
    apply request_as_up in Er as [[-> (e & -> & _)]|(y0 & v0 & Er & -> & Hy & Henc)].
    { left. injection Ec as <-. split; [apply unaffected_refl|eauto]. }
    assert (Hh := request_state exec sha512 _ _ _ _ Henc Er). cbn [handle] in Hh.
    assert (Hok : x = Ok tt -> handle_upload path b m o g s = (Ok (Reply [] POk), r_os v0)).
    { intros ->. destruct y as [p|e]; [|discriminate]. destruct Hy as [<-|[=]]. assert (Hg : good_request (PUpload path b m o g)) by (split_and!; [exact I|exact I|exact Henc]).
      destruct (request_ok exec sha512 _ _ _ _ Hg Er) as [H _]. cbn [handle] in H. destruct p; try discriminate Ec. exact H. }
    assert (Hx : x = Ok tt \/ exists e, x = Err e) by (destruct x as [[]|e]; eauto).
    destruct (upload_put path b m o g s) as [(p & Hp & fl & msg & ->)|(z & ug & gg & Hz & Hug & Hgg & Hp)].
    { left. rewrite Hh, Hp. split; [apply unaffected_refl|]. destruct Hx as [Hx|Hx]; [|exact Hx]. rewrite (Hok Hx) in Hp. discriminate. }
    rewrite Hp in Hh, Hok. destruct (put path b z _ _ s) as [rr s2] eqn:Hput. cbn [snd] in Hh. subst s2.
    assert (Hpt : plain_target s path).
    { intros pl n t H1 H2 K. destruct (spot_follow s path pl Ha Hsp H1) as [[H3|(n3 & b3 & H3 & K3)] _]; congruence. }
    destruct (put_spec _ _ _ _ _ _ _ _ Hput Hpt) as [[Hu [e ->]]|(pl & n & Hr & Hi & [Ho Hfs] & Hfr & Hst)].
    { left. split; [exact Hu|]. destruct Hx as [Hx|Hx]; [|exact Hx]. specialize (Hok Hx). discriminate. }
    right. exists pl, n. destruct (spot_follow s path pl Ha Hsp Hr) as (H1 & Htg & H2).
    assert (Hk : part_of b (n_kind n)).
    { inversion Hst; subst; [eexists; eassumption|exists (length b); rewrite firstn_all; assumption|exists (length b); rewrite firstn_all; assumption]. }
    split; [|split; [exact Hfr|split; [exact Hk|split]]].
    - split; [exact Ho|]. split; [exact Hfs|]. rewrite Hfs. destruct Hk as [i Hk]. eapply H2. exact Hk.
    - exact Htg.
    - intros Hx'. specialize (Hok Hx'). injection Hok as ->.
      inversion Hst as [| |n' Hk' Hids Hmode Hnew Hexact]; subst n'. split; [exact Hk'|]. split.
      + eapply upload_owner_ok; [exact Hug|exact Hgg|]. destruct (fst <$> ug), (match gg with Some g0 => Some g0 | None => snd <$> ug end); exact Hids.
      + eexists. split; [|exact Hexact]. unfold base_mode. destruct m as [t|], z as [z|]; try contradiction; [exists z; auto|].
        unfold opened. destruct (o_fs s !! pl); reflexivity.
  Qed.

  (** an upload that is accepted *)
  Definition acceptable (s : os) (b : bytes) (m o g : option pystr) : Prop :=
    small b /\ opt_ok (fun t => short t /\ exists z, py_int 8 t = Some z /\ c_int z) m /\
    opt_ok (fun u => c_string u /\ exists a, denotes_user s u a) o /\ opt_ok (fun u => c_string u /\ exists a, denotes_group s u a) g.
  Lemma upload_fine path b m o g c r c' : upload exec sha512 path b m o g c = (r, c') -> isabs path = true -> c_string path -> spot (sysof c) path ->
    fine c -> acceptable (sysof c) b m o g -> (resolve_node (o_fs (sysof c)) [] path false = Err (oserr ENOENT) -> creatable (sysof c) path) ->
    r = Ok tt /\ fine c'.
  Proof.
    intros E Ha Hp Hsp Hf (A1 & A2 & A3 & A4) Hcr. assert (E' := E).
    destruct (upload_any _ _ _ _ _ _ _ _ E Ha Hsp) as [Hset Hany].
    assert (Hf0 := Hf). destruct Hf as ((Hl & Hfl & Huid) & _).
    assert (Hres : exists pl, resolve (o_fs (sysof c)) (o_cwd (sysof c)) path true = Ok pl).
    { rewrite (isabs_cwd _ _ [] _ _ Ha). destruct Hsp as [Hno|(pl & n & b0 & H0 & Hk)].
      - destruct (creatable_resolve _ _ (Hcr Hno) Hno) as (pl & _ & _ & _ & H). exists pl. apply H.
      - exists pl. assert (H1 : resolve_node (o_fs (sysof c)) [] path true = Ok (pl, n)) by (eapply resolve_node_follow; [exact H0|congruence]).
        apply resolve_node_split in H1 as [H1 _]. exact H1. }
    destruct Hres as [pl Hr]. destruct (spot_follow _ _ _ Ha Hsp Hr) as [Hn _].
    unfold upload, via in E. destruct (conn_upload exec sha512 path b m o g (c_remote c)) as [x v] eqn:Ec. injection E as <- <-.
    unfold sysof in *. destruct (c_remote c) as [s l] eqn:Hrem. cbn [r_os r_link] in *. subst l.
    assert (Hpk : packet_ok (PUpload path b m o g)).
    { cbn. split_and!; auto.
      - apply short_ok. apply Hp.
      - destruct m; [|exact I]. apply short_ok, A2.
      - destruct o; [|exact I]. apply short_ok, A3.
      - destruct g; [|exact I]. apply short_ok, A4. }
    destruct (C10_accepts_lemma exec sha512 s path b m o g pl Hpk Hfl Hr Hn) as [v' Hv'].
    { destruct m; [|exact I]. apply A2. }
    { destruct o; [|exact I]. split; [apply A3|apply A3]. }
    { destruct g; [|exact I]. split; [apply A4|apply A4]. }
    rewrite Hv' in Ec. injection Ec as <- <-. split; [reflexivity|].
    cbn [set_remote c_remote] in Hset, Hany |- *.
    assert (Henc := packet_ok_write _ Hpk). unfold conn_upload in Hv'. cbv [mbind C_bind] in Hv'.
    destruct (request exec sha512 (PUpload path b m o g) (Remote s Up)) as [[p|e] v1] eqn:Er; [|discriminate].
    assert (Hg : good_request (PUpload path b m o g)) by (split_and!; [exact I|exact I|exact Henc]).
    destruct (request_ok exec sha512 _ _ _ _ Hg Er) as [Hh Hl]. assert (p = POk) as -> by (destruct p; try discriminate Hv'; reflexivity). injection Hv' as <-.
    assert (Hfl' : o_faults (r_os v1) = []).
    { cbn [handle] in Hh. destruct (upload_put path b m o g s) as [(q & Hq & fl & msg & ->)|(z & ug & gg & Hz & Hug & Hgg & Hq)]; [congruence|].
      assert (Hzi : opt_ok c_int z).
      { destruct m as [t|], z as [z|]; try contradiction; [|exact I]. destruct A2 as [_ (z' & Hz' & Hci)]. cbn in Hz. cbn. congruence. }
      destruct (put_ok path b z (fst <$> ug) (match gg with Some g => Some g | None => snd <$> ug end) s pl Hfl Hr Hn Hzi) as (s' & Hs' & Hf').
      rewrite Hq, Hs' in Hh. injection Hh as <-. exact Hf'. }
    destruct Hany as [[_ [e [=]]]|(pl' & n & Hsit & _ & [i Hk] & Hold & _)].
    apply (fine_next c); [exact Hf0|reflexivity|exact Hl|exact Hfl'| |].
    - destruct Hsit as (H & _). unfold sysof. rewrite Hrem. exact H.
    - unfold sysof. rewrite Hrem. destruct Hsit as (_ & Hfs & _). cbn [r_os c_remote set_remote]. rewrite Hfs. apply grows_insert. intros n0 Hn0. unfold target in Hold. cbn [r_os] in Hn0. rewrite Hn0 in Hold. destruct Hold as [_ [b0 K0]]. unfold shape. rewrite Hk, K0. reflexivity.
  Qed.

  (** *** download *)
  Lemma sys_read_any path s r s' pl n b0 : sys_read path s = (r, s') -> isabs path = true -> resolve_node (o_fs s) [] path false = Ok (pl, n) -> n_kind n = KFile b0 ->
    unaffected s s' /\ (forall b, r = Ok b -> b = b0).
  Proof.
    intros E Ha Hr Hk. apply syscall_inv in E as (s0 & Hs0 & [(k & -> & ->)|E]); [split; [exact Hs0|discriminate]|].
    injection E as <- <-. split; [exact Hs0|]. rewrite (unaffected_fs _ _ Hs0), (isabs_cwd_node _ _ [] _ _ Ha).
    rewrite (resolve_node_follow _ _ _ _ _ _ Hr) by congruence. rewrite Hk. congruence.
  Qed.
  Lemma download_any path c r c' pl n b0 : download exec sha512 path c = (r, c') -> isabs path = true ->
    resolve_node (o_fs (sysof c)) [] path false = Ok (pl, n) -> n_kind n = KFile b0 ->
    c' = set_remote (c_remote c') c /\ unaffected (sysof c) (sysof c') /\ (forall b, r = Ok b -> b = b0).
  Proof.
    intros E Ha Hr Hk. unfold download, via in E. destruct (conn_download exec sha512 path (c_remote c)) as [x v] eqn:Ec. injection E as <- <-.
    split; [reflexivity|]. unfold sysof in *. cbn [c_remote set_remote]. destruct (c_remote c) as [s l]. cbn [r_os] in *.
    unfold conn_download in Ec. cbv [mbind C_bind] in Ec.
    destruct (request exec sha512 (PDownload path) (Remote s l)) as [y v1] eqn:Er.
    assert (Hv : v = v1) by (destruct y as [[]|]; injection Ec as _ <-; reflexivity). subst v1.
    apply request_as_up in Er as [[-> (e & -> & _)]|(y0 & v0 & Er & -> & Hy & Henc)].
    { injection Ec as <-. split; [apply unaffected_refl|discriminate]. }
    assert (Hh := request_state exec sha512 _ _ _ _ Henc Er). cbn [handle] in Hh. unfold handle_download in Hh.
    destruct (sys_read path s) as [rr s1] eqn:Erd. destruct (sys_read_any _ _ _ _ _ _ _ Erd Ha Hr Hk) as [U1 U2].
    split.
    - rewrite Hh. destruct rr as [d|[]]; try exact U1. destruct (errno =? ENOENT)%Z; exact U1.
    - intros b ->. destruct y as [p|e]; [|discriminate]. destruct Hy as [<-|[=]]. assert (Hg : good_request (PDownload path)) by (split_and!; [exact I|exact I|exact Henc]).
      destruct (request_ok exec sha512 _ _ _ _ Hg Er) as [H _]. cbn [handle] in H. unfold handle_download in H. rewrite Erd in H.
      destruct p; try discriminate Ec. injection Ec as ->. destruct rr as [d|[]]; try discriminate H.
      + injection H as H _. apply U2. f_equal. exact H.
      + destruct (errno =? ENOENT)%Z; discriminate H.
  Qed.
  Lemma download_fine path c pl n b0 : healthy c -> isabs path = true -> c_string path ->
    resolve_node (o_fs (sysof c)) [] path false = Ok (pl, n) -> n_kind n = KFile b0 -> small b0 ->
    download exec sha512 path c = (Ok b0, c).
  Proof.
    intros (Hl & Hfl & _) Ha Hp Hr Hk Hsm. unfold download, via. unfold sysof in *. destruct (c_remote c) as [s l] eqn:Hrem. cbn [r_os r_link] in *. subst l.
    assert (Hread : sys_read path s = (Ok b0, s)).
    { unfold sys_read. rewrite syscall_calm by exact Hfl. rewrite (isabs_cwd_node _ _ [] _ _ Ha), (resolve_node_follow _ _ _ _ _ _ Hr) by congruence. rewrite Hk. reflexivity. }
    assert (Hh2 : handle exec sha512 (PDownload path) s = (Ok (Reply [] (PDownloadResult b0)), s)).
    { cbn [handle]. unfold handle_download. rewrite Hread. reflexivity. }
    assert (Hd : encodable (PDownload path)). { apply packet_ok_write. cbn. apply short_ok. apply Hp. }
    unfold conn_download. cbv [mbind C_bind]. rewrite (request_reply exec sha512 _ _ _ _ Hd Hh2) by exact Hsm. cbn.
    rewrite <- Hrem, set_remote_self. reflexivity.
  Qed.
End transfer.
