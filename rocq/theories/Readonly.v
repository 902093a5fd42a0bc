(** Requests that only look. *)
From stdpp Require Import gmap.
From Verif Require Import Base Utf8 Codec Paths Sys Spec_Sys Sys_proofs Dispatcher Client Spec_Session Session_proofs Spec_Remote Remote_proofs Remote_run.

Lemma stat_unaffected p follow s : unaffected s (snd (sys_stat p follow s)).
Proof.
  destruct (sys_stat p follow s) as [r s'] eqn:E. cbn. apply syscall_inv in E as (s0 & H & [(n & _ & ->)|E]); [assumption|].
  injection E as _ <-. assumption.
Qed.
Lemma read_unaffected p s : unaffected s (snd (sys_read p s)).
Proof.
  destruct (sys_read p s) as [r s'] eqn:E. cbn. apply syscall_inv in E as (s0 & H & [(n & _ & ->)|E]); [assumption|].
  injection E as _ <-. assumption.
Qed.
Section readonly.
  Variable exec : proc -> M xres.
  Variable sha512 : bytes -> bytes.
  Lemma handle_stat_unaffected p follow sha s : unaffected s (snd (handle_stat sha512 p follow sha s)).
  Proof.
    unfold handle_stat. pose proof (stat_unaffected p follow s) as H. destruct (sys_stat p follow s) as [[n|e] s1]; cbn in H.
    - destruct (sha && str_eqb (node_type n) (lit "file")); [|exact H]. cbv [mbind M_bind bindM].
      pose proof (read_unaffected p s1) as H1. destruct (sys_read p s1) as [[b|e] s2]; cbn in *; eapply unaffected_trans; eassumption.
    - destruct e; try exact H. destruct (_ =? _)%Z; exact H.
  Qed.
  Lemma handle_download_unaffected p s : unaffected s (snd (handle_download p s)).
  Proof.
    unfold handle_download. pose proof (read_unaffected p s) as H. destruct (sys_read p s) as [[n|e] s1]; cbn in H; [exact H|].
    destruct e; try exact H. destruct (_ =? _)%Z; exact H.
  Qed.
  (** requests that only look *)
  Definition looks (q : packet) : Prop :=
    match q with
    | PCheckAlive | PStat _ _ _ | PResolveUser _ | PResolveGroup _ | PDownload _ | PQueryUser _ _ | PQueryGroup _ | PGetenv _ => True
    | _ => False
    end.
  Lemma handle_looks q s : looks q -> unaffected s (snd (handle exec sha512 q s)).
  Proof.
    destruct q; intros []; cbn [handle]; try apply unaffected_refl; try apply handle_stat_unaffected; try apply handle_download_unaffected.
    - unfold handle_resolve_user. cbv [mbind M_bind bindM getM lift]. destruct (lookup_user _ _) as [[a|]|e]; apply unaffected_refl.
    - unfold handle_resolve_group. cbv [mbind M_bind bindM getM lift]. destruct (lookup_group _ _) as [[a|]|e]; apply unaffected_refl.
    - unfold handle_query_user. cbv [mbind M_bind bindM getM lift]. destruct (lookup_user _ _) as [[a|]|e]; try apply unaffected_refl.
      destruct query_password_hash; [destruct (getspnam _ _) as [h|e]; [|destruct e; apply unaffected_refl]|];
        destruct (getgrgid _ _); apply unaffected_refl.
    - unfold handle_query_group. cbv [mbind M_bind bindM getM lift]. destruct (lookup_group _ _) as [[a|]|e]; apply unaffected_refl.
  Qed.
End readonly.
