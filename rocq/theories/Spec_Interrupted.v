(** * Account commands that are interrupted *)
From stdpp Require Import gmap.
From Verif Require Import Base Codec Sys Spec_Sys Dispatcher Client Spec_Remote Control Op Spec_Files Spec_Commands Spec_Account.

(** Nothing happened to users, groups and passwords. *)
Definition same_accounts (s s' : os) : Prop := o_passwd s' = o_passwd s /\ o_group s' = o_group s /\ o_shadow s' = o_shadow s.

(** [cmd OPTIONS -- NAME] does all that it was asked for or nothing, however it ends: with any status, killed, or unheard of. *)
Definition all_or_nothing (exec : proc -> M xres) (cmd : pystr) (done : list (pystr * pystr) -> pystr -> os -> os -> Prop) : Prop :=
  forall q s x s' args opts name, p_argv q = cmd :: args -> getopt args = (opts, [name]) -> exec q s = (x, s') -> same_accounts s s' \/ done opts name s s'.
Record shadow_atomic (exec : proc -> M xres) : Prop := {
  sa_useradd : all_or_nothing exec (lit "useradd") user_added;
  sa_usermod : all_or_nothing exec (lit "usermod") user_modified;
  sa_userdel : all_or_nothing exec (lit "userdel") (fun _ => user_deleted);
  sa_groupadd : all_or_nothing exec (lit "groupadd") group_added;
  sa_groupmod : all_or_nothing exec (lit "groupmod") group_modified }.

(** ** What an interrupted system.user may leave behind *)
Section request.
  Variable (u : pystr) (uid : option Z) (group : option pystr) (groups : option (list pystr)) (append : bool) (hash home shell comment : option pystr).
  (** the groups the user is to be a member of, in the end *)
  Definition wanted (s0 : os) (g : pystr) : Prop :=
    (exists l, asks_list groups l /\ g ∈ l) \/ (((forall l, ~ asks_list groups l) \/ append = true) /\ member s0 g u).
  (** The account was there: each of its values is the one it had, or the one that was asked for. *)
  Definition midway (s0 s : os) : Prop :=
    others u s0 s /\ gids s = gids s0 /\ exists a b, entry s0 u = Some a /\ entry s u = Some b /\
      (pw_uid b = pw_uid a \/ asks_int uid (Z.of_N (pw_uid b))) /\
      (pw_gid b = pw_gid a \/ exists g, asks_text group g /\ (g, pw_gid b) ∈ gids s0) /\
      (pw_gecos b = pw_gecos a \/ asks_text comment (pw_gecos b)) /\
      (pw_dir b = pw_dir a \/ asks_text home (pw_dir b)) /\
      (pw_shell b = pw_shell a \/ asks_text shell (pw_shell b)) /\
      (secret s u = secret s0 u \/ exists v, asks_text hash v /\ secret s u = Some v) /\
      ((forall g, member s g u <-> member s0 g u) \/ forall g, member s g u <-> wanted s0 g).
  (** In any case: nothing, part of it, or all. *)
  Definition left_behind (s0 s : os) : Prop :=
    same_accounts s0 s \/ midway s0 s \/ user_granted u uid group groups append hash home shell comment s0 s.
End request.
