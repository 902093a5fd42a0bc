(** * Accounts, and what the commands that edit them do *)
From stdpp Require Import gmap.
From Verif Require Import Base Codec Sys Spec_Sys Dispatcher Client Spec_Remote Control Op Spec_Files Spec_Commands.

(** ** The databases *)
Definition entry (s : os) (u : pystr) : option account := List.find (fun a => bool_decide (pw_name a = u)) (o_passwd s).
Definition secret (s : os) (u : pystr) : option pystr := dget u (o_shadow s).
Definition member (s : os) (g u : pystr) : Prop := exists e, e ∈ o_group s /\ gr_name e = g /\ u ∈ gr_mem e.
Definition gids (s : os) : list (pystr * N) := (fun e => (gr_name e, gr_gid e)) <$> o_group s.
Definition gid_of (s : os) (g : pystr) : option N := snd <$> List.find (fun e => bool_decide (e.1 = g)) (gids s).

(** Names of groups that are not taken for numbers or lists. *)
Definition tame (g : pystr) : Prop := g <> [] /\ 44%N ∉ g /\ py_int 10 g = None.

(** An account that is complete: it has a password, and its primary group exists. *)
Definition complete (s : os) (u : pystr) (a : account) : Prop :=
  entry s u = Some a /\ (exists h, secret s u = Some h) /\ exists g, (g, pw_gid a) ∈ gids s.

(** Nothing happened to other accounts, or to the memberships of other users. *)
Definition others (u : pystr) (s s' : os) : Prop :=
  (forall v, v <> u -> entry s' v = entry s v /\ secret s' v = secret s v) /\ forall g v, v <> u -> (member s' g v <-> member s g v).
(** Nothing happened to other groups, or to the members of any but the new one. *)
Definition other_groups (g : pystr) (s s' : os) : Prop :=
  forall g', g' <> g -> gid_of s' g' = gid_of s g' /\ forall v, member s' g' v <-> member s g' v.

(** ** Command lines: options, then "--", then names *)
Definition switches : list pystr := [lit "--system"; lit "--user-group"; lit "--no-user-group"; lit "--no-create-home"].
Fixpoint getopt (args : list pystr) : list (pystr * pystr) * list pystr :=
  match args with
  | [] => ([], [])
  | x :: r =>
      if bool_decide (x = lit "--") then ([], r)
      else if bool_decide (x ∈ switches) then (fun y => ((x, []) :: y.1, y.2)) (getopt r)
      else match r with [] => ([], []) | v :: r => (fun y => ((x, v) :: y.1, y.2)) (getopt r) end
  end.
(** the list of names in the value of an option *)
Definition listing (v : pystr) (l : list pystr) : Prop := v = join_str (lit ",") l.

(** What an option asks for; without it a value [d]. *)
Definition decides {A} (opts : list (pystr * pystr)) (name : pystr) (d : A -> Prop) (P : pystr -> A -> Prop) (x : A) : Prop :=
  match dget name opts with Some v => P v x | None => d x end.
Definition number (v : pystr) (n : N) : Prop := py_int 10 v = Some (Z.of_N n).
Definition group_id (s : os) (g : pystr) (n : N) : Prop := tame g -> (g, n) ∈ gids s.
Definition members_are (v : pystr) (P : pystr -> Prop) : Prop := forall l, l <> [] -> Forall tame l -> listing v l -> forall g, P g <-> g ∈ l.
Definition members_join (old : pystr -> Prop) (v : pystr) (P : pystr -> Prop) : Prop := forall l, l <> [] -> Forall tame l -> listing v l -> forall g, P g <-> g ∈ l \/ old g.

(** ** What the commands promise if they end with 0, and (the others) in any case *)
(** useradd: there was no such account; now there is one with these values, which is a member of these groups, too. *)
Definition user_added (opts : list (pystr * pystr)) (u : pystr) (s s' : os) : Prop :=
  entry s u = None /\
  (exists a, entry s' u = Some a /\
    decides opts (lit "--uid") (fun _ => True) number (pw_uid a) /\
    decides opts (lit "--gid") (fun n => gids s' ≡ₚ (u, n) :: gids s) (fun g n => group_id s g n /\ gids s' = gids s) (pw_gid a) /\
    decides opts (lit "--comment") (eq []) eq (pw_gecos a) /\
    decides opts (lit "--home-dir") (fun _ => True) eq (pw_dir a) /\
    decides opts (lit "--shell") (fun _ => True) eq (pw_shell a)) /\
  (exists h, secret s' u = Some h /\ decides opts (lit "--password") (eq (lit "!")) eq h) /\
  decides opts (lit "--groups") (fun P : pystr -> Prop => forall g, P g <-> member s g u) (members_join (fun g => member s g u)) (fun g => member s' g u).
(** usermod: the account has these values, and otherwise those from before. *)
Definition user_modified (opts : list (pystr * pystr)) (u : pystr) (s s' : os) : Prop :=
  gids s' = gids s /\
  (exists a b, entry s u = Some a /\ entry s' u = Some b /\
    decides opts (lit "--uid") (eq (pw_uid a)) number (pw_uid b) /\
    decides opts (lit "--gid") (eq (pw_gid a)) (group_id s) (pw_gid b) /\
    decides opts (lit "--comment") (eq (pw_gecos a)) eq (pw_gecos b) /\
    decides opts (lit "--home") (eq (pw_dir a)) eq (pw_dir b) /\
    decides opts (lit "--shell") (eq (pw_shell a)) eq (pw_shell b)) /\
  decides opts (lit "--password") (eq (secret s u)) (fun v h => h = Some v) (secret s' u) /\
  decides opts (lit "--groups") (fun P : pystr -> Prop => forall g, P g <-> member s g u) members_are (fun g => member s' g u).
Definition user_deleted (u : pystr) (s s' : os) : Prop := entry s' u = None /\ secret s' u = None /\ forall g, ~ member s' g u.
Definition group_added (opts : list (pystr * pystr)) (g : pystr) (s s' : os) : Prop :=
  gid_of s g = None /\ exists n, gid_of s' g = Some n /\ decides opts (lit "--gid") (fun _ => True) number n.
Definition group_modified (opts : list (pystr * pystr)) (g : pystr) (s s' : os) : Prop :=
  (forall v, member s' g v <-> member s g v) /\
  exists m n, gid_of s g = Some m /\ gid_of s' g = Some n /\ decides opts (lit "--gid") (eq m) number n.
Definition group_deleted (g : pystr) (s s' : os) : Prop := gid_of s' g = None.

(** [promised exec cmd keep done]: [cmd OPTIONS -- NAME] keeps what [keep] says, and if it ends with 0, has done this. *)
Definition promised (exec : proc -> M xres) (cmd : pystr) (keep : pystr -> os -> os -> Prop) (done : list (pystr * pystr) -> pystr -> os -> os -> Prop) : Prop :=
  forall q s x s' args opts name, p_argv q = cmd :: args -> getopt args = (opts, [name]) -> exec q s = (x, s') ->
    keep name s s' /\ o_uid s' = o_uid s /\ forall out err, x = Ok (XExit 0 out err) -> done opts name s s'.
Record shadow_utils (exec : proc -> M xres) : Prop := {
  su_useradd : promised exec (lit "useradd") others user_added;
  su_usermod : promised exec (lit "usermod") others user_modified;
  su_userdel : promised exec (lit "userdel") others (fun _ => user_deleted);
  su_groupadd : promised exec (lit "groupadd") other_groups group_added;
  su_groupmod : promised exec (lit "groupmod") other_groups group_modified;
  su_groupdel : promised exec (lit "groupdel") other_groups (fun _ => group_deleted) }.

(** ** What is requested of an account *)
(** None, and in this model of the request also empty texts and lists and the number 0, ask for nothing. *)
Definition asks_text (o : option pystr) (v : pystr) : Prop := o = Some v /\ v <> [].
Definition asks_int (o : option Z) (z : Z) : Prop := o = Some z /\ z <> 0%Z.
Definition asks_list (o : option (list pystr)) (l : list pystr) : Prop := o = Some l /\ l <> [].
(** [o] asks for [now]; if it asks for nothing, [now] satisfies [d]. *)
Definition granted {A} (o : option pystr) (d : A -> Prop) (P : pystr -> A -> Prop) (now : A) : Prop :=
  (forall v, asks_text o v -> P v now) /\ ((forall v, ~ asks_text o v) -> d now).

(** The account [u] after it was asked for: it is complete, has what was requested, and otherwise what it had, or the defaults.
    Nothing else happened to accounts, and all groups keep their numbers. *)
Definition user_granted (u : pystr) (uid : option Z) (group : option pystr) (groups : option (list pystr)) (append : bool) (hash home shell comment : option pystr) (s s' : os) : Prop :=
  others u s s' /\ (forall x, x ∈ gids s -> x ∈ gids s') /\ exists b, complete s' u b /\
    ((forall z, asks_int uid z -> Z.of_N (pw_uid b) = z) /\ ((forall z, ~ asks_int uid z) -> forall a, entry s u = Some a -> pw_uid b = pw_uid a)) /\
    granted group (fun n => match entry s u with Some a => n = pw_gid a | None => (u, n) ∈ gids s' end) (fun g n => (g, n) ∈ gids s') (pw_gid b) /\
    granted comment (eq (default [] (pw_gecos <$> entry s u))) eq (pw_gecos b) /\
    granted home (eq (default (lit "/dev/null") (pw_dir <$> entry s u))) eq (pw_dir b) /\
    granted shell (eq (default (lit "/sbin/nologin") (pw_shell <$> entry s u))) eq (pw_shell b) /\
    granted hash (fun h => h = match entry s u with Some _ => secret s u | None => Some (lit "!") end) (fun v h => h = Some v) (secret s' u) /\
    forall g, member s' g u <-> (exists l, asks_list groups l /\ g ∈ l) \/ (((forall l, ~ asks_list groups l) \/ append = true) /\ member s g u).
(** What can be asked for. *)
Definition plain_request (s : os) (u : pystr) (group : option pystr) (groups : option (list pystr)) : Prop :=
  py_int 10 u = None /\ (forall g, asks_text group g -> tame g) /\ (forall l, asks_list groups l -> Forall tame l) /\
  (forall g, member s g u -> tame g /\ entry s u <> None) /\ forall a, entry s u = Some a -> complete s u a.
(** The group [g] after it was asked for: it has the requested number, otherwise the one it had; its members are the same. *)
Definition group_granted (g : pystr) (gid : option Z) (s s' : os) : Prop := exists n, gid_of s' g = Some n /\
  (forall z, asks_int gid z -> Z.of_N n = z) /\ ((forall z, ~ asks_int gid z) -> gid_of s g <> None -> gid_of s g = Some n) /\
  (gid_of s g <> None -> forall v, member s' g v <-> member s g v).
