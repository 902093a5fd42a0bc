(** * Units of systemd *)
From stdpp Require Import gmap.
From Verif Require Import Base Codec Sys Spec_Sys Dispatcher Client Control Op Spec_Files Spec_Commands.

(** [value s user prop unit]: the property of the unit, of the system or of the user's own service manager. *)
Definition properties : Type := os -> bool -> pystr -> pystr -> pystr.
Definition running (value : properties) (s : os) (user : bool) (unit : pystr) : Prop :=
  value s user (lit "ActiveState") unit = lit "active" \/ value s user (lit "ActiveState") unit = lit "activating".
Definition enabled (value : properties) (s : os) (user : bool) (unit : pystr) : Prop := value s user (lit "UnitFileState") unit = lit "enabled".

(** the commands *)
Definition manager_of (user : bool) : list pystr := if user then [lit "systemctl"; lit "--user"] else [lit "systemctl"].
Definition show_cmd (user : bool) (prop unit : pystr) : list pystr := manager_of user ++ [lit "show"; lit "--value"; lit "--property"; prop; lit "--"; unit].
Definition verb_cmd (user : bool) (verb unit : pystr) : list pystr := manager_of user ++ [verb; lit "--"; unit].

(** Values are words, or empty. *)
Definition visible (t : pystr) : Prop := Forall (fun c => (32 < c < 127)%N) t.
(** "systemctl show" writes the value on a line, and does nothing else. *)
Definition shows (exec : proc -> M xres) (value : properties) : Prop := forall q s x s' user prop unit,
  p_argv q = show_cmd user prop unit -> exec q s = (x, s') ->
  unaffected s s' /\ visible (value s user prop unit) /\
  forall out err, x = Ok (XExit 0 out err) -> out = List.map n2b (value s user prop unit) ++ [n2b 10].
(** The commands that change a unit change this aspect of it. *)
Definition obeys (exec : proc -> M xres) (value : properties) : Prop := forall q s out err s' user unit verb,
  p_argv q = verb_cmd user verb unit -> exec q s = (Ok (XExit 0 out err), s') ->
  (verb ∈ [lit "start"; lit "restart"; lit "reload"] -> running value s' user unit /\ (enabled value s' user unit <-> enabled value s user unit)) /\
  (verb = lit "stop" -> ~ running value s' user unit /\ (enabled value s' user unit <-> enabled value s user unit)) /\
  (verb = lit "enable" -> enabled value s' user unit /\ (running value s' user unit <-> running value s user unit)) /\
  (verb = lit "disable" -> ~ enabled value s' user unit /\ (running value s' user unit <-> running value s user unit)).
Definition value_stable (value : properties) : Prop := forall s s' user prop unit, unaffected s s' -> value s' user prop unit = value s user prop unit.

(** The requested state: "restarted" and "reloaded" are never given already. *)
Definition state_given (value : properties) (s : os) (user : bool) (unit : pystr) (state : pystr) : Prop :=
  (state = lit "started" /\ running value s user unit) \/ (state = lit "stopped" /\ ~ running value s user unit).
Definition enabled_given (value : properties) (s : os) (user : bool) (unit : pystr) (e : bool) : Prop := enabled value s user unit <-> e = true.
Definition verb_of (state verb : pystr) : Prop :=
  (state, verb) ∈ [(lit "started", lit "start"); (lit "restarted", lit "restart"); (lit "reloaded", lit "reload"); (lit "stopped", lit "stop")].

(** What is done about the state and about the enablement of a unit that the system knows as in [s]; with [user_mode] the user's
    service manager is addressed. *)
Definition state_action (value : properties) (s : os) (user_mode : bool) (unit : pystr) (target : option pystr) (l : list (list pystr)) : Prop :=
  match target with
  | None => l = []
  | Some t => (state_given value s false unit t /\ l = []) \/
              (~ state_given value s false unit t /\ exists v, verb_of t v /\ l = [verb_cmd user_mode v unit])
  end.
Definition enable_action (value : properties) (s : os) (user_mode : bool) (unit : pystr) (en : option bool) (l : list (list pystr)) : Prop :=
  match en with
  | None => l = []
  | Some e => (enabled_given value s false unit e /\ l = []) \/
              (~ enabled_given value s false unit e /\ l = [verb_cmd user_mode (if e then lit "enable" else lit "disable") unit])
  end.
(** at most one command, which succeeded *)
Definition performed (exec : proc -> M xres) (l : list (list pystr)) (s s' : os) : Prop :=
  match l with
  | [] => unaffected s s'
  | [cmd] => exists p s1 out err, unaffected s s1 /\ exec p s1 = (Ok (XExit 0 out err), s') /\ p_argv p = cmd
  | _ => False
  end.
(** A run of systemd.service: the unit is looked at, and each requested aspect that is not given is brought about.  If something
    fails the rest is left out; otherwise everything is done, and "unchanged" is reported if both aspects were requested and given. *)
Definition service_outcome (exec : proc -> M xres) (value : properties) (unit : pystr) (target : option pystr) (en : option bool) (user_mode : bool) (s s' : os) (r : result opres) : Prop :=
  exists l l1 l2, history exec s l s' /\
    state_action value s user_mode unit target l1 /\ enable_action value s user_mode unit en l2 /\
    l `prefix_of` [show_cmd false (lit "ActiveState") unit; show_cmd false (lit "UnitFileState") unit] ++ l1 ++ l2 /\
    forall x, r = Ok x -> or_success x = true /\
      l = [show_cmd false (lit "ActiveState") unit; show_cmd false (lit "UnitFileState") unit] ++ l1 ++ l2 /\
      (or_changed x = false <-> (exists t, target = Some t /\ state_given value s false unit t) /\ (exists e, en = Some e /\ enabled_given value s false unit e)) /\
      exists s1, performed exec l1 s s1 /\ performed exec l2 s1 s'.
