(** * Which commands an operation runs, and what package managers do *)
From stdpp Require Import gmap.
From Verif Require Import Base Codec Spec_Codec Sys Spec_Sys Dispatcher Client Spec_Remote Control Op Spec_Files.

(** [history exec s l s']: the system came from [s] to [s'] by running exactly the commands [l], in this order.  Apart from
    that, nothing happened to it. *)
Inductive history (exec : proc -> M xres) : os -> list (list pystr) -> os -> Prop :=
| history_none s s' : unaffected s s' -> history exec s [] s'
| history_run s s1 p x s2 l s' : unaffected s s1 -> exec p s1 = (x, s2) -> history exec s2 l s' -> history exec s (p_argv p :: l) s'.

(** Exit codes and output fit into messages. *)
Definition bounded (exec : proc -> M xres) : Prop := forall p s rc out err s', exec p s = (Ok (XExit rc out err), s') ->
  in_i32 rc /\ small out /\ small err.

(** ** Package managers *)
(** [has s p]: the package [p] is installed. *)
Section manager.
  Variable exec : proc -> M xres.
  Variable has : os -> pystr -> Prop.
  Definition stable : Prop := forall s s' p, unaffected s s' -> has s p -> has s' p.
  (** The command tells whether a package is installed, and does nothing else: [says rc out b]: a command that ended
      with [rc] and wrote [out] gave the answer [b]. *)
  Definition answers (query : pystr -> list pystr) (says : Z -> bytes -> bool -> Prop) : Prop := forall p q s x s',
    p_argv q = query p -> exec q s = (x, s') ->
    unaffected s s' /\ forall rc out err b, x = Ok (XExit rc out err) -> says rc out b -> (b = true <-> has s p).
  (** After the command ended with 0 the package is installed; no package is removed. *)
  Definition installs (cmd : pystr -> list pystr) : Prop := forall p q s x s',
    p_argv q = cmd p -> exec q s = (x, s') -> (forall o, has s o -> has s' o) /\ forall out err, x = Ok (XExit 0 out err) -> has s' p.
  Definition removes (cmd : pystr -> list pystr) : Prop := forall p q s x s',
    p_argv q = cmd p -> exec q s = (x, s') -> (forall o, has s' o -> has s o) /\ forall out err, x = Ok (XExit 0 out err) -> ~ has s' p.
  (** The command ends with 0 (and an answer, for queries) and disturbs nothing that is needed to run further commands. *)
  Definition dependable (argv : list pystr) (good : Z -> bytes -> Prop) : Prop := forall q s,
    p_argv q = argv -> o_faults s = [] ->
    exists rc out err s', exec q s = (Ok (XExit rc out err), s') /\ good rc out /\ o_faults s' = [] /\ o_uid s' = o_uid s /\
      forall d, runnable s d -> runnable s' d.
  (** what a package lacks: to be installed, or to be removed *)
  Definition lacks (present : bool) (s : os) (p : pystr) : Prop := if present then ~ has s p else has s p.
  (** A run of a package operation: [query] and [cmd] are the commands for one package.
      It first asks for packages, in the given order, and then changes some of them: only given ones that lack the change, each
      once.  If it succeeds, all of them were asked for, those that lacked it were changed, and none lacks it any more; it
      reports a change only if there was one. *)
  Definition package_outcome (query cmd : pystr -> list pystr) (packages : list pystr) (present : bool) (s : os) (l : list (list pystr)) (s' : os) (r : result opres) : Prop :=
    exists asked acted, l = (query <$> asked) ++ (cmd <$> acted) /\ asked `prefix_of` packages /\ NoDup acted /\
      (forall p, p ∈ acted -> p ∈ packages /\ lacks present s p) /\
      (forall o, if present then has s o -> has s' o else has s' o -> has s o) /\
      (acted = [] -> unaffected s s') /\
      forall x, r = Ok x -> or_success x = true /\ asked = packages /\ (forall p, p ∈ packages -> lacks present s p -> p ∈ acted) /\
        (forall p, p ∈ packages -> if present then has s' p else ~ has s' p) /\
        (or_changed x = false -> acted = []) /\ (present = false \/ NoDup packages -> acted = [] -> or_changed x = false).
End manager.
(** pacman tells by its exit code, emerge by what it writes. *)
Definition by_code (rc : Z) (out : bytes) (b : bool) : Prop := b = true <-> rc = 0%Z.
Definition by_text (text : bytes) (rc : Z) (out : bytes) (b : bool) : Prop := rc = 0%Z /\ (b = true <-> exists x y, out = x ++ text ++ y).
Definition ended (rc : Z) (out : bytes) : Prop := rc = 0%Z.
(** Commands that can be sent and run. *)
Definition sendable (argv : list pystr) : Prop := argv <> [] /\ small argv /\ Forall c_string argv.

(** The commands of the package managers, for one package. *)
Definition pacman_ask (p : pystr) : list pystr := [lit "pacman"; lit "-Ql"; lit "--"; p].
Definition pacman_sync (opts : list pystr) (p : pystr) : list pystr :=
  [lit "pacman"; lit "--color"; lit "always"; lit "--noconfirm"; lit "-S"] ++ opts ++ [lit "--"; p].
Definition pacman_erase (opts : list pystr) (p : pystr) : list pystr :=
  [lit "pacman"; lit "--color"; lit "always"; lit "--noconfirm"; lit "-Rns"] ++ opts ++ [lit "--"; p].
Definition emerge_ask (p : pystr) : list pystr := [lit "emerge"; lit "--info"; lit "--"; p].
Definition emerge_add (oneshot : bool) (opts : list pystr) (p : pystr) : list pystr :=
  [lit "emerge"; lit "--color=y"; lit "--verbose"] ++ (if oneshot then [lit "--oneshot"] else []) ++ opts ++ [lit "--"; p].
Definition emerge_erase (opts : list pystr) (p : pystr) : list pystr :=
  [lit "emerge"; lit "--color=y"; lit "--verbose"; lit "--depclean"] ++ opts ++ [lit "--"; p].
