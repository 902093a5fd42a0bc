(** Deploy scripts that set up groups, accounts, packages and units: what it means that their steps do not disturb one another. *)
From stdpp Require Import gmap.
From Verif Require Import Base Codec Sys Spec_Sys Dispatcher Client Control Op Spec_Files Spec_Commands Spec_Service Spec_Account.
Local Open Scope nat_scope.

(** No two groups have the same name or number. *)
Definition tidy (s : os) : Prop := NoDup (gids s).*1 /\ NoDup (gids s).*2.

Section separate.
  Variable exec : proc -> M xres.
  Variable has : os -> pystr -> Prop.
  Variable value : properties.
  (** the units of the script *)
  Variable units : list pystr.
  (** Accounts that exist stay as they are, and so do the numbers of groups; others may be added. *)
  Definition keeps_accounts (s s' : os) : Prop :=
    (forall u a, entry s u = Some a -> entry s' u = Some a /\ secret s' u = secret s u /\ forall g, member s' g u <-> member s g u) /\
    forall x, x ∈ gids s -> x ∈ gids s'.
  Definition keeps_packages (s s' : os) : Prop := forall p, has s' p <-> has s p.
  Definition keeps_unit (u : pystr) (s s' : os) : Prop :=
    (running value s' false u <-> running value s false u) /\ (enabled value s' false u <-> enabled value s false u).
  Definition keeps_units (s s' : os) : Prop := forall u, u ∈ units -> keeps_unit u s s'.
  (** [prog] with any arguments, and however it ends *)
  Definition confined (prog : pystr) (P : os -> os -> Prop) : Prop := forall q s x s', head (p_argv q) = Some prog -> exec q s = (x, s') -> P s s'.
  (** Programs for accounts, packages and units keep to their own trade.  A unit is not started or stopped along with others of the script. *)
  Record separate : Prop := {
    sep_accounts : forall prog, prog ∈ [lit "useradd"; lit "usermod"; lit "groupadd"; lit "groupmod"] -> confined prog (fun s s' => keeps_packages s s' /\ keeps_units s s');
    sep_packages : confined (lit "pacman") (fun s s' => keeps_accounts s s' /\ keeps_units s s');
    sep_units : confined (lit "systemctl") (fun s s' => keeps_accounts s s' /\ keeps_packages s s');
    sep_unit : forall q s x s' verb unit u, p_argv q = verb_cmd false verb unit -> u <> unit -> u ∈ units -> exec q s = (x, s') -> keeps_unit u s s' }.
End separate.
