(** * Operations that are tried again and again *)
From stdpp Require Import gmap.
From Verif Require Import Base Codec Sys Spec_Sys Dispatcher Client Control Op Spec_Files Spec_Commands Spec_Account Spec_Service Spec_Git.

(** The operation was tried any number of times, with any outcome (success, failure, an exception, a connection that broke), each
    time perhaps from another session.  In between nothing else happened to the system. *)
Inductive tries (op : check_arg -> ctl -> result opres * ctl) : os -> os -> Prop :=
| tries_none s s' : unaffected s s' -> tries op s s'
| tries_more s a c r c' s' : unaffected s (sysof c) -> op a c = (r, c') -> tries op (sysof c') s' -> tries op s s'.

(** However it ends: a command that starts or stops units leaves their enablement alone, and the other way round. *)
Definition confined_verbs (exec : proc -> M xres) (value : properties) : Prop := forall q s x s' user unit verb,
  p_argv q = verb_cmd user verb unit -> exec q s = (x, s') ->
  (verb ∈ [lit "start"; lit "restart"; lit "reload"; lit "stop"] -> enabled value s' user unit <-> enabled value s user unit) /\
  (verb ∈ [lit "enable"; lit "disable"] -> running value s' user unit <-> running value s user unit).

(** However they end: git clone makes the whole checkout or none (git removes what it made of a clone that failed or got a signal), and git pull moves the
    checkout or leaves it where it is. *)
Record git_atomic (exec : proc -> M xres) (up : os -> pystr -> upstream) (checkout : os -> pystr -> option work) (behind : pystr -> pystr -> Prop) : Prop := {
  ga_clone q s x s' args opts url path : p_argv q = lit "git" :: lit "clone" :: args -> getopt args = (opts, [url; path]) -> exec q s = (x, s') ->
    checkout s' path = checkout s path \/
    exists h, tip (up s url) (dget (lit "--branch") opts) = Some h /\ checkout s' path = Some (Work url (branch_ref (up s url) (dget (lit "--branch") opts)) h);
  ga_pull q s x s' path depth rebase ff : p_argv q = git_pull path depth rebase ff -> exec q s = (x, s') ->
    checkout s' path = checkout s path \/
    exists w f t h, checkout s path = Some w /\ w_follows w = Some f /\ dget f (up_refs (up s (w_origin w))) = Some t /\
      checkout s' path = Some (Work (w_origin w) (Some f) h) /\ (behind (w_head w) t -> h = t) }.

(** [ready s path]: the submodules of the checkout are there. *)
Definition fills_submodules (exec : proc -> M xres) (ready : os -> pystr -> Prop) : Prop :=
  (forall s s' path, unaffected s s' -> ready s path <-> ready s' path) /\
  forall q s out err s' path depth recursive, p_argv q = git_submodules path depth recursive -> exec q s = (Ok (XExit 0 out err), s') -> ready s' path.
