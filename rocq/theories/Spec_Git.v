(** * Repositories, checkouts, and what git does *)
From stdpp Require Import gmap.
From Verif Require Import Base Codec Paths Sys Spec_Sys Dispatcher Client Spec_Remote Control Op Spec_Files Spec_Commands Spec_Account Spec_Service.

(** A repository that can be fetched: its references with their objects (the commit of an annotated tag has the name of the tag
    followed by "^{}"), and the name of the reference that HEAD stands for. *)
Record upstream := Upstream { up_refs : list (pystr * pystr); up_head : pystr }.
(** A checkout: where it comes from, which reference of that repository it follows (if any), and its commit. *)
Record work := Work { w_origin : pystr; w_follows : option pystr; w_head : pystr }.

Definition heads (b : pystr) : pystr := lit "refs/heads/" ++ b.
Definition tags (b : pystr) : pystr := lit "refs/tags/" ++ b.
(** The newest commit of the requested branch or tag. *)
Definition tip (u : upstream) (branch : option pystr) : option pystr :=
  match branch with
  | None => dget (up_head u) (up_refs u)
  | Some b =>
      match dget (heads b) (up_refs u) with
      | Some h => Some h
      | None => match dget (tags b ++ lit "^{}") (up_refs u) with Some h => Some h | None => dget (tags b) (up_refs u) end
      end
  end.
(** What a new checkout of it follows. *)
Definition branch_ref (u : upstream) (branch : option pystr) : option pystr :=
  match branch with
  | None => Some (up_head u)
  | Some b => match dget (heads b) (up_refs u) with Some _ => Some (heads b) | None => None end
  end.

(** What the repository tells; git selects references by the end of their name. *)
Definition advertised (u : upstream) : list (pystr * pystr) :=
  match dget (up_head u) (up_refs u) with Some h => [(lit "HEAD", h)] | None => [] end ++ up_refs u.
Definition called (pat : pystr) (r : pystr * pystr) : Prop := (slash :: pat) `suffix_of` (slash :: r.1).
Global Instance called_dec pat r : Decision (called pat r). Proof. unfold called. apply _. Defined.
Definition chosen (u : upstream) (pat : pystr) : list (pystr * pystr) := filter (called pat) (advertised u).
Definition lines (l : list (pystr * pystr)) : bytes := mjoin ((fun r => List.map n2b r.2 ++ [n2b 9] ++ List.map n2b r.1 ++ [n2b 10]) <$> l).
Definition literal (pat : pystr) : Prop := Forall (fun c => c ∉ [42%N; 63%N; 91%N; 92%N]) pat.
Definition id_text (t : pystr) : Prop := visible t /\ t <> [].

(** ** The commands *)
Definition git_head (path : pystr) : list pystr := [lit "git"; lit "-C"; path; lit "rev-parse"; lit "HEAD"].
Definition git_list (url pat : pystr) : list pystr := [lit "git"; lit "ls-remote"; lit "--exit-code"; lit "--"; url; pat].
Definition git_origin (path : pystr) : list pystr := [lit "git"; lit "-C"; path; lit "config"; lit "--get"; lit "remote.origin.url"].
Definition with_depth (depth : option Z) : list pystr := match depth with Some d => [lit "--depth"; str_of_Z d] | None => [] end.
Definition git_pull (path : pystr) (depth : option Z) (rebase ff_only : bool) : list pystr :=
  [lit "git"; lit "-C"; path; lit "pull"] ++ with_depth depth ++ (if rebase then [lit "--rebase"] else []) ++ (if ff_only then [lit "--ff-only"] else []).
Definition git_submodules (path : pystr) (depth : option Z) (recursive : bool) : list pystr :=
  [lit "git"; lit "-C"; path; lit "submodule"; lit "update"; lit "--init"] ++ with_depth depth ++ (if recursive then [lit "--recursive"] else []).
Definition git_clone (url path : pystr) (branch : option pystr) (depth : option Z) : list pystr :=
  [lit "git"; lit "clone"] ++ with_depth depth ++ match branch with Some b => [lit "--branch"; b] | None => [] end ++ [lit "--"; url; path].

(** ** What git does: repositories elsewhere, the checkouts of a system, and which commit is part of the history of which other *)
Record git_program (exec : proc -> M xres) (up : os -> pystr -> upstream) (checkout : os -> pystr -> option work) (behind : pystr -> pystr -> Prop) : Prop := {
  g_stable s s' : unaffected s s' -> up s' = up s /\ checkout s' = checkout s;
  (* the questions *)
  g_head q s x s' path : p_argv q = git_head path -> exec q s = (x, s') ->
    unaffected s s' /\ forall out err, x = Ok (XExit 0 out err) -> exists w, checkout s path = Some w /\ id_text (w_head w) /\ out = List.map n2b (w_head w) ++ [n2b 10];
  g_list q s x s' url pat : p_argv q = git_list url pat -> exec q s = (x, s') ->
    unaffected s s' /\ forall out err, x = Ok (XExit 0 out err) -> literal pat ->
      chosen (up s url) pat <> [] /\ Forall (fun r => id_text r.1 /\ id_text r.2) (chosen (up s url) pat) /\ out = lines (chosen (up s url) pat);
  g_origin q s x s' path : p_argv q = git_origin path -> exec q s = (x, s') ->
    unaffected s s' /\ forall out err, x = Ok (XExit 0 out err) -> exists w, checkout s path = Some w /\ id_text (w_origin w) /\ out = List.map n2b (w_origin w) ++ [n2b 10];
  (* a new checkout, where there was none *)
  g_clone q s x s' args opts url path : p_argv q = lit "git" :: lit "clone" :: args -> getopt args = (opts, [url; path]) -> exec q s = (x, s') ->
    up s' = up s /\ forall out err, x = Ok (XExit 0 out err) -> checkout s path = None /\
      exists h, tip (up s url) (dget (lit "--branch") opts) = Some h /\
        checkout s' path = Some (Work url (branch_ref (up s url) (dget (lit "--branch") opts)) h);
  (* a checkout that has no commits of its own gets those of the branch that it follows *)
  g_pull q s x s' path depth rebase ff : p_argv q = git_pull path depth rebase ff -> exec q s = (x, s') ->
    up s' = up s /\ forall out err, x = Ok (XExit 0 out err) ->
      exists w f t h, checkout s path = Some w /\ w_follows w = Some f /\ dget f (up_refs (up s (w_origin w))) = Some t /\
        checkout s' path = Some (Work (w_origin w) (Some f) h) /\ (behind (w_head w) t -> h = t);
  g_submodules q s x s' path depth recursive : p_argv q = git_submodules path depth recursive -> exec q s = (x, s') ->
    up s' = up s /\ checkout s' path = checkout s path }.

(** ** A run of git.repo *)
(** What is run if a checkout is there or not, and if it [lags]: its commit is not the one that was found for the branch. *)
Definition submodule_plan (path : pystr) (depth : option Z) (submodules recursive shallow : bool) : list (list pystr) :=
  if submodules then [git_submodules path (if shallow then depth else None) recursive] else [].
Definition repo_plan (url path : pystr) (branch : option pystr) (update : bool) (depth : option Z) (rebase ff submodules recursive shallow there lags : bool) : list (list pystr) :=
  let ask := git_list url (match branch with Some ((_ :: _) as b) => b | _ => lit "HEAD" end) in
  if there then
    git_head path ::
      if update then ask :: if lags then [git_origin path; git_pull path depth rebase ff] ++ submodule_plan path depth submodules recursive shallow else [] else []
  else [ask; git_clone url path branch depth] ++ submodule_plan path depth submodules recursive shallow.
(** the commands that only ask *)
Definition asking_only (url path : pystr) (l : list (list pystr)) : Prop := forall cmd, cmd ∈ l -> cmd = git_head path \/ cmd = git_origin path \/ exists pat, cmd = git_list url pat.

(** The requested branch can be told from its name: all references that are called so are at its commit. *)
Definition distinct (u : upstream) (branch : option pystr) : Prop :=
  forall r, r ∈ advertised u -> called (match branch with Some ((_ :: _) as b) => b | _ => lit "HEAD" end) r -> tip u branch = Some r.2.
(** The checkout follows the requested branch and has no commits of its own. *)
Definition follows (behind : pystr -> pystr -> Prop) (u : upstream) (branch : option pystr) (w : work) : Prop :=
  w_follows w = branch_ref u branch /\ forall t, tip u branch = Some t -> behind (w_head w) t.
(** The checkout is at the newest commit of the requested branch. *)
Definition current (up : os -> pystr -> upstream) (checkout : os -> pystr -> option work) (url path : pystr) (branch : option pystr) (s : os) : Prop :=
  exists w, checkout s path = Some w /\ tip (up s url) branch = Some (w_head w).
(** The command ends with 0 if it is run on the system as it is. *)
Definition answered (exec : proc -> M xres) (s : os) (cmd : list pystr) : Prop :=
  forall q, p_argv q = cmd -> exists out err s', exec q s = (Ok (XExit 0 out err), s') /\ o_faults s' = [].
Definition directory_at (s : os) (path : pystr) : Prop := exists pl n, sees s path pl n /\ n_kind n = KDir.
(** A run of the operation, for any outcome: a beginning of the plan was run.  If it succeeds, the whole plan was run, and the
    checkout is at the newest commit of the branch; a change is reported just if it was not before. *)
Definition repo_outcome (up : os -> pystr -> upstream) (checkout : os -> pystr -> option work) (behind : pystr -> pystr -> Prop)
  (url path : pystr) (branch : option pystr) (update : bool) (depth : option Z) (rebase ff submodules recursive shallow : bool)
  (s : os) (l : list (list pystr)) (s' : os) (r : result opres) : Prop :=
  exists there lags : bool,
    l `prefix_of` repo_plan url path branch update depth rebase ff submodules recursive shallow there lags /\
    up s' = up s /\ (asking_only url path l -> unaffected s s') /\
    (os_ok s -> honest s -> l <> [] -> if there then directory_at s path /\ directory_at s (path_join path (lit ".git")) else sees_none s path) /\
    forall x, r = Ok x ->
      (or_success x = false -> asking_only url path l /\ or_changed x = false) /\
      (or_success x = true ->
        l = repo_plan url path branch update depth rebase ff submodules recursive shallow there lags /\ or_changed x = negb there || (update && lags) /\
        (literal (default [] branch) -> distinct (up s url) branch -> there = false \/ update = true ->
          ((forall w, checkout s path = Some w -> w_origin w = url -> follows behind (up s url) branch w) -> current up checkout url path branch s') /\
          (or_changed x = false <-> current up checkout url path branch s))).
