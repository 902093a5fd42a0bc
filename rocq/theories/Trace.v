(** What fora says about an exception that ends a deploy.
    Modelled code: loader.py:108-147 (what [run_script] does with exceptions), operations/api.py:260-279, utils.py:231-281. *)
From stdpp Require Import list.
From Verif Require Import Base Logger.
Local Open Scope N_scope.

(** An [inspect.FrameInfo], as far as it is printed. *)
Record site := Site { s_file : pystr; s_line : N; s_function : pystr; s_context : option (list pystr) }.
(** An exception object with the attributes that are attached to it.  [x_from] is its identity: the [raise] of the user it comes
    from, None if fora raised it itself while handling another.  [x_printed]: [__fora_already_printed]; [x_stack]: [script_stack]. *)
Record exc := Exc { x_exn : exn; x_from : option nat; x_printed : bool; x_stack : option (list site) }.
(** [loader.script_stack], and the output of failed commands that was printed ([print_process_error]), with the exception. *)
Record told := Told { t_stack : list site; t_shown : list (option nat * (pystr * pystr)) }.
Definition M := told -> option exc * told.

(** [isinstance(e, Exception)] *)
Definition is_exception (e : exn) : bool := match e with SystemExit _ | Blocked | OutOfFuel => false | _ => true end.
(** loader.py:135-138 and api.py:271-273: print the output of a failed command, once.  The rules and the command line that
    [print_process_error] prints besides are left out. *)
Definition print_once (e : exc) (k : exc -> M) : M := fun t =>
  match x_exn e with
  | CalledProcessError _ out err _ =>
      if x_printed e then k e t
      else match process_error_shown out err with
           | Ok o => k (Exc (x_exn e) (x_from e) true (x_stack e)) (Told (t_stack t) (t_shown t ++ [(x_from e, o)]))
           | Err e' => (Some (Exc e' None false None), t)
           end
  | _ => k e t
  end.
(** loader.py:140-144 *)
Definition save_stack (e : exc) : M := fun t =>
  (Some (match x_stack e with Some _ => e | None => Exc (x_exn e) (x_from e) (x_printed e) (Some (t_stack t)) end), t).
(** loader.py:113, 134-147 [run_script]; [frame] is where it is called.  What else [run_script] does is in Control.v; if it fails
    this counts as a failure of the body. *)
Definition run_script (frame : site) (body : M) : M := fun t =>
  let '(r, t) := body (Told (t_stack t ++ [frame]) (t_shown t)) in
  let '(r, t) := match r with
                 | Some e => if is_exception (x_exn e) then print_once e save_stack t else (Some e, t)
                 | None => (None, t)
                 end in
  (r, Told (removelast (t_stack t)) (t_shown t)).
(** operations/api.py:260-279: exceptions of the function of an operation *)
Definition operation (body : M) : M := fun t =>
  let '(r, t) := body t in
  match r with Some e => print_once e (fun e t => (Some e, t)) t | None => (None, t) end.

(** What scripts do, as far as it matters here.  [Fail l e] raises a new exception; [l] tells the places apart.
    [Try b h again]: [try: b except Exception: h], with [raise] at the end of the handler if [again]. *)
Inductive deed :=
| Done
| Fail (l : nat) (e : exn)
| Seq (a b : deed)
| Call (frame : site) (b : deed)
| Operate (b : deed)
| Try (b h : deed) (again : bool).
Fixpoint eval (d : deed) : M :=
  match d with
  | Done => fun t => (None, t)
  | Fail l e => fun t => (Some (Exc e (Some l) false None), t)
  | Seq a b => fun t => let '(r, t) := eval a t in match r with Some e => (Some e, t) | None => eval b t end
  | Call frame b => run_script frame (eval b)
  | Operate b => operation (eval b)
  | Try b h again => fun t =>
      let '(r, t) := eval b t in
      match r with
      | Some e =>
          if is_exception (x_exn e) then
            let '(r, t) := eval h t in
            match r with Some e' => (Some e', t) | None => (if again then Some e else None, t) end
          else (Some e, t)
      | None => (None, t)
      end
  end.

(** utils.py:243-248 [format_frame] *)
Definition format_frame (f : site) : pystr :=
  lit "  File """ ++ s_file f ++ lit """, line " ++ str_of_N (s_line f) ++ lit ", in " ++ s_function f ++ [10] ++
  match s_context f with Some l => List.concat (List.map (fun c => lit "    " ++ strip c ++ [10]) l) | None => [] end.
(** utils.py:231-254 [script_trace] without the root *)
Definition script_trace (stack : list site) : pystr :=
  removelast (lit "Script stack (most recent call last):" ++ [10] ++ List.concat (List.map format_frame (tail stack))).
(** utils.py:256-281 [print_exception].  A traceback is the list of its frames, the outermost first; of a frame it matters whether
    it runs a dynamically loaded module ([dynamic]).  The script stack that is printed, and the frames. *)
Section print_exception.
  Context {F : Type} (dynamic : F -> bool).
  (** 264-268 *)
  Fixpoint last_dynamic (tb : list F) (found : option (list F)) : option (list F) :=
    match tb with [] => found | f :: r => last_dynamic r (if dynamic f then Some tb else found) end.
  Definition print_exception (e : exc) (tb : list F) : option pystr * list F :=
    (match x_stack e with Some s => if (1 <? length s)%nat then Some (script_trace s) else None | None => None end,
     match last_dynamic tb None with Some l => l | None => tb end).
End print_exception.
