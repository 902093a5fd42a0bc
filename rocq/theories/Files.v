(** operations/files.py and the parts of operations/utils.py that it uses. *)
From stdpp Require Import gmap.
From Verif Require Import Base Utf8 Codec Paths Sys Dispatcher Client Control Op.

(** an optional string as a value, and in an f-string *)
Definition vopt (o : option pystr) : pv := match o with None => VNone | Some s => VStr s end.
Definition vbytes (o : option bytes) : pv := match o with None => VNone | Some s => VBytes s end.
Definition show_opt (o : option pystr) : pystr := default (lit "None") o.

(** [os.path.basename] (unlike the program of the same name) *)
Definition py_basename (p : pystr) : pystr := default [] (last (split_char slash p)).
(** [os.path.dirname]: up to the last slash, without slashes at the end unless there is nothing else *)
Fixpoint from_slash (p : pystr) : pystr := match p with [] => [] | c :: r => if (c =? slash)%N then p else from_slash r end.
Fixpoint no_slashes (p : pystr) : pystr := match p with c :: r => if (c =? slash)%N then no_slashes r else p | [] => [] end.
Definition py_dirname (p : pystr) : pystr :=
  let head := from_slash (rev p) in rev (match no_slashes head with [] => head | d => d end).
(** [os.path.normpath] of an absolute path: a second slash at the beginning is kept (POSIX) *)
Fixpoint norm_comps (acc : list pystr) (l : list pystr) : list pystr :=
  match l with
  | [] => rev acc
  | c :: r =>
      if str_eqb c [] || str_eqb c (lit ".") then norm_comps acc r
      else if str_eqb c (lit "..") then norm_comps (tail acc) r
      else norm_comps (c :: acc) r
  end.
Definition normpath (p : pystr) : pystr :=
  let prefix := if startswith p (lit "//") && negb (startswith p (lit "///")) then lit "//" else lit "/" in
  prefix ++ join_str (lit "/") (norm_comps [] (split_char slash p)).

(** The local side of upload_dir: a directory tree as [os.walk] sees it. *)
Inductive ltree :=
| LFile (b : bytes)                         (* a regular file *)
| LDir (entries : list (pystr * ltree))     (* a directory, in the order of listing *)
| LLinkFile (b : bytes)                     (* a symbolic link to a regular file *)
| LLinkDir                                  (* a symbolic link to a directory, which is not followed *)
| LSpecial.                                 (* sockets, broken links and the like *)
Definition l_isdir (t : ltree) : bool := match t with LDir _ | LLinkDir => true | _ => false end.
(** what [open(...).read()] gives, if [os.path.isfile] *)
Definition l_content (t : ltree) : option bytes := match t with LFile b | LLinkFile b => Some b | _ => None end.

Section files.
  Variable exec : proc -> M xres.
  Variable sha512 : bytes -> bytes.
  (** [fora.args.dry], [fora.args.diff] *)
  Variable dry want_diff : bool.

  Notation stat := (stat exec sha512).
  (** [conn.run(cmd)] *)
  Definition crun (cmd : list pystr) : W completed := run exec sha512 cmd None true true None None None None.
  (** an element of a command that may be None: the command cannot be sent *)
  Definition arg (o : option pystr) (k : pystr -> W completed) : W unit :=
    match o with Some x => _ ← k x; mret tt | None => wraise AttributeError end.
  Definition sh (cmd : list pystr) : W unit := _ ← crun cmd; mret tt.
  (** api.py:84-102 [op.defaults]: [fora.script.defaults] *)
  Definition op_defaults {A} (q : settings) (body : settings -> O A) : O A := fun o =>
    script_defaults exec sha512 q (fun attr => body attr o).
  Definition owner_spec (attr : settings) : pystr := show_opt (s_owner attr) ++ lit ":" ++ show_opt (s_group attr).
  Definition when (b : O bool) (m : W unit) : O unit := x ← b; if x : bool then olift m else mret tt.
  Definition either (a b : O bool) : O bool := x ← a; if x : bool then mret true else b.
  Definition both (a b : O bool) : O bool := x ← a; if x : bool then b else mret false.
  Definition nope (a : O bool) : O bool := x ← a; mret (negb x).

  (** utils.py:181-195 *)
  Definition check_absolute_path (path : pystr) : W unit :=
    match path with
    | [] => wraise (ValueError (lit "Path must be non-empty"))
    | c :: _ => if (c =? slash)%N then mret tt else wraise (ValueError (lit "Path must be absolute"))
    end.

  (** files.py:55-144 *)
  Definition s_exists := lit "exists". Definition s_mode := lit "mode". Definition k_owner := lit "owner".
  Definition k_group := lit "group". Definition s_touched := lit "touched". Definition s_target := lit "target". Definition s_sha := lit "sha512".
  Definition file_state (exists_ : bool) (mode owner group : option pystr) (touched : bool) : state :=
    [(s_exists, VBool exists_); (s_mode, vopt mode); (k_owner, vopt owner); (k_group, vopt group); (s_touched, VBool touched)].
  Definition directory (path : pystr) (present touch : bool) (mode owner group : option pystr) : O opres :=
    _ ← olift (check_absolute_path path);
    op_defaults (Settings None None owner group None mode None None) (fun attr =>
      _ ← final_state (if present then file_state true (s_dir_mode attr) (s_owner attr) (s_group attr) touch
                       else file_state false None None None false);
      st ← olift (stat path false false);
      let continue :=
        u ← unchanged false;
        if u : bool then success
        else
          _ ← (if dry then mret tt
               else if present then
                 _ ← when (changed s_exists) (sh [lit "mkdir"; lit "--"; path]);
                 _ ← when (changed s_mode) (arg (s_dir_mode attr) (fun m => crun [lit "chmod"; m; lit "--"; path]));
                 _ ← when (either (changed k_owner) (changed k_group)) (sh [lit "chown"; owner_spec attr; lit "--"; path]);
                 when (both (nope (changed s_exists)) (changed s_touched)) (sh [lit "touch"; lit "--"; path])
               else when (changed s_exists) (sh [lit "rm"; lit "-rf"; lit "--"; path]));
          success in
      match st with
      | None => _ ← initial_state (file_state false None None None false); continue
      | Some st =>
          if negb (str_eqb (st_type st) (lit "dir")) then failure (lit "path '" ++ path ++ lit "' exists but is not a directory!")
          else _ ← initial_state (file_state true (Some (st_mode st)) (Some (st_owner st)) (Some (st_group st)) false); continue
      end).

  (** 146-230 *)
  Definition file (path : pystr) (present touch : bool) (mode owner group : option pystr) : O opres :=
    _ ← olift (check_absolute_path path);
    op_defaults (Settings None None owner group mode None None None) (fun attr =>
      _ ← final_state (if present then file_state true (s_file_mode attr) (s_owner attr) (s_group attr) touch
                       else file_state false None None None false);
      st ← olift (stat path false false);
      let continue :=
        u ← unchanged false;
        if u : bool then success
        else
          _ ← (if dry then mret tt
               else if present then
                 _ ← when (either (changed s_exists) (changed s_touched)) (sh [lit "touch"; lit "--"; path]);
                 _ ← when (changed s_mode) (arg (s_file_mode attr) (fun m => crun [lit "chmod"; m; lit "--"; path]));
                 when (either (changed k_owner) (changed k_group)) (sh [lit "chown"; owner_spec attr; lit "--"; path])
               else when (changed s_exists) (sh [lit "rm"; lit "--"; path]));
          success in
      match st with
      | None => _ ← initial_state (file_state false None None None false); continue
      | Some st =>
          if negb (str_eqb (st_type st) (lit "file")) then failure (lit "path '" ++ path ++ lit "' exists but is not a file!")
          else _ ← initial_state (file_state true (Some (st_mode st)) (Some (st_owner st)) (Some (st_group st)) false); continue
      end).

  (** 232-319 *)
  Definition link_state (exists_ : bool) (target owner group : option pystr) (touched : bool) : state :=
    [(s_exists, VBool exists_); (s_target, vopt target); (k_owner, vopt owner); (k_group, vopt group); (s_touched, VBool touched)].
  (** 294 [(existing_target.stdout or b"").decode()] *)
  Definition decoded (b : option bytes) : W pystr :=
    match utf8_decode (default [] b) with Some t => mret t | None => wraise UnicodeDecodeError end.
  Definition link (path target : pystr) (present touch : bool) (owner group : option pystr) : O opres :=
    _ ← olift (check_absolute_path path);
    _ ← (match target with [] => oraise (ValueError (lit "Link target cannot be empty")) | _ => mret tt end);
    op_defaults (Settings None None owner group None None None None) (fun attr =>
      _ ← final_state (if present then link_state true (Some target) (s_owner attr) (s_group attr) touch
                       else link_state false None None None false);
      st ← olift (stat path false false);
      let continue :=
        u ← unchanged false;
        if u : bool then success
        else
          _ ← (if dry then mret tt
               else if present then
                 _ ← when (changed s_target) (sh [lit "ln"; lit "-sf"; lit "--"; target; path]);
                 _ ← when (either (changed k_owner) (changed k_group))
                       (sh [lit "chown"; lit "--no-dereference"; owner_spec attr; lit "--"; path]);
                 when (both (nope (changed s_exists)) (changed s_touched)) (sh [lit "touch"; lit "--no-dereference"; lit "--"; path])
               else when (changed s_exists) (sh [lit "rm"; lit "--"; path]));
          success in
      match st with
      | None => _ ← initial_state (link_state false None None None false); continue
      | Some st =>
          if negb (str_eqb (st_type st) (lit "link")) then failure (lit "path '" ++ path ++ lit "' exists but is not a link!")
          else
            r ← olift (crun [lit "readlink"; lit "-n"; path]);
            t ← olift (decoded (cr_stdout r));
            _ ← initial_state (link_state true (Some t) (Some (st_owner st)) (Some (st_group st)) false); continue
      end).

  (** utils.py:107-179 [save_content].  [content]: the argument, or its encoding if it is a str (132-133). *)
  Definition content_state (exists_ : bool) (mode owner group : option pystr) (sha : option bytes) : state :=
    [(s_exists, VBool exists_); (s_mode, vopt mode); (k_owner, vopt owner); (k_group, vopt group); (s_sha, vbytes sha)].
  Definition save_content (content : bytes) (dest : pystr) (mode owner group : option pystr) : O opres :=
    op_defaults (Settings None None owner group mode None None None) (fun attr =>
      _ ← final_state (content_state true (s_file_mode attr) (s_owner attr) (s_group attr) (Some (sha512 content)));
      st ← olift (stat dest false true);
      let continue :=
        u ← unchanged false;
        if u : bool then success
        else
          _ ← (if want_diff then d ← olift (download_or exec sha512 dest None); diff dest d (Some content) else mret tt);
          _ ← (if dry then mret tt
               else
                 x ← either (changed s_exists) (changed s_sha);
                 if x : bool then olift (upload exec sha512 dest content (s_file_mode attr) (s_owner attr) (s_group attr))
                 else
                   _ ← when (changed s_mode) (arg (s_file_mode attr) (fun m => crun [lit "chmod"; m; lit "--"; dest]));
                   when (either (changed k_owner) (changed k_group)) (sh [lit "chown"; owner_spec attr; lit "--"; dest]));
          success in
      match st with
      | None => _ ← initial_state (content_state false None None None None); continue
      | Some st =>
          if negb (str_eqb (st_type st) (lit "file")) then failure (lit "path '" ++ dest ++ lit "' exists but is not a file!")
          else _ ← initial_state (content_state true (Some (st_mode st)) (Some (st_owner st)) (Some (st_group st)) (st_sha st)); continue
      end).
  (** [content.encode('utf-8')] of utils.py:133 *)
  Definition encoded (content : bytes + pystr) : W bytes :=
    match content with
    | inl b => mret b
    | inr s => match utf8_encode s with Some b => mret b | None => wraise UnicodeEncodeError end
    end.
  (** files.py:321-357 *)
  Definition upload_content (content : bytes + pystr) (dest : pystr) (mode owner group : option pystr) : O opres :=
    _ ← olift (check_absolute_path dest);
    b ← olift (encoded content);
    save_content b dest mode owner group.
  (** 394-395, 590-591 *)
  Definition into_dir (src dest : pystr) : pystr := if endswith dest (lit "/") then path_join dest (py_basename src) else dest.
  (** 359-398; [content]: what opening and reading [src] gives *)
  Definition upload_file (content : result bytes) (src dest : pystr) (mode owner group : option pystr) : O opres :=
    _ ← olift (check_absolute_path dest);
    let dest := into_dir src dest in
    b ← olift (liftW content);
    save_content b dest mode owner group.

  (** 537-541, 597-601: an UndefinedError of jinja2 ([inl]) becomes a ValueError.  [render]: jinja2 and _render_template (23-53,
      see Wrapper.v for the variables). *)
  Definition rendered (r : pystr + result bytes) : W bytes :=
    match r with inl m => wraise (ValueError m) | inr x => liftW x end.
  (** 496-543 *)
  Definition template_content (render : pystr -> pystr + result bytes) (content dest : pystr) (mode owner group : option pystr) : O opres :=
    _ ← olift (check_absolute_path dest);
    b ← olift (rendered (render content));
    save_content b dest mode owner group.
  (** 545-603 *)
  Definition template (render : pystr -> pystr + result bytes) (content : result pystr) (src dest : pystr) (mode owner group : option pystr) : O opres :=
    _ ← olift (check_absolute_path dest);
    let dest := into_dir src dest in
    t ← olift (liftW content);
    b ← olift (rendered (render t));
    save_content b dest mode owner group.

  (** 605-722 [line].  [search multiline regex text]: [re.search]; [date]: the formatted time. *)
  Variable search : bool -> pystr -> pystr -> result bool.
  Variable date : pystr.
  Definition s_line_present := lit "line_present".
  (** 675-682 *)
  Definition find_line (line : pystr) (regex : option pystr) (ignore_whitespace : bool) (content : pystr) : result bool :=
    match regex with
    | None => Ok (if ignore_whitespace then str_in (strip line) (List.map strip (splitlines content)) else str_in line (splitlines content))
    | Some r => search true r content
    end.
  (** 695-702 *)
  Fixpoint filter_regex (r : pystr) (ls : list pystr) : result (list pystr) :=
    match ls with
    | [] => Ok []
    | l :: ls => b ← search false r l; ls ← filter_regex r ls; Ok (if b : bool then ls else l :: ls)
    end.
  Definition remove_line (line : pystr) (regex : option pystr) (ignore_whitespace : bool) (ls : list pystr) : result (list pystr) :=
    match regex with
    | None => Ok (List.filter (fun l => negb (str_eqb line (if ignore_whitespace then strip l else l))) ls)
    | Some r => filter_regex r ls
    end.
  (** 690-705 *)
  Definition new_lines (line : pystr) (present : bool) (regex : option pystr) (ignore_whitespace : bool) (content : pystr) : result (list pystr) :=
    let ls := splitlines content in
    if present then Ok (ls ++ [line]) else remove_line line regex ignore_whitespace ls.
  Definition new_bytes (ls : list pystr) : result bytes :=
    match utf8_encode_esc (join_str (lit "
") ls ++ lit "
") with Some b => Ok b | None => Err UnicodeEncodeError end.
  (** [backup]: False, True or a name (716-718) *)
  Definition backup_name (backup : bool + pystr) : option pystr :=
    match backup with
    | inl false | inr [] => None
    | inl true => Some (lit "." ++ date ++ lit ".bak")
    | inr s => Some s
    end.
  Definition line (path text : pystr) (present : bool) (regex : option pystr) (ignore_whitespace : bool) (backup : bool + pystr) : O opres :=
    _ ← olift (check_absolute_path path);
    op_defaults no_settings (fun attr =>
      _ ← final_state [(s_line_present, VBool present)];
      st ← olift (stat path false false);
      let continue (orig : option bytes) (found : bool) :=
        _ ← initial_state [(s_line_present, VBool found)];
        u ← unchanged false;
        if u : bool then success
        else
          ls ← olift (liftW (new_lines text present regex ignore_whitespace (match orig with Some b => utf8_decode_esc b | None => [] end)));
          b ← olift (liftW (new_bytes ls));
          _ ← (if want_diff then diff path orig (Some b) else mret tt);
          _ ← (if dry then mret tt
               else match orig with
                    | None => olift (upload exec sha512 path b (s_file_mode attr) (s_owner attr) (s_group attr))
                    | Some _ =>
                        _ ← (match backup_name backup with
                             | Some n => olift (sh [lit "cp"; lit "-a"; lit "--"; path; path_join (py_dirname path) n])
                             | None => mret tt
                             end);
                        olift (upload exec sha512 path b None None None)
                    end);
          success in
      match st with
      | None => continue None false
      | Some st =>
          if negb (str_eqb (st_type st) (lit "file")) then failure (lit "path '" ++ path ++ lit "' exists but is not a file!")
          else
            b ← olift (download exec sha512 path);
            found ← olift (liftW (find_line text regex ignore_whitespace (utf8_decode_esc b)));
            continue (Some b) found
      end).

  (** 400-494 [upload_dir] *)
  (** 479-486: [os.walk(src)], top down: the directories and then the files of a directory, then what is below its
      subdirectories.  [droot]: the remote directory, normalised (482).  A file: its name, its content if it is one, its
      destination. *)
  Definition dir_entries (es : list (pystr * ltree)) : list pystr := fst <$> List.filter (fun e => l_isdir (snd e)) es.
  Definition file_entries (es : list (pystr * ltree)) : list (pystr * ltree) := List.filter (fun e => negb (l_isdir (snd e))) es.
  Fixpoint walk_dirs (dest root : pystr) (t : ltree) {struct t} : list pystr :=
    match t with
    | LDir es =>
        List.map (path_join (normpath (path_join dest root))) (dir_entries es) ++
        (fix sub (es : list (pystr * ltree)) : list pystr :=
           match es with
           | [] => []
           | (n, t') :: r => walk_dirs dest (path_join root n) t' ++ sub r
           end) es
    | _ => []
    end.
  Fixpoint walk_files (dest root : pystr) (t : ltree) {struct t} : list (pystr * option bytes * pystr) :=
    match t with
    | LDir es =>
        List.map (fun e => (fst e, l_content (snd e), path_join (normpath (path_join dest root)) (fst e))) (file_entries es) ++
        (fix sub (es : list (pystr * ltree)) : list (pystr * option bytes * pystr) :=
           match es with
           | [] => []
           | (n, t') :: r => walk_files dest (path_join root n) t' ++ sub r
           end) es
    | _ => []
    end.
  (** the nested operations: [directory(path=d, ...)] with check=True *)
  Fixpoint nested_dirs (mode owner group : option pystr) (ds : list pystr) : O unit :=
    match ds with
    | [] => mret tt
    | d :: ds =>
        r ← olift (operation NotGiven (directory d true false mode owner group));
        _ ← add_nested_result d r;
        nested_dirs mode owner group ds
    end.
  Fixpoint nested_files (mode owner group : option pystr) (fs : list (pystr * option bytes * pystr)) : O unit :=
    match fs with
    | [] => mret tt
    | (src, content, dest) :: fs =>
        _ ← (match content with
             | None => mret tt
             | Some b =>
                 r ← olift (operation NotGiven (upload_file (Ok b) src dest mode owner group));
                 add_nested_result dest r
             end);
        nested_files mode owner group fs
    end.
  (** [tree]: what is at [src], if anything *)
  Definition upload_dir (tree : option ltree) (src dest : pystr) (dir_mode file_mode owner group : option pystr) : O opres :=
    _ ← nested true;
    _ ← olift (check_absolute_path dest);
    match tree with
    | Some (LDir es as t) =>
        let dest := into_dir src dest in
        _ ← nested_dirs dir_mode owner group (dest :: walk_dirs dest [] t);
        _ ← nested_files file_mode owner group (walk_files dest [] t);
        success
    | _ => oraise (ValueError (lit "src must be a directory"))
    end.
End files.
