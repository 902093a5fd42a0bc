(** Urls and host names. *)
From Verif Require Import Base.

(** inventory_wrapper.py:299-322 [qualify_url] *)
Definition qualify_url (url : pystr) : pystr :=
  if has_char 58 url then url else lit "ssh://" ++ url.

(** connectors/ssh.py:54-73 [SshConnector.extract_hostname] *)
Definition ssh_extract_hostname (url : pystr) : result pystr :=
  if negb (startswith url (lit "ssh:")) then Err (ValueError (lit "Cannot extract hostname from url without matching schema"))
  else
    let hostname := skipn 6 url in
    let hostname := match find_char 64 hostname with Some pos => skipn (pos + 1) hostname | None => hostname end in
    let hostname := match find_char 58 hostname with Some pos => firstn pos hostname | None => hostname end in
    Ok hostname.

(** connectors/local.py:38-43 [LocalConnector.extract_hostname] *)
Definition local_extract_hostname (url : pystr) : result pystr :=
  if negb (startswith url (lit "local:")) then Err (ValueError (lit "Cannot extract hostname from url without matching schema"))
  else
    let hostname := skipn 6 url in
    Ok (match hostname with [] => lit "localhost" | _ => hostname end).

(** inventory_wrapper.py:324-351 [extract_hostname]; the registered connectors are those of
    connectors/ssh.py and connectors/local.py. *)
Definition extract_hostname (url : pystr) : result pystr :=
  if negb (has_char 58 url) then Err (ValueError (lit "The given url doesn't include a schema"))
  else
    let schema := default [] (head (split_char 58 url)) in
    if str_eqb schema (lit "ssh") then ssh_extract_hostname url
    else if str_eqb schema (lit "local") then local_extract_hostname url
    else Err (ValueError (lit "Invalid url schema '" ++ schema ++ lit "'")).

(** connectors/ssh.py:17-29 [SshConnector.__init__]: the url given to ssh.  [fallback] stands for
    [f"{host.ssh_host}:{host.ssh_port}"]. *)
Definition ssh_connect_url (url : option pystr) (fallback : pystr) : pystr :=
  match url with
  | Some u =>
      if startswith u (lit "ssh:") then
        if negb (startswith u (lit "ssh://")) then lit "ssh://" ++ skipn 4 u else u
      else lit "ssh://" ++ fallback
  | None => lit "ssh://" ++ fallback
  end.
