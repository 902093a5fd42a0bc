(** types.py:256-284: the connector of a host; connectors/connector.py:405-420: the registry; the commands of connectors/ssh.py and connectors/local.py. *)
From Verif Require Import Base Urls Wrapper Bootstrap.

(** What [create_connector] returns.  [Given]: what the class in [host.connector] makes of the url. *)
Inductive connector := Given (cls : found) (url : option found) | SshTo (url : pystr) | LocalHere.

(** types.py:273-284.  [registered_connectors] has the schemas of connectors/ssh.py:13 and connectors/local.py:12.  With the schema ssh the url starts with
    "ssh:", so [host.ssh_host] and [host.ssh_port] (ssh.py:29) are not looked at.  Simplifications: a url that is neither None nor a string is not iterable; the
    locations of errors are left out. *)
Definition connector_by_url (url : option found) : result connector :=
  match url with
  | None => Err AttributeError
  | Some (FClass _) => Err TypeError
  | Some (FObj o) =>
      match oval o with
      | VNone => Err (FatalError (lit "Url is None, but no explicit connector was specified"))
      | VStr u =>
          if negb (has_char 58 u) then Err (FatalError (lit "Url doesn't include a schema and no connector was specified explicitly"))
          else
            let schema := default [] (head (split_char 58 u)) in
            if str_eqb schema (lit "ssh") then Ok (SshTo u)
            else if str_eqb schema (lit "local") then Ok LocalHere
            else Err (FatalError (lit "No connector found for schema '" ++ schema ++ lit "'"))
      | _ => Err TypeError
      end
  end.
(** types.py:270-272; [script] is [fora.script].  [connector = None] is the default of the class. *)
Definition create_connector (script : option wrapper) (host : wrapper) : result connector :=
  let url := host_get host script (lit "url") in
  match host_get host script (lit "connector") with
  | Some (FObj o) => match oval o with VNone => connector_by_url url | _ => Ok (Given (FObj o) url) end
  | _ => connector_by_url url
  end.

(** ssh.py:31-52 and local.py:24-36 [command]; [opts]: [host.ssh_opts] if the host has it *)
Definition connector_command (compress : bytes -> bytes) (source : bytes) (file : pystr) (debug : bool) (opts : option (list pystr)) (k : connector)
    : option (list pystr) :=
  match k with
  | SshTo url => Some (ssh_command compress source debug opts (Some url) [])
  | LocalHere => Some (local_command file debug)
  | Given _ _ => None
  end.
