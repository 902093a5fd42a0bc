{"id": "C01", "title": "Packet round trip under any fragmentation", "statement": "Every packet that write_packet sends without raising is returned unchanged by receive_packet on the other side, whatever pieces the transport delivers the bytes in, and the bytes following the packet are left unread.", "quantifier": "all packets with encodable field values, all ways to split the byte stream into chunks, all trailing bytes", "why_tests_cant": "the space of packets x fragmentations is infinite; tests only see whole local pipes", "anchors": ["src/fora/connectors/tunnel_dispatcher.py:_serialize", "src/fora/connectors/tunnel_dispatcher.py:_deserialize", "src/fora/connectors/tunnel_dispatcher.py:_write_packet", "src/fora/connectors/tunnel_dispatcher.py:_read_packet", "src/fora/connectors/tunnel_dispatcher.py:receive_packet"]}
{"id": "C02", "title": "Unambiguous stream", "statement": "Two different sequences of packets never produce the same byte stream, so no sequence of requests can be mistaken for another one; a packet with bytes that look like another packet inside a string or file content stays one packet.", "quantifier": "all pairs of finite packet sequences", "why_tests_cant": "injectivity over an infinite domain", "anchors": ["src/fora/connectors/tunnel_dispatcher.py:_write_packet", "src/fora/connectors/tunnel_dispatcher.py:_serialize"]}
{"id": "C03", "title": "A connection cut inside a packet is detected", "statement": "If the stream ends anywhere inside a packet, receive_packet raises instead of returning a packet.", "quantifier": "all packets, all cut positions", "why_tests_cant": "every cut position of every packet; a test can only cut a few", "anchors": ["src/fora/connectors/tunnel_dispatcher.py:Connection.read", "src/fora/connectors/tunnel_dispatcher.py:_deserializers", "src/fora/connectors/tunnel_dispatcher.py:receive_packet"]}
{"id": "C04", "title": "Receiver is total on arbitrary bytes", "statement": "On any byte stream receive_packet terminates and either raises one of IOError/RemoteOSError/ValueError/AttributeError/OverflowError or returns a packet all of whose fields are in range and valid text; a returned packet can always be written again.", "quantifier": "all byte streams and chunkings", "why_tests_cant": "arbitrary (also hostile) input", "anchors": ["src/fora/connectors/tunnel_dispatcher.py:receive_packet", "src/fora/connectors/tunnel_dispatcher.py:_deserialize"]}
{"id": "C05", "title": "A request that cannot be encoded has no effect on later requests", "statement": "If sending a request raises because a field cannot be encoded (for instance a path with a lone surrogate), the following requests are still understood by the remote as they were meant.", "quantifier": "all unencodable requests and all following requests", "why_tests_cant": "needs all partially written prefixes and all continuations", "anchors": ["src/fora/connectors/tunnel_dispatcher.py:_write_packet", "src/fora/connectors/tunnel_connector.py:TunnelConnector._request", "src/fora/connectors/tunnel_connector.py:TunnelConnector.stat"]}
{"id": "C06", "title": "Requests and responses stay in lock step", "statement": "For every history of encodable requests the i-th answer the client sees is the answer the remote computed for the i-th request from the state left by the first i-1 requests: going through the byte protocol is indistinguishable from calling the handlers directly.", "quantifier": "all request histories, all remote states, all fragmentations in both directions", "why_tests_cant": "quantifies over unbounded histories and schedules", "anchors": ["src/fora/connectors/tunnel_connector.py:TunnelConnector._request", "src/fora/connectors/tunnel_dispatcher.py:_main", "src/fora/connectors/tunnel_dispatcher.py:receive_packet"]}
{"id": "C07", "title": "Remote OS errors are reported and survivable", "statement": "Whenever a handler fails with an OSError the client gets a RemoteOSError with the same errno and the dispatcher keeps serving; it stops only on PacketExit, end of input or a request listed as fatal in the statement.", "quantifier": "all requests, all remote states, all histories", "why_tests_cant": "needs every failing handler in every state", "anchors": ["src/fora/connectors/tunnel_dispatcher.py:_main", "src/fora/connectors/tunnel_dispatcher.py:PacketStat.handle", "src/fora/connectors/tunnel_dispatcher.py:PacketProcessRun.handle"]}
{"id": "C08", "title": "No valid client call can kill the dispatcher", "statement": "Every request that the client API can encode is answered by exactly one response and leaves the dispatcher running.", "quantifier": "all encodable requests, all remote states", "why_tests_cant": "depends on remote state such as file time stamps or odd strings", "anchors": ["src/fora/connectors/tunnel_dispatcher.py:_main", "src/fora/connectors/tunnel_dispatcher.py:PacketStat.handle", "src/fora/connectors/tunnel_dispatcher.py:PacketProcessRun.handle"]}
{"id": "C09", "title": "Validation precedes effects", "statement": "An upload with an invalid mode, owner or group, and a run with an invalid umask, user, group or working directory, is answered with a ValueError and leaves the remote exactly as it was (no process started, no file opened).", "quantifier": "all requests with an invalid field, all remote states", "why_tests_cant": "no finite list of invalid values and states is enough", "anchors": ["src/fora/connectors/tunnel_dispatcher.py:PacketUpload.handle", "src/fora/connectors/tunnel_dispatcher.py:PacketProcessRun.handle", "src/fora/connectors/tunnel_dispatcher.py:_resolve_oct", "src/fora/connectors/tunnel_dispatcher.py:_resolve_user", "src/fora/connectors/tunnel_dispatcher.py:_resolve_group"]}
{"id": "C10", "title": "Upload stores exactly what was sent", "statement": "After a successful upload the file holds exactly the given bytes, the requested owner and group (a group alone means owner root, an owner alone means that user's primary group), the requested permission bits (kept when no mode is given, 600 for a new file), every other path is unchanged, and a later download returns the same bytes.", "quantifier": "all contents, modes, owners, groups, file systems", "why_tests_cant": "all file systems and byte strings", "anchors": ["src/fora/connectors/tunnel_dispatcher.py:PacketUpload.handle", "src/fora/connectors/tunnel_dispatcher.py:PacketDownload.handle", "src/fora/connectors/tunnel_connector.py:TunnelConnector.upload", "src/fora/connectors/tunnel_connector.py:TunnelConnector.download"]}
{"id": "C11", "title": "Upload at every crash point", "statement": "If the dispatcher dies at any point during an upload no other path is changed and a file that did not exist before is never accessible to anyone but the dispatcher's user until the requested mode is applied.", "quantifier": "all crash points of all uploads", "why_tests_cant": "crash points cannot be enumerated by running the code", "anchors": ["src/fora/connectors/tunnel_dispatcher.py:PacketUpload.handle", "src/fora/connectors/tunnel_dispatcher.py:_main"]}
{"id": "C12", "title": "Overwriting with a tighter mode never exposes the new content", "statement": "When an existing file is overwritten with a mode that excludes others, the new content is at no moment readable by others.", "quantifier": "all crash/observation points of all uploads", "why_tests_cant": "intermediate states are invisible to tests", "anchors": ["src/fora/connectors/tunnel_dispatcher.py:PacketUpload.handle"]}
{"id": "C13", "title": "Commands run under the requested identity", "statement": "A command requested for user U and group G runs with all three uids of U and all three gids of G (or of U's primary group when only a user is given), with the requested umask (077 otherwise) and in the requested directory; names take precedence over numeric ids.", "quantifier": "all user/group databases and all requests", "why_tests_cant": "needs all account databases", "anchors": ["src/fora/connectors/tunnel_dispatcher.py:PacketProcessRun.handle", "src/fora/connectors/tunnel_dispatcher.py:_resolve_user", "src/fora/connectors/tunnel_dispatcher.py:_resolve_group"]}
{"id": "C14", "title": "Dropping privileges drops supplementary groups", "statement": "A command run as another user does not keep the supplementary groups of the dispatcher.", "quantifier": "all databases and requests", "why_tests_cant": "needs all starting credentials", "anchors": ["src/fora/connectors/tunnel_dispatcher.py:PacketProcessRun.handle"]}
{"id": "C15", "title": "User and group names are canonicalised consistently", "statement": "resolve_user/resolve_group return the name of an existing account, are idempotent, prefer a name over a number, and agree with the ids that run and upload would use.", "quantifier": "all databases and strings", "why_tests_cant": "all strings and databases, including numeric names", "anchors": ["src/fora/connectors/tunnel_dispatcher.py:PacketResolveUser.handle", "src/fora/connectors/tunnel_dispatcher.py:PacketResolveGroup.handle", "src/fora/connectors/tunnel_dispatcher.py:_resolve_user"]}
{"id": "C16", "title": "stat tells the truth", "statement": "stat returns None exactly if the path does not exist, otherwise the type, mode, owner and group names and (on demand, for regular files only) the SHA-512 of the present content.", "quantifier": "all file systems and paths", "why_tests_cant": "all file systems", "anchors": ["src/fora/connectors/tunnel_dispatcher.py:PacketStat.handle", "src/fora/connectors/tunnel_connector.py:TunnelConnector.stat"]}
{"id": "C17", "title": "A failed connection attempt leaves no dispatcher behind", "statement": "If opening the tunnel fails for whatever reason, the spawned process is terminated and the exception propagates; after an orderly close the process has been told to exit and has been waited for.", "quantifier": "all failure points of open and close", "why_tests_cant": "every failure point", "anchors": ["src/fora/connectors/tunnel_connector.py:TunnelConnector.open", "src/fora/connectors/tunnel_connector.py:TunnelConnector.close"]}
{"id": "C18", "title": "with open_connection() always cleans up", "statement": "Whatever fails inside `with open_connection(host)`, including while it is being entered, the dispatcher process is ended and host.connection is reset.", "quantifier": "all failure points", "why_tests_cant": "every failure point", "anchors": ["src/fora/connection.py:Connection.__enter__", "src/fora/connection.py:Connection.__exit__", "src/fora/connectors/tunnel_connector.py:TunnelConnector.close"]}
{"id": "C19", "title": "run uses explicit arguments, otherwise the active defaults", "statement": "conn.run executes as the explicitly given user/group/umask/cwd and takes every other one from the innermost active defaults; with check=True a CalledProcessError is raised iff the exit status is non-zero.", "quantifier": "all argument combinations, defaults and exit codes", "why_tests_cant": "all combinations", "anchors": ["src/fora/connection.py:Connection.run", "src/fora/connectors/tunnel_connector.py:TunnelConnector.run"]}
{"id": "C20", "title": "defaults() blocks are balanced", "statement": "However a block `with defaults(..)` or any other part of a script is left (normally, by any exception, by an inner failing `with`), the active defaults afterwards are those before it, and so are the defaults of every other script. (For the active defaults: provided that no local directory was removed meanwhile, see C23.)", "quantifier": "all programs built from nested blocks, requests and exceptions", "why_tests_cant": "all nestings and exception points", "anchors": ["src/fora/types.py:RemoteDefaultsContext", "src/fora/types.py:ScriptWrapper.defaults"]}
{"id": "C21", "title": "The innermost explicit default wins", "statement": "Inside nested defaults() blocks every setting has the value of the innermost block that sets it, canonicalised on the remote, and otherwise the connection's base setting.", "quantifier": "all nestings of defaults blocks", "why_tests_cant": "unbounded nesting", "anchors": ["src/fora/types.py:ScriptWrapper.defaults", "src/fora/connection.py:Connection.resolve_defaults", "src/fora/remote_settings.py:RemoteSettings.overlay"]}
{"id": "C22", "title": "Octal modes are canonical", "statement": "Two accepted mode strings denote the same number iff they are canonicalised to the same string, the canonical string consists of octal digits and denotes the same number, and negative or malformed modes are rejected before the block is entered.", "quantifier": "all strings", "why_tests_cant": "all strings accepted by int(_, 8)", "anchors": ["src/fora/types.py:ScriptWrapper.defaults", "src/fora/connection.py:Connection.resolve_defaults", "src/fora/connectors/tunnel_dispatcher.py:_resolve_oct"]}
{"id": "C23", "title": "Scripts are isolated and restored", "statement": "Running a script starts from the connection's base settings whatever defaults the caller has active, and on every exit (normal or exceptional, any depth) the working directory, fora.script, the script stack, the indentation and the caller's defaults are as before.", "quantifier": "all nested script programs and exception points", "why_tests_cant": "unbounded nesting and exceptions", "anchors": ["src/fora/loader.py:run_script", "src/fora/logger.py:IndentationContext"]}
{"id": "C24", "title": "Recursive script calls are rejected", "statement": "local.script refuses to run a script that is already running unless recursive=True.", "quantifier": "all script stacks", "why_tests_cant": "unbounded call chains", "anchors": ["src/fora/operations/local.py:script", "src/fora/utils.py:load_py_module", "src/fora/types.py:ModuleWrapper.definition_file"]}
{"id": "C25", "title": "Script parameters", "statement": "A parameter has the passed value if one was passed (also None), else its default, and a missing required parameter is an error; nothing else is taken from the caller.", "quantifier": "all parameter classes and dictionaries", "why_tests_cant": "all dictionaries", "anchors": ["src/fora/types.py:ScriptWrapper.Params", "src/fora/loader.py:run_script"]}
{"id": "C26", "title": "Group ranks are longest-path depths", "statement": "For every acyclic dependency graph rank_sort terminates and gives each vertex the length of the longest dependency chain leading to it, for graphs with any number of components.", "quantifier": "all finite acyclic graphs", "why_tests_cant": "all graphs", "anchors": ["src/fora/utils.py:rank_sort"]}
{"id": "C27", "title": "Every cyclic graph is rejected", "statement": "For every graph with a cycle rank_sort terminates with a CycleError, and never otherwise.", "quantifier": "all finite graphs", "why_tests_cant": "all graphs", "anchors": ["src/fora/utils.py:rank_sort"]}
{"id": "C28", "title": "Groups are evaluated after everything they depend on", "statement": "When loading succeeds, the group evaluation order contains every group exactly once and respects every before/after declaration, `all` precedes every ordinary group; loading is rejected for duplicate, undefined or self-dependent groups and cyclic dependencies, and for no other reason concerning groups.", "quantifier": "all sets of group and host declarations", "why_tests_cant": "all declarations", "anchors": ["src/fora/inventory_wrapper.py:InventoryWrapper._load_groups", "src/fora/inventory_wrapper.py:InventoryWrapper._calculate_topological_order", "src/fora/inventory_wrapper.py:InventoryWrapper._merge_group_dependencies"]}
{"id": "C29", "title": "Host declarations", "statement": "Every accepted host belongs to `all`, names are unique, urls are qualified, and explicit names, groups and files are kept.", "quantifier": "all host declarations", "why_tests_cant": "all declarations", "anchors": ["src/fora/inventory_wrapper.py:InventoryWrapper._preprocess_host_declarations", "src/fora/inventory_wrapper.py:InventoryWrapper.qualify_url"]}
{"id": "C30", "title": "A group that depends on the definer may override a variable", "statement": "A group that (transitively) depends on the group that last defined a variable may redefine it without a conflict error.", "quantifier": "all inventories", "why_tests_cant": "all dependency graphs", "anchors": ["src/fora/inventory_wrapper.py:InventoryWrapper.instanciate_host"]}
{"id": "C31", "title": "Redefinition without dependency is a conflict", "statement": "If a group redefines a variable last defined by a group it does not depend on, loading fails with a conflict.", "quantifier": "all inventories", "why_tests_cant": "all dependency graphs", "anchors": ["src/fora/inventory_wrapper.py:InventoryWrapper.instanciate_host"]}
{"id": "C32", "title": "Values do not depend on arbitrary group order", "statement": "If an inventory of constant assignments is accepted under two admissible orders of its groups (other order of declarations, other enumeration of sets), every variable of a host has the same value under both.", "quantifier": "all inventories and all admissible orders", "why_tests_cant": "all linear extensions", "anchors": ["src/fora/inventory_wrapper.py:InventoryWrapper.instanciate_host", "src/fora/inventory_wrapper.py:InventoryWrapper._calculate_topological_order"]}
{"id": "C66", "title": "Acceptance does not depend on arbitrary group order", "statement": "Whether an inventory of constant assignments is accepted does not depend on the order in which groups are declared or sets are enumerated.", "quantifier": "all inventories and all admissible orders", "why_tests_cant": "all linear extensions", "anchors": ["src/fora/inventory_wrapper.py:InventoryWrapper.instanciate_host", "src/fora/inventory_wrapper.py:InventoryWrapper._calculate_topological_order"]}
{"id": "C33", "title": "Variable precedence", "statement": "A host variable has the value of the last definer in the order inventory, host declaration vars, groups in evaluation order, host module.", "quantifier": "all inventories of constant assignments", "why_tests_cant": "all inventories", "anchors": ["src/fora/inventory_wrapper.py:InventoryWrapper.load_group", "src/fora/inventory_wrapper.py:InventoryWrapper.load_host", "src/fora/inventory_wrapper.py:InventoryWrapper.instanciate_host"]}
{"id": "C34", "title": "Host names from urls", "statement": "For ssh://[user@]host[:port] the host name is host; for local:name it is name or localhost; an unqualified url is an ssh url.", "quantifier": "all urls", "why_tests_cant": "all strings", "anchors": ["src/fora/connectors/ssh.py:SshConnector.extract_hostname", "src/fora/connectors/local.py:LocalConnector.extract_hostname", "src/fora/inventory_wrapper.py:InventoryWrapper.qualify_url"]}
{"id": "C35", "title": "Short ssh urls", "statement": "ssh:host names the same host as ssh://host.", "quantifier": "all urls", "why_tests_cant": "all strings", "anchors": ["src/fora/connectors/ssh.py:SshConnector.extract_hostname", "src/fora/connectors/ssh.py:SshConnector.__init__"]}
{"id": "C36", "title": "Wrapper attributes read back what was written", "statement": "Setting an attribute of a host/group/script wrapper and reading it returns the value set, whether or not the wrapped module defines it, and does not change other attributes.", "quantifier": "all wrappers, attributes and values", "why_tests_cant": "all module contents", "anchors": ["src/fora/types.py:ModuleWrapper.__getattribute__", "src/fora/types.py:ModuleWrapper.__setattr__"]}
{"id": "C37", "title": "Host attribute fallback", "statement": "host.x is the host's own x if it has one, else the running script's variable x if that is an exported non-module, never a private or built-in script attribute; templates see the same values.", "quantifier": "all hosts, scripts and attributes", "why_tests_cant": "all module contents", "anchors": ["src/fora/types.py:HostWrapper.__getattr__", "src/fora/types.py:HostWrapper.vars_hierarchical", "src/fora/operations/files.py:_render_template"]}
{"id": "C38", "title": "Template context", "statement": "In templates explicit context overrides host variables, `host` is the current host and `inventory` is the inventory.", "quantifier": "all contexts", "why_tests_cant": "all variable sets", "anchors": ["src/fora/operations/files.py:_render_template"]}
{"id": "C39", "title": "Operation results are truthful about change", "statement": "A returned result has changed=True iff the recorded final state differs from the initial state in some key, success=True iff the operation called success, and each state can be recorded only once.", "quantifier": "all sequences of operation API calls", "why_tests_cant": "all call sequences", "anchors": ["src/fora/operations/api.py:Operation"]}
{"id": "C40", "title": "check governs failures", "statement": "With check=True every failure raises OperationError; with check=False no failure of the operation raises but is returned as a failed result.", "quantifier": "all operation outcomes and call styles", "why_tests_cant": "all outcomes and call styles", "anchors": ["src/fora/operations/api.py:operation", "src/fora/operations/api.py:Operation.failure"]}
{"id": "C41", "title": "Dry runs never change the remote", "statement": "With --dry no operation sends any request that changes the remote, whatever its arguments, the remote state, failures or exceptions.", "quantifier": "all operations, arguments, remote states, fault schedules", "why_tests_cant": "all states and schedules", "anchors": ["src/fora/operations/files.py", "src/fora/operations/system.py", "src/fora/operations/systemd.py", "src/fora/operations/git.py", "src/fora/operations/utils.py:generic_package", "src/fora/operations/utils.py:save_content"]}
{"id": "C42", "title": "A dry run predicts the real run", "statement": "Where the real run succeeds, the dry run from the same state returns the same result.", "quantifier": "all operations, arguments, remote states", "why_tests_cant": "all states", "anchors": ["src/fora/operations/files.py", "src/fora/operations/system.py", "src/fora/operations/utils.py:save_content"]}
{"id": "C43", "title": "files.directory converges", "statement": "If files.directory succeeds, the path is a directory with the requested mode, owner and group (or absent for present=False), nothing else has changed, and running it again reports unchanged and changes nothing.", "quantifier": "all paths, settings, file systems", "why_tests_cant": "all file systems", "anchors": ["src/fora/operations/files.py:directory"]}
{"id": "C44", "title": "files.file converges", "statement": "If files.file succeeds, the path is a regular file with the requested mode, owner and group and its old content (empty if new), or absent; nothing else has changed; running it again changes nothing unless touch is set.", "quantifier": "all paths, settings, file systems", "why_tests_cant": "all file systems", "anchors": ["src/fora/operations/files.py:file"]}
{"id": "C45", "title": "files.link converges", "statement": "If files.link succeeds, the path is a symbolic link to the target and nothing else changed, and running it again changes nothing.", "quantifier": "all paths, targets, file systems", "why_tests_cant": "all file systems", "anchors": ["src/fora/operations/files.py:link"]}
{"id": "C46", "title": "files.upload_content converges", "statement": "If upload_content (upload, template) succeeds, the file has exactly the given content, mode, owner and group; the content is sent iff it differs; nothing else has changed; running it again changes nothing.", "quantifier": "all contents, settings, file systems", "why_tests_cant": "all file systems and contents", "anchors": ["src/fora/operations/utils.py:save_content", "src/fora/operations/files.py:upload_content"]}
{"id": "C47", "title": "Interrupted operations can be rerun", "statement": "If an operation fails at any request (connection lost before or after the request took effect, command failing), nothing outside its path has changed and an undisturbed rerun reaches the requested state.", "quantifier": "all fault schedules", "why_tests_cant": "all crash points", "anchors": ["src/fora/operations/files.py:directory", "src/fora/operations/files.py:file", "src/fora/operations/utils.py:save_content"]}
{"id": "C48", "title": "Relative paths are rejected up front", "statement": "Every file operation rejects a non-absolute remote path with ValueError before sending any request.", "quantifier": "all paths and operations", "why_tests_cant": "all strings", "anchors": ["src/fora/operations/utils.py:check_absolute_path", "src/fora/operations/files.py"]}
{"id": "C49", "title": "files.line adds a line once", "statement": "Adding a line that is not there appends exactly it as the last line; afterwards it is found, and adding it again changes nothing.", "quantifier": "all file contents (any bytes) and lines", "why_tests_cant": "all byte strings", "anchors": ["src/fora/operations/files.py:line"]}
{"id": "C50", "title": "files.line removes a line", "statement": "Removing a line leaves no line equal to it (up to whitespace if ignored) and keeps all other lines in order.", "quantifier": "all file contents and lines", "why_tests_cant": "all byte strings", "anchors": ["src/fora/operations/files.py:line"]}
{"id": "C51", "title": "files.line leaves the rest of the file alone", "statement": "Bytes of lines not concerned are not modified.", "quantifier": "all file contents", "why_tests_cant": "all byte strings", "anchors": ["src/fora/operations/files.py:line"]}
{"id": "C52", "title": "files.line backup", "statement": "With backup=True the previous content is kept in `<path>.<date>.bak`.", "quantifier": "all paths and contents", "why_tests_cant": "all paths", "anchors": ["src/fora/operations/files.py:line"]}
{"id": "C53", "title": "upload_dir transfers the whole tree", "statement": "Every directory is created after its parent and every regular file is uploaded exactly once at the corresponding remote path, nothing else is. A second run reports no change and changes nothing.", "quantifier": "all local trees", "why_tests_cant": "all trees", "anchors": ["src/fora/operations/files.py:upload_dir"]}
{"id": "C54", "title": "system.user converges", "statement": "If system.user succeeds the account has all requested properties, unrequested ones are unchanged, and rerunning it changes nothing.", "quantifier": "all account databases and arguments", "why_tests_cant": "all databases", "anchors": ["src/fora/operations/system.py:user"]}
{"id": "C55", "title": "system.user removes users", "statement": "system.user(present=False) succeeds only if the user does not exist afterwards.", "quantifier": "all account databases", "why_tests_cant": "all databases", "anchors": ["src/fora/operations/system.py:user", "src/fora/connectors/tunnel_dispatcher.py:PacketQueryUser.handle", "src/fora/connection.py:Connection.query_user"]}
{"id": "C56", "title": "system.group converges", "statement": "If system.group succeeds the group exists with the requested gid (or is absent) and rerunning it changes nothing.", "quantifier": "all databases", "why_tests_cant": "all databases", "anchors": ["src/fora/operations/system.py:group"]}
{"id": "C57", "title": "package operations converge", "statement": "If a package operation succeeds all given packages are installed (or absent), only missing (present) ones were passed to the package manager, others are untouched, and rerunning it reports unchanged.", "quantifier": "all package sets and requests", "why_tests_cant": "all package databases", "anchors": ["src/fora/operations/utils.py:generic_package", "src/fora/operations/pacman.py:package"]}
{"id": "C58", "title": "Package and service manager detection", "statement": "The first registered manager whose command exists on the remote is used, and an error is raised iff none exists.", "quantifier": "all registries and remotes", "why_tests_cant": "all registries", "anchors": ["src/fora/operations/utils.py:find_command", "src/fora/operations/system.py:package", "src/fora/operations/system.py:service"]}
{"id": "C59", "title": "systemd.service acts only on what is requested", "statement": "state=None leaves the run state, enabled=None the enablement; the operation reports changed iff something requested differed from the present state.", "quantifier": "all units and arguments", "why_tests_cant": "all unit states", "anchors": ["src/fora/operations/systemd.py:service", "src/fora/operations/api.py:Operation.unchanged"]}
{"id": "C60", "title": "systemd user units", "statement": "With user_mode=True decisions are based on the user's unit.", "quantifier": "all unit states", "why_tests_cant": "all unit states", "anchors": ["src/fora/operations/systemd.py:service"]}
{"id": "C61", "title": "git.repo converges", "statement": "If git.repo succeeds the checkout is at the newest commit of the requested branch and rerunning changes nothing.", "quantifier": "all repositories", "why_tests_cant": "all repositories", "anchors": ["src/fora/operations/git.py:repo"]}
{"id": "C62", "title": "Host selection", "statement": "The script runs on exactly the selected hosts, each once, in the order given; an unknown host name aborts before any connection is opened; without selection it runs on all hosts in inventory order.", "quantifier": "all inventories and selections", "why_tests_cant": "all selections", "anchors": ["src/fora/main.py:main_run"]}
{"id": "C63", "title": "No host is left connected", "statement": "While a host's script runs exactly that host is connected; when the script ends or raises, its connection is closed before anything else happens and no later host is touched after a failure.", "quantifier": "all deploys and failures", "why_tests_cant": "all failure points", "anchors": ["src/fora/main.py:main_run", "src/fora/connection.py:open_connection"]}
{"id": "C64", "title": "Displayed data cannot control the terminal", "statement": "Diff and error output derived from remote data contains no C0/C1 control characters. Of a failed command, the text it wrote to stdout is shown as its stdout and the text it wrote to stderr as its stderr.", "quantifier": "all byte strings", "why_tests_cant": "all byte strings", "anchors": ["src/fora/logger.py:decode_escape", "src/fora/logger.py:diff"]}
{"id": "C65", "title": "Ellipsis respects the width", "statement": "ellipsis(s, w) has at most w characters and equals s if s fits.", "quantifier": "all strings and widths", "why_tests_cant": "all strings", "anchors": ["src/fora/logger.py:ellipsis"]}
{"id": "C67", "title": "Relative working directories", "statement": "A command that is run with a relative working directory that exists runs in that directory.", "quantifier": "all file systems and relative paths", "why_tests_cant": "all file systems", "anchors": ["src/fora/connectors/tunnel_dispatcher.py:PacketProcessRun.handle"]}
{"id": "C68", "title": "Commands cannot disturb the connection", "statement": "Whatever a command reads or prints, the caller is told its exit status, and later requests are answered as if it had not printed anything.", "quantifier": "all commands, also with capture_output=False", "why_tests_cant": "all outputs of commands, including ones that look like packets", "anchors": ["src/fora/connectors/tunnel_dispatcher.py:PacketProcessRun.handle", "src/fora/connectors/tunnel_connector.py:TunnelConnector.run"]}
{"id": "C69", "title": "Reported states cannot control the terminal", "statement": "What is printed of the initial and final state of an operation contains no control characters that come from the remote.", "quantifier": "all states and verbosities", "why_tests_cant": "all remote values, such as link targets", "anchors": ["src/fora/logger.py:_operation_state_infos", "src/fora/operations/files.py:link"]}
{"id": "C70", "title": "The failure of a command reaches the caller", "statement": "When a command fails inside a script, the exception that leaves run_script is the one of the command.", "quantifier": "all exceptions", "why_tests_cant": "all exceptions", "anchors": ["src/fora/loader.py:run_script", "src/fora/utils.py:print_process_error"]}
{"id": "C71", "title": "systemd.daemon_reload reloads once", "statement": "A successful systemd.daemon_reload made exactly one reload, of the system's or of the user's service manager as requested, and reports a change; if the command fails so does the operation.", "quantifier": "all systems and outcomes", "why_tests_cant": "all outcomes of commands", "anchors": ["src/fora/operations/systemd.py:daemon_reload"]}
{"id": "C72", "title": "Queries tell the truth", "statement": "query_user, query_group, home_dir, getenv, download and download_or return the values of the account, group, variable or file that the name denotes on the remote, return the default (or raise ValueError) exactly if there is none, and change nothing.", "quantifier": "all accounts, groups, environments, file systems and states of the connection", "why_tests_cant": "all remote states", "anchors": ["src/fora/connection.py:Connection.query_user", "src/fora/connection.py:Connection.query_group", "src/fora/connection.py:Connection.home_dir", "src/fora/connection.py:Connection.getenv", "src/fora/connection.py:Connection.download_or", "src/fora/connectors/tunnel_dispatcher.py:PacketQueryUser.handle"]}
{"id": "C73", "title": "A deploy script that ran through changes nothing when it is run again", "statement": "After a script that creates directories, files, links, contents and trees and edits lines ran through, running the whole script again succeeds, reports changed=False for every operation and leaves the remote as it is.", "quantifier": "all scripts (any number and order of operations), arguments, settings, file systems and accounts", "why_tests_cant": "all sequences of operations on all remote states; the effect of a step depends on all steps before it", "anchors": ["src/fora/operations/files.py:directory", "src/fora/operations/files.py:file", "src/fora/operations/files.py:link", "src/fora/operations/files.py:upload_content", "src/fora/operations/files.py:upload_dir", "src/fora/operations/files.py:template", "src/fora/operations/files.py:line"]}
{"id": "C74", "title": "A dry run of a script tells what the run would tell", "statement": "With --dry, a script that creates directories, files, links, contents and trees and edits lines reports for every operation the result that the real run from the same state reports, and leaves the remote and the process as they are.", "quantifier": "all scripts (any number and order of operations), arguments, settings, file systems and accounts", "why_tests_cant": "all sequences of operations on all remote states; in a dry run the later operations see none of the effects of the earlier ones", "anchors": ["src/fora/operations/files.py:directory", "src/fora/operations/files.py:file", "src/fora/operations/files.py:link", "src/fora/operations/files.py:upload_content", "src/fora/operations/files.py:upload_dir", "src/fora/operations/files.py:template", "src/fora/operations/files.py:line", "src/fora/operations/api.py:Operation"]}
{"id": "C75", "title": "The dispatcher that is started is the one that was read", "statement": "The command that the ssh connector hands to ssh makes the shell of the remote start python3 with exactly the source of the dispatcher (but for trailing newlines) and with --debug iff it was asked for, whatever characters the source contains; the destination is never taken for an option; the local connector starts the file.", "quantifier": "all sources, urls, options and remotes whose echo, base64 and python work", "why_tests_cant": "all byte strings: quoting, encoding and word splitting of a generated command", "anchors": ["src/fora/connectors/ssh.py:SshConnector.command", "src/fora/connectors/local.py:LocalConnector.command", "src/fora/connectors/tunnel_dispatcher.py:_main"]}
{"id": "C76", "title": "The inventory says who defined a variable", "statement": "fora --inspect-inventory lists for a host exactly its variables, each once, what every host has first and the others by the module that changed them last; the column 'defined by' names the module that bound the variable last and those that modified it since.", "quantifier": "all inventories, groups, orders, module files and variables", "why_tests_cant": "all inventories; the attribution depends on the whole history of a host", "anchors": ["src/fora/main.py:show_inventory", "src/fora/inventory_wrapper.py:InventoryWrapper.instanciate_host", "src/fora/types.py:ModuleWrapper.vars_hierarchical"]}
{"id": "C77", "title": "Tables show everything and are aligned", "statement": "print_table shows the header, a rule and every row with all its cells in full, with or without colours; if there is a layout that fits the terminal then the bars of all lines are below each other and no line is wider than the terminal.", "quantifier": "all headers, rows, colours, minimal widths and terminals", "why_tests_cant": "all cell widths and terminals", "anchors": ["src/fora/utils.py:print_table", "src/fora/utils.py:ansipad", "src/fora/main.py:show_inventory"]}
{"id": "C78", "title": "The report of an operation shows what changed", "statement": "For every operation that succeeds with --changes, the report names the operation and lists exactly the keys of the final state that are new (with -v all that are set), in order, with their old and new value; values that differ look different; a failed operation is reported with its message; printing never fails.", "quantifier": "all states, values, verbosities, colours and indentations", "why_tests_cant": "all pairs of states", "anchors": ["src/fora/logger.py:_operation_state_infos", "src/fora/logger.py:print_operation", "src/fora/logger.py:print_operation_title"]}
{"id": "C79", "title": "The diff tells contents apart", "statement": "The diff of two contents names the file and whether it is created, modified or deleted; from it one can read exactly the lines that are removed and those that are added; different lines are shown differently.", "quantifier": "all contents (any bytes, or no file), file names and diff algorithms that keep difflib's contract", "why_tests_cant": "all byte strings: escaping must be invertible", "anchors": ["src/fora/logger.py:diff", "src/fora/logger.py:decode_escape"]}
{"id": "C80", "title": "A host url in place of an inventory means exactly that host", "statement": "If the inventory argument is [user@]host, ssh://[user@]host[:port] or local:[name], then exactly one host is loaded, with that url (ssh if there is no schema) and name, and without any variables from groups or modules; a url with another schema is refused with a FatalError.", "quantifier": "all users, hosts, ports, names, set orders and module files around", "why_tests_cant": "all urls", "anchors": ["src/fora/loader.py:load_inventory", "src/fora/loader.py:ImmediateInventory", "src/fora/inventory_wrapper.py:InventoryWrapper.load"]}
{"id": "C81", "title": "Colours can be switched off", "statement": "If --no-color is given, NO_COLOR is set or the output is not a terminal, then fora writes no escape sequences of its own: what is printed about an operation, an inventory or for debugging contains none unless the names and values shown do.", "quantifier": "all operations, results, options, indentations and environments", "why_tests_cant": "all combinations of options, environment and reported data", "anchors": ["src/fora/logger.py:use_color", "src/fora/logger.py:col", "src/fora/logger.py:print_operation", "src/fora/logger.py:debug", "src/fora/main.py:main"]}
{"id": "C82", "title": "Each operation is shown once", "statement": "The title that is printed before an operation runs is replaced by the title with the result: on the screen, and in a log, there is one title per operation, followed by its report.", "quantifier": "all operations, results, options, indentations and widths of the terminal", "why_tests_cant": "all titles and widths of terminals", "anchors": ["src/fora/logger.py:print_operation_early", "src/fora/logger.py:print_operation", "src/fora/logger.py:print_operation_title", "src/fora/operations/api.py:Operation.desc"]}
{"id": "C83", "title": "An error says where it comes from", "statement": "The exception that ends a deploy carries the stack of the scripts that were running where it was raised, however it was caught and raised again on the way; the printed script stack lists these calls in order and the traceback starts at the last user module; the output of a failed command is printed at most once, and once if the failure ends the deploy.", "quantifier": "all scripts: any nesting of script calls, operations, handlers and failures", "why_tests_cant": "all executions, through any number of handlers", "anchors": ["src/fora/loader.py:run_script", "src/fora/operations/api.py:operation", "src/fora/utils.py:print_exception", "src/fora/utils.py:script_trace"]}
{"id": "C84", "title": "fora --init only adds the layout", "statement": "fora --init LAYOUT does nothing to a directory that is not empty unless the user answers yes; in an empty directory it creates exactly the directories and files of the layout; in any case it changes nothing but these files, exit status 0 means that all of them are there with their contents, a second run changes no content, and the scripts only call functions that exist.", "quantifier": "all layouts, answers, file systems and failures of system calls", "why_tests_cant": "all states of the directory and all failures", "anchors": ["src/fora/example_deploys.py:init_deploy_structure", "src/fora/example_deploys.py:_create_dirs", "src/fora/example_deploys.py:_write_file"]}
{"id": "C85", "title": "Operations run only their own commands, and values never become options or shell text", "statement": "A call of any operation runs nothing on the remote but the documented commands about the thing it is called for (mkdir/touch/chmod/chown/rm of that path, useradd/usermod/userdel of that user, the package manager with those packages, systemctl with that unit, git with that repository): whatever other programs do makes no difference. In a dry run only programs that look are started. What the call is given arrives at the program as an operand or as the value of the option for it, never as an option, and never in the text of a shell.", "quantifier": "all operations, arguments, states of the remote, answers of its programs and outcomes", "why_tests_cant": "what is never run cannot be shown by runs; values are arbitrary texts", "anchors": ["src/fora/operations/files.py", "src/fora/operations/system.py", "src/fora/operations/systemd.py", "src/fora/operations/git.py", "src/fora/operations/pacman.py", "src/fora/operations/apt.py", "src/fora/operations/portage.py", "src/fora/operations/utils.py:generic_package"]}
{"id": "C86", "title": "Things are taken away only if that is asked for", "statement": "An operation that is not called with present=False runs no command that removes files, users, groups or packages.", "quantifier": "all operations, arguments, states of the remote, answers of its programs and outcomes", "why_tests_cant": "all arguments and all answers of the remote", "anchors": ["src/fora/operations/files.py", "src/fora/operations/system.py", "src/fora/operations/apt.py:package"]}
{"id": "C87", "title": "Exit status 0 means that everything was done", "statement": "If fora ends with status 0, the inventory was loaded and on every selected host a connection was opened, the script ran to its end and the connection was closed; an inventory that cannot be loaded, an unknown host and an exception in a script give another status.", "quantifier": "all inventories, selections, scripts and failures of connections", "why_tests_cant": "all combinations of outcomes on all hosts", "anchors": ["src/fora/main.py:main_run", "src/fora/loader.py:run_script"]}
{"id": "C88", "title": "An interrupted change of accounts can be repeated", "statement": "If system.user or system.group fails at any point (a command fails, is killed, or the connection is lost before or after it took effect), no other account is affected and every value of the account is the old one or the one asked for; and when a later attempt succeeds, the result is what one undisturbed run would have given, relative to the state before the first attempt.", "quantifier": "all requests, all account databases, all points of failure, all behaviours of the account commands that do all or nothing", "why_tests_cant": "every point of interruption in every combination of options", "anchors": ["src/fora/operations/system.py:user", "src/fora/operations/system.py:group"]}
{"id": "C89", "title": "Operations act on the host whose script is running", "statement": "Operations and local.script are refused in inventory, group and host modules, and accepted in scripts; what an operation does, it does on the host whose script is running, also if the script opens other connections. If user code opens no connections itself, at any time at most one host is connected, every request goes to it, and it is one of the hosts asked for. A deploy file given as the inventory touches no host.", "quantifier": "all user modules and scripts (any use of operations, connections, nested scripts, exception handlers), all inventories, all answers and failures", "why_tests_cant": "all user programs and all interleavings of loading and running", "anchors": ["src/fora/utils.py:check_host_active", "src/fora/operations/api.py:operation", "src/fora/main.py:main_run", "src/fora/inventory_wrapper.py:load_host"]}
{"id": "C90", "title": "A script for accounts, packages and services can be run again", "statement": "After a script of system.group, system.user, pacman.package and systemd.service steps ran through, everything it asked for holds at once (no later step undid an earlier one). Running the whole script again, also from another session, changes nothing on the remote and, if it runs through, reports every step as unchanged.", "quantifier": "all such scripts whose steps do not contradict one another, all systems, all package and service managers that do their part", "why_tests_cant": "all sequences of steps and all states they pass through; interference between steps of different kinds", "anchors": ["src/fora/operations/system.py:user", "src/fora/operations/system.py:group", "src/fora/operations/pacman.py:package", "src/fora/operations/systemd.py:service"]}
{"id": "C91", "title": "The command line does what it says", "statement": "Whatever the order of options and words, a command line with an inventory and a script is run with exactly the options it gives. A run is a dry run exactly if one of the options for it (or an unambiguous abbreviation) is given. With a misspelled option, or with an option that asks for something else (help, version, --init, --inspect-inventory), no script is run. The inventory and the script are the arguments given, in this order, and --hosts is what was given. --init is done only with one of the five layouts, and with each of them.", "quantifier": "all command lines (any number of arguments, any strings)", "why_tests_cant": "unbounded command lines; abbreviations, clusters of short options and values attached to them interact", "anchors": ["src/fora/main.py:main"]}
{"id": "C92", "title": "An interrupted package, service or repository operation can be repeated", "statement": "After any number of attempts that failed or were interrupted in any way, one attempt that succeeds leaves the system as a single successful run would: all packages are installed (removed), and no package was lost (gained) on the way; the unit is in the requested state and enablement, and what was not requested is as before the first attempt; the checkout is at the newest commit of the branch with its submodules fetched.", "quantifier": "all arguments, all numbers of attempts, all ways in which they end, all systems whose programs keep their contracts", "why_tests_cant": "needs failures at every point of every attempt, over an unbounded number of attempts", "anchors": ["src/fora/operations/utils.py:generic_package", "src/fora/operations/pacman.py:package", "src/fora/operations/portage.py:package", "src/fora/operations/systemd.py:service", "src/fora/operations/git.py:repo"]}
{"id": "C93", "title": "The whole program does to the hosts what the command line says", "statement": "A command line with an option for a dry run changes nothing on any host, as long as the scripts act through operations: the only commands that are run anywhere are the questions of the operations. In any run the hosts that are touched are selected ones; they are visited one after the other, each once, up to the first on which something goes wrong, and what happens to a host is what the script does there. Hosts that --hosts does not name are left alone; if it names an unknown host, nothing is touched at all.", "quantifier": "all command lines, inventories, numbers of hosts, scripts (which may react to results, catch exceptions, call other scripts), states of the hosts and failures", "why_tests_cant": "spans the command line, host selection, connections, nested scripts and every operation; tests exercise these separately and cannot enumerate scripts", "anchors": ["src/fora/main.py:main", "src/fora/main.py:main_run", "src/fora/connection.py:open_connection", "src/fora/loader.py:run_script", "src/fora/operations/api.py:operation"]}
{"id": "C94", "title": "Giving the same command line again changes nothing on any host", "statement": "If fora has carried out a command line, giving it again (in a new process that starts in the same directory) is carried out again on the same hosts, no operation reports a change, and the systems of all hosts stay exactly as they are.", "quantifier": "all command lines without a dry run, inventories, numbers of hosts, scripts that are lists of operations on files (for each host its own), and states of the hosts", "why_tests_cant": "two complete executions on every host are compared; the states in which scripts, defaults and connections start in the second process differ from those at the end of the first, and hosts and scripts are unbounded in number", "anchors": ["src/fora/main.py:22-64", "src/fora/loader.py:85-147", "src/fora/connection.py:26-53", "src/fora/operations/files.py:55-722", "src/fora/operations/api.py:33-293"]}
{"id": "C95", "title": "A host is reached at the place its url says", "statement": "The url of a host is that of its file, else that of its last group that sets one, else that of the variables of its declaration, else that of the inventory, else the one in the list of hosts. If no connector class is given, the program that fora starts for the host is ssh with exactly the user, host name and port of this url (and the options of the host), or python3 on this machine for local urls.", "quantifier": "all inventories whose files assign constants, hosts, groups, user names, host names, ports, ssh options, active scripts", "why_tests_cant": "the url passes through five namespaces that overwrite one another and two spellings of ssh urls; tests connect to one host with one spelling", "anchors": ["src/fora/types.py:256-284", "src/fora/connectors/ssh.py:17-52", "src/fora/connectors/local.py:15-36", "src/fora/inventory_wrapper.py:299-322", "src/fora/inventory_wrapper.py:630-676", "src/fora/inventory_wrapper.py:697-823"]}
{"id": "C96", "title": "Hosts that fora does not know how to reach are found out when the inventory is loaded", "statement": "If an inventory is loaded, fora knows a connector for every host in it, so no host is changed in a run that cannot reach another host for want of a connector.", "quantifier": "all inventories whose files assign constants, hosts, command lines", "why_tests_cant": "needs a statement about all declarations that are accepted, and about the order of effects over several hosts", "anchors": ["src/fora/types.py:256-284", "src/fora/inventory_wrapper.py:353-391", "src/fora/connection.py:26-35", "src/fora/main.py:53-64"]}
{"id": "C97", "title": "A dry run of a script for accounts, packages and services tells what the run will tell", "statement": "If a script of system.group, system.user, pacman.package and systemd.service steps runs through, a dry run of it beforehand that comes to its end returned for every step exactly the same result (changed or not, the state before and the state after), and left the system as it was.", "quantifier": "all such scripts in which no step changes what a later step is about, all arguments, all systems, all package and service managers whose answers are right", "why_tests_cant": "compares two executions over unbounded scripts: in the dry run every step sees the first state, in the run the state the earlier steps made", "anchors": ["src/fora/operations/system.py:10-300", "src/fora/operations/utils.py:53-105", "src/fora/operations/pacman.py:9-59", "src/fora/operations/systemd.py:46-118", "src/fora/operations/api.py:33-293"]}
{"id": "C98", "title": "Giving the same command line again changes nothing on any host (accounts, packages and services)", "statement": "After `fora INVENTORY SCRIPT` has ended without an error, every group, account, package and unit the script asked for is as asked on every selected host. Giving the same command line again leaves every host as it is, however that run ends, and no operation of it reports a change: a script that ends with an error whenever something changed behaves the same.", "quantifier": "all inventories, host selections, connectors and command lines without --dry, all scripts (a different one for each host if need be) that are lists of system.group, system.user, pacman.package and systemd.service steps which do not contradict one another, all hosts whose programs do what their manuals say", "why_tests_cant": "covers two whole runs over unboundedly many hosts, with connections that fail at any point and programs known only by contract", "anchors": ["src/fora/main.py:22-64", "src/fora/loader.py:85-147", "src/fora/operations/system.py:10-300", "src/fora/operations/pacman.py:9-59", "src/fora/operations/systemd.py:46-118"]}
{"id": "C99", "title": "Accounts, packages, services and then files: running such a script again changes nothing", "statement": "A script that first sets up groups, accounts, packages and units and then files (which may belong to the new accounts) and has run through can be run again: what the first part asked for still holds after the second part, running the first part again leaves the host as it is and reports no change, and so does running the second part again.", "quantifier": "all lists of system.group, system.user, pacman.package and systemd.service steps that do not contradict one another, followed by all lists of file operations about different files; all hosts whose programs do what their manuals say", "why_tests_cant": "the two halves act on the same host, and the owners of the files are looked up in account data that the first half writes; no finite set of scripts covers the interplay", "anchors": ["src/fora/operations/system.py:10-300", "src/fora/operations/pacman.py:9-59", "src/fora/operations/systemd.py:46-118", "src/fora/operations/files.py:55-722"]}
