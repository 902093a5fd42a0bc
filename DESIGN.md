# Design of the formal model of oddlama/fora

The source (python, in `/repo/src/fora`) is read as text. The model is written in
Rocq/Coq 8.16.1 with std++ (finite maps, decidable equality) in `rocq/theories`.

## Method

* Every modelled python function is a Gallina function with the same branches.
  Exceptions are values of `exn`; a computation returns `Ok v` or `Err e`.
  A comment above each definition cites file and lines and names simplifications.
* External behaviour (kernel, coreutils, shadow-utils, systemd, package managers,
  git) is modelled by explicit executable functions over a remote state `os`
  (file system, passwd/group/shadow, environment, packages, units). These are
  assumptions about the environment, listed below, not about fora.
* SHA-512 and regular expressions are parameters (universally quantified functions)
  of the definitions that use them; where SHA-512 needs to be collision free
  this is a hypothesis of the theorem concerned.
* Properties are stated in `Prop_*.v` with small specifications (relations,
  inductive predicates) that do not mention the helpers of the model; each theorem is
  closed by `exact lemma`, followed by `Print Assumptions`, and accompanied by an
  `Example` showing that its hypotheses are met by a concrete non trivial case.
* A property that is false of the faithful model gets a theorem `.._refuted`
  with a concrete witness and, where useful, `.._partial` for the part that holds.

## Files

| file | content |
|---|---|
| `Base.v` | python strings, bytes, exceptions, `int(s, base)`, `oct`, string functions |
| `Utf8.v`, `Utf8_proofs.v` | strict UTF-8 codec |
| `Codec.v`, `Spec_Codec.v`, `Codec_proofs*.v`, `Prop_Codec.v` | serializers, packets, `write_packet`, `receive_packet` over chunked streams (C01-C05) |
| `Ranks.v`, `Spec_Ranks.v`, `Ranks_proofs.v`, `Prop_Ranks.v` | `rank_sort` (C26, C27) |
| `Urls.v`, `Prop_Urls.v` | urls and host names (C34, C35) |
| `Wrapper.v`, `Dict_proofs.v`, `Spec_Wrapper.v`, `Wrapper_proofs.v`, `Prop_Wrapper.v` | `ModuleWrapper`, host attribute lookup, template variables (C36-C38) |
| `Paths.v` | `os.path` functions |
| `Inventory*.v`, `Spec_Inventory.v`, `Prop_Inventory.v` | declarations, group order, host instantiation, conflicts (C28-C33, C66) |
| `Sys.v`, `Spec_Sys.v`, `Sys_proofs.v` | remote OS state, path resolution, system calls with a schedule of failures |
| `Dispatcher.v` | packet handlers and the `_main` loop of the tunnel dispatcher |
| `Client.v` | `TunnelConnector`: requests over byte streams and as direct calls |
| `Spec_Session.v`, `Session_proofs.v`, `Prop_Session.v` | conversations (C06-C08, C68) |
| `Spec_Remote.v`, `Remote_*.v`, `Prop_Remote.v` | uploads, commands, names, stat (C09-C16, C67) |
| `Lifecycle.v`, `Prop_Lifecycle.v` | opening and closing connections (C17, C18) |
| `Control.v`, `Spec_Control.v` | settings, defaults, `Connection`, scripts as programs, `run_script`, `local.script` |
| `Control_proofs.v`, `Control_settle.v`, `Control_isolation.v`, `Quiet.v`, `Readonly.v`, `Direct.v`, `Digits.v`, `Prop_Control.v` | C19-C24 |
| `Params.v`, `Prop_Params.v` | parameters of scripts (C25) |
| `Op.v`, `Spec_Op.v`, `Op_proofs.v`, `Prop_Op.v` | `Operation` and the `operation` decorator (C39, C40) |
| `Coreutils.v` | the GNU commands which operations run, on the remote state of `Sys.v` |
| `Files.v` | `operations/files.py`, `save_content`, `check_absolute_path` |
| `Files_plain.v` | the same operations without the bookkeeping of `Operation`, proved equal |
| `Spec_Files.v` | what file operations are about: `at_path`, `owned`, `means`, `only_at`, `attainable`, `feasible`, `ready` |
| `Walk_proofs.v`, `Shell_proofs.v`, `Thrift.v`, `Steps.v`, `Dir_proofs.v`, `Converge.v` | path resolution in growing file systems, single commands, defaults of an operation, the bodies of `directory` and `file`, second runs |
| `Files_examples.v`, `Prop_Files.v` | C43, C44, C48 |
| `Spec_Link.v`, `Link_walk.v`, `Link_proofs.v`, `Prop_Link.v` | C45: path resolution when links are created and replaced, what `ln -sf` does, the theorems |
| `Frugal.v`, `Spec_Tree.v`, `Tree_proofs.v`, `Tree_run.v`, `Prop_Tree.v`, `Prop_Tree_again.v` | C53: what runs without effect leave, local trees and paths of names, the plan of upload_dir and how it is carried out |
| `Sound.v`, `Rerun_proofs.v`, `Prop_Rerun.v` | C47: operations keep the remote state well formed, what remains after an interrupted removal, reruns |
| `Transfer.v`, `Content_proofs.v`, `Prop_Content.v` | uploads and downloads of operations, `save_content` (C46) |
| `Spec_Line.v`, `Line_text.v` | lines of texts that are bytes with undecodable parts |
| `Line_proofs.v`, `Prop_Line.v` | `files.line` on the system, `cp -a`, backups (C49-C52) |
| `Dry_proofs.v`, `Dry_files.v`, `Prop_Dry.v`, `Dry_system.v`, `Prop_Tried.v`, `Tree_dry.v`, `Prop_Tree_dry.v` | C41, C42 |
| `Main.v`, `Prop_Main.v` | `main_run`: selection of hosts, connections of a run (C62, C63) |
| `System.v` | `operations/utils.py` 18-105, `pacman.py`, `portage.py`, `apt.py`, `systemd.py`, `git.py`, `system.py` |
| `Spec_Commands.v`, `Commands_proofs.v` | histories of commands, what package managers promise; rules for operations made of commands |
| `Package_proofs.v`, `Prop_Package.v` | C57: `generic_package` and its instances |
| `Bash.v`, `Prop_Detect.v` | C58: the part of bash that the probing script uses |
| `Prop_Query.v` | C72: the queries of a connection |
| `Spec_Script.v`, `Script_proofs.v`, `Script_line.v`, `Prop_Script.v` | C73: deploy scripts of several operations on files |
| `Upward.v`, `Script_dry.v`, `Prop_Script_dry.v` | C74: the same scripts with --dry (`Upward.v`: a connection that holds at the end held all the time) |
| `Bootstrap.v`, `Sh.v`, `Spec_Bootstrap.v`, `Bootstrap_proofs.v`, `Prop_Bootstrap.v` | C75: `ssh.py` 17-52, `local.py` 24-36; a part of the POSIX shell |
| `Inspect.v`, `Spec_Inspect.v`, `Inspect_proofs.v`, `Prop_Inspect.v` | C76: `main.py` 142-185, `utils.py` 59-120 |
| `Spec_Table.v`, `Prop_Table.v` | C77: what one sees of a table |
| `Spec_Report.v`, `Prop_Report.v` | C78, C79: the report of an operation and the diff |
| `Immediate.v`, `Prop_Immediate.v` | C80: an inventory that is a single host |
| `Output.v`, `Spec_Terminal.v`, `Prop_Output.v` | C81, C82: colours, early titles, a terminal (`main.py` 248-272, `logger.py` 25-33, 80-97, 125-136, `api.py` 84-97, 186-221) |
| `Trace.v`, `Spec_Trace.v`, `Prop_Trace.v` | C83: exceptions on their way through scripts and operations (`loader.py` 108-147, `api.py` 260-279, `utils.py` 231-281) |
| `Init.v`, `Spec_Init.v`, `Init_proofs.v`, `Prop_Init.v` | C84: `fora --init` (`example_deploys.py`); the texts of all example files are copied into `Init.v` by a script |
| `Spec_Footprint.v`, `Footprint_proofs.v`, `Prop_Footprint.v`, `Prop_Reach.v` | C85, C86: which commands operations run on the remote, and how the programs read them |
| `Spec_Interrupted.v`, `Prop_Interrupted.v` | C88: interrupted `system.user` and `system.group` (`operations/system.py` 10-300 as in `System.v`) |
| `Turns.v`, `Prop_Turns.v` | C89: the globals `fora.inventory` and `fora.host`, all user modules, all hosts (`utils.py` 316-321, `api.py` 252-260, `local.py` 44-54, `connection.py` 31-42, `loader.py` 44-147, `inventory_wrapper.py` 547-823, `main.py` 22-64, as far as they decide who is addressed) |
| `Spec_Tasks.v`, `Prop_Tasks.v` | C90: scripts of `system.group`, `system.user`, `pacman.package`, `systemd.service` (the operations as in `System.v`) |
| `Options.v`, `Spec_Options.v`, `Options_proofs.v`, `Prop_Options.v` | C91: `main` 209-251 (the options) and what python 3.11's `argparse` makes of them: `_parse_known_args`, `_parse_optional`, `_get_option_tuples`, `_get_values`, `_match_arguments_partial` for this parser. Help texts and error messages are left out. Other python versions treat corner cases of `--` and of clusters differently. As a test of the model (not a proof) it was compared with the standard library's argparse (a parser with the same options, not the project's code) on 12000 random command lines, without a difference. |
| `Spec_Repeat.v`, `Prop_Repeat.v` | C92: `tries` (any number of attempts), `confined_verbs`, `git_atomic`, `fills_submodules`; no new code is modelled |
| `Fleet.v`, `Spec_Fleet.v`, `Prop_Fleet.v` | C93: `main` 246-272 and `main_run` 22-64 with a system behind every host; scripts (`tale`) as in Control.v, with all operations of `Prop_Tried.call` under `fora.args` |
| `Spec_Again.v`, `Again_proofs.v`, `Prop_Again.v` | C94: two runs of `fora` (Fleet.v) after one another |
| `Connect.v`, `Spec_Connect.v`, `Prop_Connect.v` | C95, C96: types.py 256-284 (`create_connector`), connectors/connector.py 405-420 (the registry as it is after the import of both connectors); `opened` puts it in front of the sessions of Fleet.v |
| `Prop_Rehearse.v` | C97. The steps of `Prop_Tasks.v` with and without --dry |
| `Prop_Settled.v` | C98. Two whole runs of the command with scripts of the steps of `Prop_Tasks.v` |
| `Prop_Mixed.v` | C99. Scripts with the steps of `Prop_Tasks.v` and then those of `Prop_Script.v` |
| `Prop_Status.v` | C87: the exit status of a deploy (`main.py` 22-64 as in `Main.v`) |
| `Spec_Service.v`, `Prop_Service.v` | C59, C60, C71: what systemctl promises, `systemd.service`, `systemd.daemon_reload` |
| `Spec_Account.v`, `Query_proofs.v`, `Account_proofs.v`, `Account_run.v`, `Shadow.v`, `Prop_Account.v` | C54-C56: accounts, what the shadow programs promise, `system.user`, `system.group`; concrete programs |
| `Spec_Git.v`, `Git_proofs.v`, `Git_prog.v`, `Prop_Git.v` | C61: repositories and checkouts, what git promises, `git.repo`; a concrete git |
| `Logger.v`, `Prop_Logger.v` | `ellipsis`, `decode_escape`, `diff`, `_operation_state_infos`, `print_process_error` (C64, C65, C69, C70) |

## Per property

| id | what is modelled | how it is proved |
|---|---|---|
| C01 | serializers/deserializers, packet table, buffered reads over a list of chunks | induction on types/values/fields; round trip law |
| C02 | same | from C01 by induction on the sequences |
| C03 | same, EOF returns short data | refuted with a download response; partial: fixed-width last field, and the exact shape of what is accepted |
| C04 | same, on arbitrary chunks; fuel for `range(n)` proved sufficient | structural induction |
| C05 | client output buffer keeps bytes of a failed write | refuted with witness; partial for encodable requests |
| C06 | client, two byte streams, `_main` loop | simulation: byte-level session refines direct calls, induction over histories |
| C07 | `_main`, handlers | case analysis over handlers |
| C08 | same | refuted (pre-1970 mtime, NUL in path, empty command); partial with the exact side condition |
| C09 | handlers of upload and run | case analysis |
| C10 | upload/download handlers, path resolution | functional correctness |
| C11,C12 | upload as a list of system calls, crash after any prefix | invariant over prefixes; C12 refuted |
| C13,C14 | credentials, working directory, umask and environment of the child (`Dispatcher.v` handling of process requests, `Client.v` run) | the process that is started has exactly the requested identity (C13), for requests with captured output; C14 refuted: supplementary groups are those of the dispatcher |
| C15 | resolve handlers | case analysis; idempotence |
| C16 | stat handler and client | functional correctness |
| C67 | `isdir` and the two changes of directory of the child | refuted; the exact directory |
| C68 | output of the child on the protocol stream | refuted with a forged answer; proved for captured output |
| C17,C18 | process life cycle with a failure oracle for each step | case analysis; C18 refuted for failures while entering |
| C19 | Connection.run, TunnelConnector.run | functional correctness |
| C20,C21 | stack of defaults, programs as an inductive syntax | induction on programs / on nesting |
| C22 | `int(s,8)`, `oct` | arithmetic round trip |
| C23 | run_script over an abstract interpreter state | induction on programs |
| C24 | definition_file, samefile | refuted |
| C25 | Params | induction on the annotation list |
| C26,C27 | rank_sort with KeyError and fuel | loop invariants, measure; spec by paths |
| C28,C29 | declaration preprocessing, merge, order | functional correctness and C26/C27 |
| C30,C31 | rank overlap test | refuted both ways; exact characterisation |
| C32 | instanciate_host for constant assignments | order invariance by rank argument |
| C33 | instanciate_host | fold invariants |
| C34,C35 | url functions | string lemmas; C35 refuted |
| C36,C37,C38 | attribute lookup | case analysis; C36 refuted for single underscore; C38 refuted |
| C39,C40 | Operation state machine and decorator | invariants over call sequences; C40 refuted |
| C41,C42 | all operations (`call`) with dry set, any programs, failures and outcomes; the questions that each may ask are spelled out (`questions`) | dry bodies are composed of requests that change nothing and of commands that are questions (`asks`); the real and the dry body are the same program except that the work is left out, so the reports agree (`predicts`, `foresees`). For upload_dir (`C42_upload_dir_predict`, under the conditions of C53_works and with every file inside something that exists) each nested operation of the real run sees its path as the dry run sees it, although the directories above it were created meanwhile (`look_same`); with failures the two runs meet them at different calls, so nothing is claimed. Refuted: where the real run reports a failure git.repo may report success when dry |
| C43,C44 | directory and file with the commands they run (mkdir, chmod, chown, touch, rm), settings of the script, any failure of system calls and of the connection | Hoare style: every command keeps the invariant "only this path" and leads to a known node; theorems for success, for any outcome (`_confined`), that it works when nothing fails (`_works`, with the exact condition for "unchanged") and for a second run. Exact modes are refuted (set-id bits), second runs are refuted for non-canonical base modes and shared ids |
| C45 | link with `ln -sf`, `chown -h`, `touch -h`, `rm` | As C43/C44. The theorems need that the path does not lead to a directory (`~ enterable`, and that the file system is a tree), or that it is already the requested link; without it `C45_link_refuted` holds: `ln -sf` creates the link inside the directory. `C45_owner_refuted`: a retargeted link loses its owner. |
| C47 | the interrupted run is any run of directory, file, upload_content/upload/template and link: any schedule of failing system calls, and a connection that is lost before or after any request takes effect. The rerun is the same call in the same state of the script over a new connection, at any later time, in which nothing fails | the first run keeps the remote state well formed (`Sound.v`) and changes at most the path (`_confined`); the theorems of C43-C46 that an undisturbed run works are applied to what is left behind. Removals leave part of the tree (`fewer`). Needs: an honest file system (no system call claims ENOENT for a file that exists), a connection as root, the working directory of the script not removed by the first run; for link also that the path does not lead to a directory afterwards (`C47_link_partial`). Refuted for `line`: an interrupted upload loses the rest of the file, and the rerun reports success |
| C46 | upload_content, upload, template_content, template (a text given as string, a destination directory, failing reads and templates), save_content, the upload and download requests, chmod and chown for a file with the same content | as C43: instances of the same section `present` of `Converge.v`; the content is written iff the SHA-512 sums differ; a failing upload leaves a prefix of the content; exact modes are refuted (set-id bits); SHA-512 collisions appear as an explicit alternative. jinja2 is an arbitrary function `render` |
| C48 | check_absolute_path in each operation | case analysis over all nine operations |
| C49-C51 | line: stat, download, decoding with surrogateescape, splitlines, strip, the search for literal lines, filtering, joining, encoding, cp, upload. `re.search` is an arbitrary function `search` | lines of a text are an inductive relation (`lines_of`), which the model's splitlines satisfies; decoding and encoding are inverse on decoded texts, and lines can be encoded one by one; the operation is reduced to its plain form and then to what it does to the system (`line_body_any`). Byte-exactness is stated over rows of bytes (`rows_of`). Deviations are refuted with concrete files |
| C52 | `cp -a -- path dirname/backup` for regular files, the date as an arbitrary text, os.path.dirname and join | the copy is inverted from the run (`copied`) and shown to be still visible after the upload; no hypothesis on the outcome of the run |
| C53 | a local tree is a type with directories, files, links and special files; os.walk gives its directories and files in listing order; the nested operations are the models of C44 and C46 | the operation carries out a plan, a list of directories and files in which each follows its parent. One invariant over the plan: all that was done is in place, and no place outside the plan differs. Links, a final slash on the source and `..` in the destination are refuted The second run (`C53_again_partial`): every item is found as wanted, so each nested operation reports no change and the state stays |
| C54 | `system.user`, the queries, and the account databases. useradd, usermod, userdel, groupadd, groupmod, groupdel are any programs with a contract (`shadow_utils`: what options mean if the exit code is 0; other accounts are left alone in any case) that is stated on parsed command lines | for any outcome other accounts and memberships are kept; after success the account is complete and has each requested value, the previous (or default) one otherwise, and its memberships are exact; nothing is run if "unchanged" is reported. On any system where the request is granted, a run does nothing. Concrete programs (`Shadow.v`) meet the contract. Refuted: uid=0, groups=[], empty texts are ignored; a group listed twice or given by number is a change on each run; names that are numbers; stray memberships |
| C55 | as C54 | for an account that is complete or absent: removed with its memberships, nothing else; refuted for accounts without a password entry or primary group, which are taken to be absent |
| C56 | as C54 | group with the requested number, members kept, other groups kept, reruns do nothing; refuted for gid=0 and names that are numbers |
| C57 | package managers are any programs with a contract: a query changes nothing and tells whether a package is installed; an installation that succeeds makes it so and removes nothing else | for any outcome the history of the commands is exact: each package is asked once, then the missing (present) ones are passed on one by one, each once. After success all are installed (absent). Concrete package managers meet the contract. Refuted: reruns with a package named twice; apt |
| C58 | the probing script is text that the model builds as the code does; `Bash.v` parses and performs it | the first available manager is run on the unchanged system; OperationError iff none; no third outcome with a working connection |
| C59,C60 | systemctl is any program with a contract: `show` prints the value and changes nothing, a verb changes that aspect of that unit of that service manager | exact history for any outcome, exact criterion for "changed", state afterwards; refuted as stated |
| C71 | as C59 | exact history |
| C61 | `git.repo`. git is any program with a contract (`git_program`): what rev-parse, ls-remote, config, clone, pull and submodule update do if the exit code is 0, to abstract upstream repositories (references and objects) and checkouts | for any outcome a beginning of the plan (`repo_plan`) was run, and nothing is affected if only questions were asked. After success the checkout is at the newest commit, and a change is reported just if it was not before, provided that the branch name is literal and selects no other commit (`distinct`) and an existing checkout follows the branch (`follows`). A rerun then works and changes nothing. A concrete git (`Git_prog.v`) meets the contract. Refuted without those conditions: a checkout of another branch, annotated tags, branches whose name is the end of another one |
| C62,C63 | `main_run` over the connectors of all hosts (`Lifecycle.v`), with any script, any end of `load_inventory` and any failure of connecting and closing. A script only uses the connection of its host | induction over the hosts, with the state of all connections recorded whenever a script starts; C63 refuted for failures of `_resolve_identity`. That the process of a closed connection ends is C18 |
| C64 | `decode_escape` (exact `isprintable` up to 0xff), `diff` with any `unified_diff`, output of failed commands | character classes; refuted for the output of failed commands, which is shown as it is under the right heading (`C64_error_output`) |
| C65 | `ellipsis` with python slices | arithmetic; refuted for width 0 |
| C69 | `_operation_state_infos` with any `str` | refuted by a link target |
| C70 | the handler in `run_script` | refuted for commands whose output is not captured; exact otherwise |
| C72 | the queries of a connection over the databases, environment and files of the remote | for any outcome, any state of the connection and any failures: an entry is that of the account (group, variable, file) that the name denotes, the default means that there is none; nothing is changed. With a working connection they are answered. Refuted: an account without a password entry or primary group is reported as missing; `home_dir()` is wrong if an account has the own uid for a name; a file name that is not UTF-8 is reported as missing |
| C73 | any list of calls of directory, file, link, upload_content, upload, template_content, template, upload_dir and line (no regex, no backup) in one script, executed in order until the first exception | if the first run ran through (on a system without failures, whatever the order of the steps) and no two steps are about the same place and no set-id bits are there, then each operation of the second run reports no change and the state of the remote and of the script is exactly the same. By induction over the script: steps only add files or change them in place (`grows`), so what an earlier step made stays where it is. A link is required to be missing or to be the link asked for when its turn comes. Refuted for two steps about the same file. Steps not covered: `line`, `present=False`, the operations of system, systemd and git |
| C74 | the scripts of C73, each call paired with the same call with dry set (`dry_call`) | if the real run ran through with the connection still up, no two steps are about the same place, and every path that led nowhere at first leads to a place that was empty, then the dry run of the whole script from the first state returns the same list of results and the same state. Proof: real steps only add or replace the file at their own place (`atom`), so each path looks at its turn as at the beginning (`look_grown`), and the dry bodies depend on nothing else (`blind`). upload_dir is a sequence of such steps |
| C75 | the command lines that the connectors build; the remote shell as a lexer with quotes, command substitution, pipes and word splitting (`Sh.v`); base64 after RFC 4648 as a relation; programs by contract (`echo_works`, `base64_works`, `python_works`) | for all sources without NUL and all options the shell starts python3 with the source less its trailing newlines and `--debug` iff wanted; ssh gets a destination that begins with ssh://. By computation of the lexer on the fixed parts and induction over the encoded part (it has no quote). Refuted without a program `python` |
| C76 | the rows of the table of variables (`host_rows`) from the recorded history (`record_variable_change` of `Inventory.v`) | completeness, order and places for all inventories. Attribution: the spec `authors` replays the exported variables after each module (`life`) and is independent of the recorded history; by induction over the modules the last snapshots agree with it (`matches`) for steady variables. Refuted for variables first bound to None |
| C77 | `print_table` as the list of printed lines (`Inspect.v`), terminal width and colours as parameters | the spec removes control sequences (`seen`) and asks for the texts of the cells, the bars and their positions. Cells: by induction over rows. Alignment: the computed widths suffice if everything fits and at most one column exceeds its share, since the rest then goes to that column (`rest_one`). Refuted for two such columns |
| C78 | `_operation_state_infos`, `print_operation`, `print_operation_title`, `indent_prefix`, `ellipsis` (`Logger.v`) as the list of printed lines; `str()` of other values is a parameter | `C78_entries`: the entries, seen without control sequences, are those the spec asks for (`entry_for`, `reported`), in order, by induction over the final state. `C78_printed`: title, failure message, entries and diffs all occur in the printed lines. |
| C79 | `logger.diff`, `decode_escape` (`Logger.v`); difflib is a parameter with the contract `difflib_ok` (an edit script of the two lists of lines; all removed and added lines are shown), shown to be satisfiable by `simple_diff` | what stands behind '-' and '+' is read back with an independent `unescaped` and gives exactly the removed and added lines, for contents in UTF-8 without backslashes. |
| C80 | `load_inventory`, `ImmediateInventory` (`Immediate.v`) on top of `Inventory.v`; executing an inventory file is a parameter; the override of `group_module_file`/`host_module_file` is modelled as an environment without module files | the load of a single host is computed symbolically (any url, any set order, any object identities): one host with this url and name, no variable but `fora_managed`. Other schemas end in FatalError. |
| C81 | `no_color`, `use_color`, `debug`, and `desc`/`success`/`failure` around `print_operation` (`Output.v`). The claim is that the text written does not contain ESC. Reading the options is the subject of C91; here only when [fora.args] is set. Proved for reports without diffs and, with NO_COLOR, for tables; refuted for diffs, debugging output, and the functions that run while the options are read. |
| C82 | The whole output of an operation (`operation_output`) on a terminal with rows of a width (`Spec_Terminal.v`: CR, LF, wrapping; every character takes one column, control sequences none). The screen is compared with that of the text that has the title once. Proved for titles that fit into a row; refuted for longer ones and for logs. |
| C83 | `ordinary` (all exceptions but `sys.exit`) and `C83_exit`/`C83_exit_through` were added when a mutant of `is_exception` survived. Exception objects with their attributes `script_stack` and `__fora_already_printed`, and what `run_script` and the operation wrapper do with them (`Trace.v`), on trees of calls, operations, handlers (with and without `raise` at their end) and failures. The specification (`Spec_Trace.v`) is syntactic: the calls around the place of the failure. Frames are opaque but for what is printed of them; of a traceback it matters which frames run user modules. `with_traceback` is not modelled. |
| C84 | `example_deploys.py` on the file system of `Sys.v`: prompt, `Path.mkdir(exist_ok=True)` with its rules for errors, and writing files, for the five layouts with their texts. Proved by induction on the list of actions, for lists in which every path lies in a directory made before; that the five lists are of this kind is computed. The tables `dirs_of` and `files_of` of the specification are written by hand. `C84_confined_partial` and `C84_success` hold for all schedules of failing system calls. `usable` speaks about all calls of the form `files.f(`, `system.f(`, `local.f(` and `host.f(` in the texts. Simplified: modes of new files (0600), messages. |
| C85 | `only_runs may m` (`Spec_Footprint.v`): replacing what all programs outside of `may` do makes no difference to the run `m`, for every state of the remote, every fault and every outcome, so it also holds of a remote whose programs do whatever they like. `may` is stated by how a program reads its arguments (`reads`: options, options with a value, operands, `--`), not by the argument lists of the model. Proved by congruence through dispatcher, connection and operation (`Footprint_proofs.v`), operation by operation (`Prop_Footprint.v`) and for all calls at once (`C85_commands_partial`); corollaries: a dry run only starts programs that look (`C85_dry`), and the only texts for a shell are the two constants that look for package and service managers (`C85_shell`). A mode that is asked for never becomes an option, since `defaults` brings it into octal digits. Not covered: own options for a package manager that take a value or are `--` (hypothesis `alone`); what the programs do with operands (e.g. git with urls that begin with a dash: behind `--`); names of the accounts of the remote that begin with a dash (`chown -x:y -- path`, spelled out in `sets`; `C85_names_refuted`); `--groups` joins names with commas. |
| C86 | `takes_away`: rm, userdel, groupdel, pacman -R, apt-get remove or a package name that ends with a minus, emerge --depclean. `C86_keeps_partial` follows from C85 if no package name ends with a minus; `C86_refuted` is `apt.package(["vim-"])`. Contents of files that are replaced, and group memberships that `usermod --groups` replaces, do not count as taken away. |
| C87 | `exit_status`: 0 after the last statement, the low byte of the argument of `sys.exit`, else 1 (python's rule for uncaught exceptions, also with the exception hook). `complete` says that the inventory was loaded, that the selected hosts are those asked for, once each, and that on each a connection was opened, the script returned and the connection was closed. Proved from the lemmas of C62/C63 by induction on the selected hosts; added when a mutant that takes a broken inventory for success survived. |
| C88 | `left_behind` says value by value what an attempt may leave: the old value or the requested one; `shadow_atomic` demands that each command does all or nothing, whatever its status and whether or not its answer is heard. An invariant over all prefixes of the commands that `user_body` runs, at any outcome, connection losses included; then `plain_again` (the state left behind meets the hypotheses of C54) and `repeated` (granting from there is granting from the first state). Examples with a connection that is lost between two commands; `Shadow.v` meets `shadow_atomic`. |
| C89 | User code is an arbitrary tree of requests, direct uses of other hosts, operations, nested scripts and `with open_connection` blocks whose continuations see every outcome (`deed`). The specification looks only at the order of events (`turn`, `served`). `C89_operations` holds for all user code, `C89_requests` for user code that opens no connections itself. This removes the simplification of `Main.v` that scripts use only their own host. |
| C90 | `holds` says what a step asks for as a property of a state; `separate` demands that account tools, pacman and systemctl leave one another's things alone (new system accounts that packages bring along are allowed). By C85, `system.user` and `system.group` run only account tools, so a system in which nothing else can be run (`trim`) behaves the same, and the contract applies. Each step establishes its request (C54, C56, C57, C59), every later independent step keeps it, and a step whose request holds does nothing. The second run is only required to be unaffected if it fails (e.g. if the connection is lost). |
| C91 | The loop of argparse is shown to accept exactly a grammar (`parse_args_meaning`, both directions): options with their values, words with dashes around them. The clauses are read off the grammar; which arguments can mean a dry run is decided by going through all prefixes of the three names. `Spec_Options.v` does not mention the parser. `C91_layouts`: which values of --init are accepted, by an invariant of the loop. The only assumption is that `\d` does not match a dash. |
| C92 | `tries op s0 s`: attempts with any result, each perhaps in another session, nothing else in between. The theorems for single runs (C57, C59, C61) speak about runs with any result, which gives an invariant of the attempts: packages only grow (shrink); commands about the state of a unit keep its enablement and vice versa (`confined_verbs`); a checkout from the requested url follows the branch and is behind it (`git_atomic`: a clone or pull is done or not done). The successful attempt then gives the result. For `repo` with `update=True`; the premises about `path`, `branch` and the advertised refs are those of C61. apt is left out because its operation fails for every nonempty list of packages (see C57). Contracts are shown to be met by programs that fail once (`stumble`). |
| C93 | `fora argv`: `parse_args` (Options.v), then selection (Main.v), then for each host a connection to its system, `_resolve_identity` and `run_script` (Control.v) of a script that calls operations with the parsed `dry` and `diff`. `C93_hosts` is by induction on the hosts; `C93_dry` composes C91 (the option is read), C41 (each operation) and the fact that scripts, defaults and handlers add nothing; `C93_named` composes C91 and C62. Simplifications: one connection at a time, connections are opened and closed by oracles (Lifecycle.v has the details), a lost connection is a `link`. |
| C94 | The turn of a host is unrolled (`turn`: `_resolve_identity`, `run_script` with its scope, the script, the way back); the repetition of the steps is shown for any state of the process (`idle_elsewhere` generalises C73, which repeats them in the state in which they ended); induction on the hosts. That no operation reports a change is expressed by the script of the second run, which raises an exception otherwise. Premises on each host: no faults, root, accounts in order, dispatcher with an account and a group (`in_order_host`), and those of C73. |
| C95 | `member_value` extends C33 to the members `url` and `connector`, which C33 leaves out: the value is the last of the five sources, else the one in the list of hosts. `connector_by_url` is then followed for every spelling in `url_of`, down to the command that is started (`starts_at` spells it out). Refuted for a url without schema in a file of a host. Trusted: ssh connects to the destination `ssh://[user@]host[:port]` it is given. |
| C96 | `C96_reachable`: a connector is found iff the declared url has no colon or starts with `ssh:` or `local:`; `C96_early_partial`: loading an inventory rejects hosts without a name for which this fails, since the name is taken from the url. Refuted by a run of the whole program (Fleet.v) in which the first host is changed before the second turns out to be unreachable. |
| C97 | `told` relates the system a step finds to its result (initial state, final state, changed), by the queries of C72, the probing of packages of C57 and the properties of units of C59. Both a dry and a real step say what `told` allows, and `told` allows one result only for systems that agree on what the step is about (`as_before`: the number of the group; entry, password, memberships and name of the primary group of the account; presence of the packages; whether the unit runs and is enabled). By induction on the script each real step says what the dry step said. The condition `as_before` is required at the turn of every step. The order in which the groups of an account are listed does not matter, because they are sorted. |
| C98 | `around` states once and for all that running a script file is something harmless, the code of the file, and something harmless. With it the result of C90 about a list of steps on one host is carried to the session on that host (opening and closing the connection, resolving the identity), and by induction over the selected hosts to `fora`. The second run is compared with one whose scripts end with an exception if a step reported a change: both are equal, in whatever way they end. The conditions on the scripts (`prepared`) are asked for every control state in which the script might be started, not just for the one that occurs. `C98_case` has two hosts with different scripts. |
| C99 | The programs of the host are the model of the coreutils (`Coreutils.v`) in front of arbitrary others that keep the contracts of C98. The steps about accounts, packages and units run none of the coreutils (from C85), so C90 applies to them with the other programs alone; they touch nothing of the controlling side. The file steps change the file system only (C73), on which no request of the first part depends; hence all of them still hold, the first part does nothing when run again (C90), and the second part finds the very host it left. The case gives a directory to an account and a group that the first part creates. Missing: any other order of the two kinds of steps (`C99_refuted` shows that it matters). The theorem is about two runs on one host; C94 and C98 have the runs of the whole command for each half. |

## Simplifications of the local side

* A script is a program of an inductive type (return, raise, sequence, try/except, anything done through the connection,
  `with defaults`, change of directory, removal of a directory, `local.script`); python's other statements
  are functions of the meta language. Scripts are assumed not to assign `fora.script` or the private stack of defaults themselves.
* The local file system is given by `realpath`, `isdir`, `inode`; the local disk contains a partial function from paths to programs.
* Nesting of scripts is bounded by an arbitrary number (python's recursion limit).
* The life cycle of a connection (Lifecycle.v) is a separate state machine over process, streams and flags, where every step may fail.

## Simplifications of the remote side

* `o_fs` is a finite map from places (reversed lists of names) to nodes; a node has a kind (directory, file with its
  bytes, link with its text, other), mode, ids and two time stamps. No hard links, no mount points. `resolve` follows at most 40 links,
  as Linux does; the specification `names` is an inductive relation without such a bound.
* Permissions are not checked; instead every system call consumes an entry of a schedule of failures
  (`o_faults`) over which theorems quantify: any call may fail with any errno, a write after any number of bytes.
  A crash after a prefix of the calls leaves the state in which the next call fails.
* `exec`, the effect of a program, and `sha512` are parameters. A program sees its credentials, umask, directory, arguments and input and
  may change the whole remote state.
* The client and the dispatcher take turns; the transport is a pair of byte streams which are cut into arbitrary pieces.
  Reads beyond the end of a stream whose writer is still alive would block: the value `Blocked`.
* While a connection lasts, ssh is a reliable byte stream. The connection may be lost at any request (`Losing k late` in
  Client.v): after the next `k` requests, either before the request gets through or (`late`) after it was carried out and before
  its answer gets through. The theorems on any outcome (`_confined`, isolation, dry run) quantify over this as well.

## Findings

Defects of the code found while modelling. Those marked (R) are proved as `_refuted` theorems.

Wire format and dispatcher
* (R C03) EOF inside text or bytes is not noticed: a truncated download is returned as if it was complete.
* (R C05) A request that cannot be encoded leaves its first bytes in the buffer; the next request is misread. `UnicodeEncodeError` is a `ValueError`, so `stat`
  turns it into "does not exist".
* (R C08) Only `OSError` is caught in handlers: NUL in a path or name, an empty command, a mode of 2^31 or more, a file dated before 1970, an environment
  variable that is not UTF-8 end the dispatcher.
* (R C12) `upload` changes the mode after writing; the new content is readable under the old mode.
* (R C14) No `setgroups` before `setresgid`/`setresuid`: commands of other users keep root's supplementary groups.
* (R C16) `stat` raises for a path through a regular file (ENOTDIR) and for loops of links.
* (R C72) `query_user` reports an account without a shadow entry or primary group as missing (the default), and `home_dir` raises for it. `download_or` returns the default
  for an existing file whose name is not UTF-8 and leaves the connection out of step. `resolve_user(None)` looks the own uid up as a name first.
* (R C73) There is no check that two operations of a script contradict each other: a script that puts two contents at one path reports both operations as changed on every run.
* (R C74) A dry run sees none of the effects of the steps before. Where a step needs them the dry run raises although the real run works: an owner or group that an earlier `system.user`/`system.group` creates (`C74_account_refuted`), a `cwd` default whose directory an earlier `files.directory` creates (`C74_cwd_refuted`). So `--dry` cannot be used on a fresh host with such scripts. Elsewhere it reports differently: a second write of the same content counts as a change (`C74_dry_refuted`), and a file reached through a directory that is yet to be created is reported as missing (`C74_detour_refuted`).
* (R C75) Bootstrapping over ssh unpacks the dispatcher with `python` and runs it with `python3`. On hosts that have only `python3` (Debian, Ubuntu without python-is-python3) python3 is started with an empty program: the connection fails with the error for a closed stream and no hint.
* (R C76) A variable that a group first sets to None is attributed to the host, since the recorder takes None for "not defined". A variable that is deleted and created again with the same content keeps the old attribution. First definitions by a group are recorded as "modification". Hosts without a module file list the namespace `module` among their variables.
* (R C77) `print_table` gives all remaining space to one column, so a table may be out of line although it would fit (`C77_aligned_refuted`: the table of `--inspect-inventory` on 120 columns with a name of 25 and a value of 45 characters).
* (R C78) Without `-v` the report shortens values to 9 characters from the left: a link that is moved from /usr/lib/a to /usr/lib/b is reported as "target: /usr/lib… → /usr/lib…" (`C78_values_refuted`). A number and a text with the same digits look the same (`C78_kinds_refuted`). An operation whose final state has a key that its initial state lacks does its work and then raises KeyError while it prints (`C78_prints_refuted`; the operations shipped have equal keys).
* (R C79) The diff escapes control characters but not the backslash, so that the '-' and the '+' line of a change may look the same: a tab against `\t` (`C79_line_refuted`), the byte 0x80 against U+0080 (`C79_binary_refuted`). The diff is always coloured, whatever `--no-color` says (`print_operation` calls `diff` without `color`).
* (R C80) The inventory argument is a file iff it ends in `.py`, which is also the top-level domain of Paraguay: `www.example.com.py` cannot be given as a host (`C80_suffix_refuted`; `ssh://www.example.com.py` neither). `example.com:2222` is refused although the help promises ssh for urls without a schema: the part before the colon is taken for the schema (`C80_port_refuted`).
* (R C81) `print_operation` calls `diff` without its `color` argument, and `debug` has the colours in its text, so with --no-color, NO_COLOR or output to a file there are escape sequences in the output (`C81_plain_refuted`, `C81_debug_refuted`). `--inspect-inventory` and `--init` run within `parse_args`, before `fora.args` is set: --no-color and the test for a terminal have no effect on them (`C81_inspect_refuted`).
* (R C82) The early title is overwritten by means of a carriage return: if it is longer than the line its first rows are shown twice (`C82_once_refuted`), and a log has every title twice (`C82_log_refuted`). The result of an operation made of others is not printed at all (`C82_nested`).
* (R C83) If a command that was run with `capture_output=False` fails, `print_process_error` raises an AttributeError before `script_stack` is set: the stack of the exception that arrives lacks the innermost script, and with one level of nesting no script stack is printed at all.
* (R C84) `fora --init` follows symbolic links: with `deploy.py -> /etc/passwd` in the directory it overwrites /etc/passwd (after a yes). The prompt only speaks of conflicting files. The example of the layout dotfiles calls `host.home_dir()`, a method of Connection that HostWrapper does not have; `tasks/example_task/add_site.py` of the layouts modular and staging_prod calls `files.line_in_file`, which does not exist (it is called `files.line`, and its parameter is `path`, not `file`).
* (R C85) `chown owner:group -- path` and `chmod mode -- path` have the separator behind the first operand. A mode is safe (octal digits), an account of the remote whose name begins with a dash is read as options.
* (R C86) `apt.package(packages=["vim-"], present=True)` runs `apt-get install -- vim-`, which removes vim: apt-get reads a minus behind a name as a removal, also behind `--`.
* (R C87) A script that calls `sys.exit(0)` (or with a multiple of 256) ends the whole deploy with status 0: the hosts that would have followed are left out silently. `run_script` and `main_run` do not look at SystemExit.
* (R C88) An account without a password entry (a `useradd` that was interrupted between its files) counts as absent, so `system.user` runs `useradd`, which refuses since the account exists: it is never repaired.
* (R C89) `Connection.__exit__` sets `host.connection` to None rather than to its former value: a script that opens a second connection to its own host cannot use operations any more. If `_resolve_identity` fails in `__enter__`, `host.connection` stays set.
* (R C90) Follows from the finding for C59: a script with a `systemd.service` step without `enabled` (or without `state`) never reaches a run without changes.
* (R C91) `fora -- --dry deploy.py` is not a dry run: after `--` every argument is a word (here the inventory is called `--dry`). Usual for command lines, but the full statement is false. Also, an argument that contains a blank is a word although it begins with dashes: `fora "--dry -v" deploy.py` takes it as the inventory, i.e. as an ssh host of this name.
* (R C92) git.repo fetches submodules only in the run that clones or pulls. If `git submodule update` fails then (network, credentials), the operation fails, and every later run finds the newest commit, reports "unchanged" and success, and never fetches them.
* (R C94) A script in which two operations disagree about the same file changes the host in every run, even though each operation is idempotent by itself (as C73, for the whole program).
* (R C95) `url = "web2"` in the file of a host (or a group) is not qualified like the same text in the list of hosts: "Url doesn't include a schema", and only when the host is to be connected to (types.py:279).
* (C95) A variable named `url` (or `connector`) of a *group* overrides the urls in the list of hosts: all hosts of the group are then reached at one and the same place, without a warning. The other members of hosts (`groups`, `inventory`, `connection`) can be overwritten in the same way.
* (R C96) The url of a host with an explicit name is not looked at when the inventory is loaded, and a named host may have no url at all. `FatalError` is raised when its turn comes (connection.py:28), after other hosts have been changed, and nothing catches it there (main.py:57).
* (R C97) Dry runs do not take earlier steps into account (this is inherent in the design, and stated nowhere): if two steps (say, of two deploy scripts) ask for the same package, the dry run announces two changes where the run makes one.
* (R C98) A script that starts a unit and says nothing of its enablement reports a change in every run (see C59), also on hosts where everything is as asked.
* (R C99) Groups and accounts have to be set up before the files that belong to them: `system.group` with another number leaves the files of the group with the old number, so that a script with `files.directory(…, group=g)` before `system.group(g, gid=…)` reports a change in its second run.
* `InventoryWrapper.available_groups` (inventory_wrapper.py 196-221) says that groups are created for the module files in `groups/`, but nothing in the code calls it: groups exist only if a host or another group names them.
* (R C67) `cwd` is given to `subprocess.run` and changed to again in `preexec_fn`.
* (R C68) With `capture_output=False` the child writes to the protocol stream: it can forge its own exit status.
* `chown` after `chmod` loses setuid and setgid bits of uploads (`upload_mode` speaks about the ten lower bits for this reason).
* A group without an owner in an upload means owner root, because `chown(uid or 0, gid or 0)`.

Connections and scripts
* (R C17) `close` does not reset `is_open`, so a connector that is opened again and fails leaves its process running. A terminated process is not waited for.
* (R C18) If `_resolve_identity` raises in `Connection.__enter__` the connection is left open. A failing write in `close` skips the `wait`.
* (R C23) If the working directory of the caller is gone, the `chdir` in `run_script`'s `finally` raises and `fora.script` is not restored.
* (R C24) The guard against recursion compares the script with `definition_file()`, which is the *directory* of the module (utils.py:142), so that it never
  rejects a regular script. `test_full_deploy_bad_recursive_test_script_traceback` expects a ValueError; by the model, the call is not rejected (python then ends with
  a RecursionError). This is the only disagreement found between the model and the tests of the repository; the text of the code leaves no other reading.
* `Connection.run` fills in `as_group` from the defaults, so `run(user=x)` keeps the default group.
* Negative modes are canonicalised to texts like "o644", which are then rejected. The modes of the connection's base settings are not canonicalised.
* `cwd` is checked without following links: a symbolic link to a directory is rejected. `cwd=""` is not checked.

Operations
* (R C40) `check=False` only concerns failures which the operation returns; exceptions (a failing command) are raised in any case. A positional `check` is ignored.
* The report prints the password hashes of `system.user` (8 characters of them; with -v all).
* Two nested operations with one key raise an OperationError after both have done their work; a nested operation that fails with `check=False` is recorded by its states only, so the outer operation reports success.
* `unchanged(ignore_none=True)` looks at the keys instead of the values, so it ignores nothing (example `C39_ignore_none`).
* (R C43) `directory` with a three digit mode never converges on a directory that has, or inherits, a set-group-id bit: GNU `chmod 755` keeps the bit, and the
  operation reports a change on every run.
* (R C45) `link` runs `ln -sf -- target path` without `-T`/`-n`: if path is a link to a directory (say a release directory being switched), the new link is created inside that directory, path is unchanged, success is reported and each run reports a change.
* (R C45) `link` compares owner and group with those of the old link and only corrects differences, but `ln -sf` replaces the link by one that belongs to the user of the dispatcher: after retargeting, the link does not have the requested owner although success is reported; the next run corrects it.
* (R C44) `file` runs `chmod` before `chown`, which takes the set-user-id bit: the file ends up without it although success is reported; the second run sets it.
* (R C49) files.line with a text that contains a line break appends it in every run: it is never equal to one line.
* (R C50) files.line(present=False) strips the lines of the file but not the given line: with ignore_whitespace=True (the default) a line with white space around it is found, reported as removed, and stays. Removing the only line leaves a file with an empty line; removing `""` from such a file never converges. A regular expression that matches across lines is found in the whole text and never matches in a single line.
* (R C51) files.line rewrites all line breaks python knows (`\r\n`, `\r`, VT, FF, FS, GS, RS, NEL, LS, PS) as line feeds.
* (R C52) backup=True copies to `dirname/.<date>.bak` instead of `<path>.<date>.bak`; two files edited in the same directory within a second share one backup, the first copy is lost.
* (R C53) upload_dir transfers symbolic links: a link to a file as a regular file, a link to a directory as an empty directory. The docstring says that links are not uploaded.
* (R C53) upload_dir(src="app/", dest="/srv/old/") takes the base name of "app/", which is empty. The contents go into /srv/old itself, and its owner and mode are changed. The docstring says that the folder becomes a child.
* (R C53) upload_dir to a path with `..` after a symbolic link creates the top directory where the system resolves it, and the contents under the path normalised as text.
* upload_dir does not hand `check` to the nested operations, so check=False still raises.
* (R C47) files.line uploads over the existing file; if the upload is interrupted the other lines are lost, and the rerun reports success. All uploads write in place, but the others have the whole content at hand.
* (R C46) Uploads set the mode before they give the file to its owner, so a set-user-id bit is lost although success is reported; the second run sets it.
* (R C43) The default modes of a connection are not canonicalised: a base mode "0700" is never equal to the "700" that `stat` reports, so the operation always reports a change.
* (R C44) Owners are compared by name: with two accounts of the same id the operation always reports a change.

Packages and services
* (R C57) apt.package asks `dpgk-query` (a typo for dpkg-query), so it fails for every nonempty list of packages. `apt-get install` is run without `-y`, so it would wait for an answer. `C57_apt_partial` covers the rest of apt.package, for systems that have a program of this name (added when a mutant of the install command survived, because the contract in `C57_apt_refuted` was spelled with the model's own helper).
* (R C57) A package that is named twice is reported as a change on every run, since lists are compared whose duplicates are removed on one side only.
* portage.package sets the description of the operation to that of the function `package`. `_is_installed` does not get `opts`.
* An empty registry of managers makes the probing script a syntax error, so the caller gets a CalledProcessError in place of the OperationError.
* (R C59) systemd.service with `state=None` or `enabled=None` reports a change on each run, although it does nothing: None is compared with the present state.
* (R C60) systemd.service with `user_mode=True` asks the system's service manager about the unit: a stopped unit of the user is taken to run if the system has one of that name that runs.

Accounts
* (R C54, C56) Requests are tested for truth instead of for None: `uid=0`, `gid=0`, `groups=[]` and empty texts are ignored, and success is reported. A comment cannot be removed, nor the last supplementary group.
* (R C54) The requested groups are compared as a list: a group that is named twice is a change on every run. The primary group is compared by name: one given by number ("100") is a change on every run.
* (R C54, C56) `query_user` and `query_group` take names that are numbers for ids: `system.user("1001")` succeeds if some user has that id, although there is no user of that name.
* (R C55) `query_user` returns None for an account that has no shadow entry or whose primary group does not exist. `present=False` reports success for it, and `present=True` runs useradd, which fails.
* (R C54) useradd keeps memberships of a user of that name that are left over in the group database, so that with `append=False` the new user may be in groups that were not asked for.
* (R C61) `git.repo(branch=b)` on a checkout that follows another branch only runs `git pull`. It never switches the branch, reports success and a change, and does so again on each run.
* (R C61) For an annotated tag `git ls-remote` lists the tag object before its commit, so the operation never finds the checkout current; the second run does `git pull` on a detached HEAD and fails.
* (R C61) `git ls-remote url b` selects references by the end of their names. With a branch `feature/b` that is listed first the operation compares with the wrong commit and reports a change on each run.
* `git.repo`: with update=False the url of an existing checkout is not looked at; a dry run succeeds where the real run refuses because of a different url.
* Model correction: the first version of `useradd_cmd` lost the first character of the password hash (a slip in a pattern). The proof of C54 found it.

Output
* (R C64) `print_process_error` announces "special characters escaped" but only escapes bytes that are not UTF-8: escape sequences printed by a failing remote
  command reach the terminal of the user. `decode_escape` does this right. It keeps characters above 0xff that are not printable, for example U+202E and U+2028,
  and does not escape backslashes, so that different contents can look alike.
* (R C69) Strings in the initial and final state, for example the target of a link on the remote, are printed without escaping.
* (R C70) If a command with `capture_output=False` fails, `print_process_error` raises an AttributeError (`None.decode`) that replaces the CalledProcessError.
* (R C65) `ellipsis` with width 0 keeps all but one character. Callers use 9, 12 and 21.
* (R C63) If `_resolve_identity` fails, the connection stays open and `host.connection` set. `fora.host` is not reset when a script raises.
* `--hosts ""` and spaces after commas name unknown hosts.

Inventory
* (R C30, C31) The rank test for conflicts has false positives and false negatives. Exact criterion: depth(cur) + height(prev) <= longest chain.
* (R C66) A first definition that is `None` is not recorded, and one that repeats the identical object is not noticed, so that acceptance depends on the order.
* The second check of `rank_sort` is dead code. `e.cycle` may contain vertices which are not on a cycle.
* `all` gets `after=["early-explicits"]` only when it is added automatically; otherwise overriding a variable of `HostDeclaration.vars` always conflicts.
  A user-declared group `early-explicits` is silently replaced.
* Every group and host module gets `module = explicits`; `definition_file()` of groups and hosts is "<internal>".
* A group variable called `exported_variables` or `is_exported_variable` breaks loading with a TypeError; a group variable such as `url` overrides a host member;
  variables whose value is a module are not exported; mutations of nested values are not noticed since `copy` is shallow.

URLs and wrappers
* (R C35) `ssh:host` loses two characters. IPv6 literals are cut at the first colon. `host:22` is an unknown schema.
* (R C36) Attributes with one leading underscore that the module defines cannot be set visibly.
* (R C38) Templates get the host under the key `inventory`.

## Trusted base

* the Coq kernel (8.16.1) and the axioms reported by `Print Assumptions` (goal: none);
* the correspondence between the python text and the Gallina functions;
* every theorem listed in `MANIFEST.json` is "Closed under the global context" (see the `Print Assumptions` below each);
  the libraries contain axioms (`vcheck` lists those of `Coq.ssr.ssrunder`) on which none depends;
* the models of the environment in `Sys.v` (Linux path resolution without permission
  checks, chown clearing setuid/setgid, GNU coreutils behaviour of the invoked
  forms, shadow-utils, systemctl, pacman, git).

Not modelled: permission checks of the remote kernel (the dispatcher is root; failures are covered by
the fault schedule), time, jinja2, argparse beyond the parser of main.py (C91), difflib (only its contract, C79), ssh itself (only the command it is given and the remote shell, C75), concurrency on the remote,
`docs/`.
