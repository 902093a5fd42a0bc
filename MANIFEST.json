{
 "claims": [
  {
   "property": "C01",
   "status": "proved",
   "theorems": [
    "C01_packet_round_trip",
    "C01_encodable"
   ],
   "note": "all packets, chunkings and trailing bytes"
  },
  {
   "property": "C02",
   "status": "proved",
   "theorems": [
    "C02_unambiguous_stream",
    "C02_prefix"
   ],
   "note": ""
  },
  {
   "property": "C03",
   "status": "partial",
   "theorems": [
    "C03_cut_detected_refuted",
    "C03_cut_detected_partial",
    "C03_cut_shape_partial"
   ],
   "note": "The full claim is false: packets ending in text or bytes are accepted truncated. Proved: never for packets with a fixed-width last field; otherwise only the last field is shortened."
  },
  {
   "property": "C04",
   "status": "proved",
   "theorems": [
    "C04_receiver_total"
   ],
   "note": ""
  },
  {
   "property": "C05",
   "status": "partial",
   "theorems": [
    "C05_failed_send_harmless_refuted",
    "C05_failed_send_poisons",
    "C05_failed_send_harmless_partial"
   ],
   "note": "The full claim is false: a failed send leaves its header in the buffer. Proved: encodable requests never leave a partial packet."
  },
  {
   "property": "C06",
   "status": "proved",
   "theorems": [
    "C06_lockstep",
    "C06_fragmentation",
    "C06_request"
   ],
   "note": "requests of the client whose commands capture their output (see C68)"
  },
  {
   "property": "C07",
   "status": "proved",
   "theorems": [
    "C07_survivable",
    "C07_faults"
   ],
   "note": ""
  },
  {
   "property": "C08",
   "status": "partial",
   "theorems": [
    "C08_no_kill_refuted",
    "C08_no_kill_partial"
   ],
   "note": "The full claim is false (twelve fatal requests are shown). Proved for all histories of requests without these values, on all remotes without the odd entries."
  },
  {
   "property": "C09",
   "status": "proved",
   "theorems": [
    "C09_upload",
    "C09_run"
   ],
   "note": ""
  },
  {
   "property": "C10",
   "status": "proved",
   "theorems": [
    "C10_upload_exact",
    "C10_round_trip",
    "C10_accepts"
   ],
   "note": "targets that are not devices or pipes"
  },
  {
   "property": "C11",
   "status": "proved",
   "theorems": [
    "C11_upload_crash_points"
   ],
   "note": "a crash is a system call failing at any point; targets that are not devices or pipes"
  },
  {
   "property": "C12",
   "status": "partial",
   "theorems": [
    "C12_overwrite_exposes_refuted",
    "C12_overwrite_exposes_partial"
   ],
   "note": "The full claim is false: the mode is changed after the content was written. Proved for files that others cannot read before."
  },
  {
   "property": "C13",
   "status": "proved",
   "theorems": [
    "C13_run_identity",
    "C13_run_starts"
   ],
   "note": "captured output; working directories that are absolute (see C67)"
  },
  {
   "property": "C14",
   "status": "partial",
   "theorems": [
    "C14_groups_dropped_refuted",
    "C14_groups_dropped_partial"
   ],
   "note": "The full claim is false: the supplementary groups are always those of the dispatcher (proved)."
  },
  {
   "property": "C15",
   "status": "proved",
   "theorems": [
    "C15_resolve_user",
    "C15_resolve_group"
   ],
   "note": ""
  },
  {
   "property": "C16",
   "status": "partial",
   "theorems": [
    "C16_stat_truthful",
    "C16_stat_none_partial",
    "C16_stat_none_refuted"
   ],
   "note": "What stat tells is proved true and None implies absence. A path through a file, or a loop of links, raises instead of returning None (refuted)."
  },
  {
   "property": "C17",
   "status": "partial",
   "theorems": [
    "C17_open_fails_clean_partial",
    "C17_open_propagates",
    "C17_open_fails_clean_refuted",
    "C17_close"
   ],
   "note": "Proved for a connector that was not opened before. False for a second open of the same connector: a failure leaves the process running (refuted)."
  },
  {
   "property": "C18",
   "status": "partial",
   "theorems": [
    "C18_cleanup_refuted",
    "C18_cleanup_partial"
   ],
   "note": "The full claim is false: if resolving the identity fails in __enter__, the connection stays open. Proved for all other failures."
  },
  {
   "property": "C19",
   "status": "proved",
   "theorems": [
    "C19_run",
    "C19_no_script"
   ],
   "note": "captured output; working directories that are absolute (see C67)"
  },
  {
   "property": "C20",
   "status": "proved",
   "theorems": [
    "C20_balanced"
   ],
   "note": ""
  },
  {
   "property": "C21",
   "status": "proved",
   "theorems": [
    "C21_innermost_wins",
    "C21_enters"
   ],
   "note": ""
  },
  {
   "property": "C22",
   "status": "proved",
   "theorems": [
    "C22_canonical",
    "C22_same_number",
    "C22_rejected"
   ],
   "note": ""
  },
  {
   "property": "C23",
   "status": "partial",
   "theorems": [
    "C23_restored_partial",
    "C23_restored_refuted",
    "C23_fresh",
    "C23_isolated"
   ],
   "note": "Isolation is proved. Restoring is proved unless a local directory was removed meanwhile; if the caller's directory was, fora.script is not restored (refuted)."
  },
  {
   "property": "C24",
   "status": "partial",
   "theorems": [
    "C24_recursion_refuted",
    "C24_recursion_partial"
   ],
   "note": "The full claim is false: the guard compares the script with directories. The exact behaviour of the guard is proved."
  },
  {
   "property": "C25",
   "status": "proved",
   "theorems": [
    "C25_params",
    "C25_missing",
    "C25_script_params"
   ],
   "note": ""
  },
  {
   "property": "C26",
   "status": "proved",
   "theorems": [
    "C26_ranks_longest_path"
   ],
   "note": "all finite acyclic graphs whose predecessor and child functions agree"
  },
  {
   "property": "C27",
   "status": "proved",
   "theorems": [
    "C27_cycles_rejected"
   ],
   "note": "all finite graphs whose predecessor and child functions agree"
  },
  {
   "property": "C28",
   "status": "proved",
   "theorems": [
    "C28_accepts",
    "C28_order"
   ],
   "note": "all declarations and all enumerations of sets"
  },
  {
   "property": "C29",
   "status": "proved",
   "theorems": [
    "C29_hosts",
    "C29_loaded"
   ],
   "note": ""
  },
  {
   "property": "C30",
   "status": "partial",
   "theorems": [
    "C30_override_refuted",
    "C30_override_partial"
   ],
   "note": "The full claim is false: ranks overlap if a longer chain of groups exists elsewhere. Proved when the groups lie on longest chains."
  },
  {
   "property": "C31",
   "status": "partial",
   "theorems": [
    "C31_conflict_refuted",
    "C31_conflict_partial"
   ],
   "note": "The full claim is false: an early group and a late one never clash. Proved for groups of equal depth."
  },
  {
   "property": "C32",
   "status": "proved",
   "theorems": [
    "C32_orders_agree"
   ],
   "note": "module files assign constants"
  },
  {
   "property": "C33",
   "status": "proved",
   "theorems": [
    "C33_precedence"
   ],
   "note": "module files assign constants"
  },
  {
   "property": "C34",
   "status": "proved",
   "theorems": [
    "C34_ssh_hostname",
    "C34_local_hostname",
    "C34_unqualified",
    "C34_bare"
   ],
   "note": "host names without the delimiters @ and : (no IPv6 literals)"
  },
  {
   "property": "C35",
   "status": "partial",
   "theorems": [
    "C35_short_ssh_refuted",
    "C35_short_ssh_partial"
   ],
   "note": "The full claim is false: extract_hostname drops two characters. Proved: both forms connect to the same url."
  },
  {
   "property": "C36",
   "status": "partial",
   "theorems": [
    "C36_set_get_refuted",
    "C36_set_get_partial",
    "C36_set_frame"
   ],
   "note": "False for attributes with one leading underscore defined by the module; proved for all others, and that no other attribute changes."
  },
  {
   "property": "C37",
   "status": "proved",
   "theorems": [
    "C37_own_first",
    "C37_script_fallback",
    "C37_private_never_from_script",
    "C37_templates_agree"
   ],
   "note": ""
  },
  {
   "property": "C38",
   "status": "partial",
   "theorems": [
    "C38_context_wins",
    "C38_host_variables_kept",
    "C38_host_key",
    "C38_inventory_key_refuted"
   ],
   "note": "The key inventory holds the host instead of the inventory (refuted); the other parts are proved."
  },
  {
   "property": "C39",
   "status": "proved",
   "theorems": [
    "C39_recorded_once",
    "C39_truthful",
    "C39_nested",
    "C39_failure"
   ],
   "note": ""
  },
  {
   "property": "C40",
   "status": "partial",
   "theorems": [
    "C40_check_refuted",
    "C40_check_partial"
   ],
   "note": "The full claim is false: exceptions raised inside an operation pass through with check=False, and a positional check is ignored. Exact behaviour proved."
  },
  {
   "property": "C41",
   "status": "proved",
   "theorems": [
    "C41_dry",
    "C41_unaffected",
    "C41_files_dry",
    "C41_dry_upload_dir",
    "C41_coreutils"
   ],
   "note": "All operations, every outcome, any programs: the only commands run are the listed questions (readlink -n, pacman -Ql, emerge --info, systemctl show, git rev-parse and ls-remote, the bash probe), and nothing else touches the remote. local.script runs another script and is not an operation in this sense."
  },
  {
   "property": "C42",
   "status": "partial",
   "theorems": [
    "C42_predict_partial",
    "C42_files_predict_partial",
    "C42_upload_dir_predict",
    "C42_failing_refuted"
   ],
   "note": "All operations but upload_dir, any programs and states; upload_dir on a system without failures where it can be carried out. Where the real run reports a failure, git.repo may report success in a dry run (refuted)."
  },
  {
   "property": "C43",
   "status": "partial",
   "theorems": [
    "C43_directory_partial",
    "C43_directory_confined",
    "C43_directory_works",
    "C43_again_partial",
    "C43_absent",
    "C43_absent_works",
    "C43_directory_refuted",
    "C43_directory_refuted_new",
    "C43_again_refuted"
   ],
   "note": "Exact modes are false for set-id bits that a directory has or inherits (refuted); the second run reports no change except in that case, for base modes that are not canonical (refuted) and for shared ids. Owner, group, kind, times, confinement, success and removal are proved."
  },
  {
   "property": "C44",
   "status": "partial",
   "theorems": [
    "C44_file_partial",
    "C44_file_confined",
    "C44_file_works",
    "C44_again_partial",
    "C44_absent",
    "C44_absent_works",
    "C44_file_refuted",
    "C44_again_refuted"
   ],
   "note": "The mode is exact except for set-id bits, which chown takes (refuted). The second run reports no change for modes without set-id bits, canonical base modes and ids that are not shared (refuted otherwise). Content, owner, group, times, confinement, success and removal are proved."
  },
  {
   "property": "C45",
   "status": "partial",
   "theorems": [
    "C45_link_partial",
    "C45_confined_partial",
    "C45_link_works_partial",
    "C45_again_partial",
    "C45_absent",
    "C45_absent_works",
    "C45_link_refuted",
    "C45_owner_refuted"
   ],
   "note": "Proved when the path does not lead to a directory (in a tree-like file system) or is already the requested link, and for the owner when no retargeting was needed; otherwise refuted: ln -sf creates the link inside the directory, and a retargeted link loses its owner."
  },
  {
   "property": "C46",
   "status": "partial",
   "theorems": [
    "C46_content_partial",
    "C46_confined",
    "C46_works",
    "C46_again_partial",
    "C46_nothing_sent",
    "C46_refuted"
   ],
   "note": "For upload_content, upload, template_content and template. The mode is exact except for set-id bits, which are lost when the file is given to an account (refuted); the content is exact up to a SHA-512 collision with the old content. The second run reports no change for modes without set-id bits, canonical base modes and ids that are not shared. Content, owner, group, when the content is written, confinement for any outcome, success and failing data are proved."
  },
  {
   "property": "C47",
   "status": "partial",
   "theorems": [
    "C47_directory",
    "C47_file",
    "C47_content",
    "C47_link_partial",
    "C47_directory_absent",
    "C47_file_absent",
    "C47_link_absent",
    "C47_line_refuted"
   ],
   "note": "Operations on files: directory, file, uploads and link, present and absent. Any schedule of failures and loss of the connection before or after any request; the rerun is undisturbed, in the same state of the script. Assumes that system calls do not claim ENOENT for existing files, and a connection as root. Refuted for files.line: an interrupted upload loses the rest of the file. Operations outside files are not covered."
  },
  {
   "property": "C48",
   "status": "proved",
   "theorems": [
    "C48_relative_path"
   ],
   "note": ""
  },
  {
   "property": "C49",
   "status": "partial",
   "theorems": [
    "C49_added_partial",
    "C49_works",
    "C49_again_partial",
    "C49_refuted"
   ],
   "note": "Literal lines (regex=None) that contain no line break and are valid unicode: after success the lines are the former ones followed by this one, iff it was not there; the second run changes nothing; success whenever nothing fails. A line with a line break in it is added by every run (refuted). Files may be any bytes."
  },
  {
   "property": "C50",
   "status": "partial",
   "theorems": [
    "C50_removed_partial",
    "C50_works",
    "C50_again_partial",
    "C50_refuted",
    "C50_last_refuted",
    "C50_again_refuted",
    "C50_regex_refuted"
   ],
   "note": "Literal lines. If white space is ignored and the line has white space around it, it is found but never removed (refuted). If no line is left, the file has an empty line (refuted), and removing empty lines from such a file never converges (refuted). Expressions that match across lines are found but not removed (refuted)."
  },
  {
   "property": "C51",
   "status": "partial",
   "theorems": [
    "C51_bytes_partial",
    "C51_confined",
    "C51_refuted"
   ],
   "note": "For files in which only the line feed breaks lines, the bytes of all other lines stay; a line feed is added after the last line. Carriage returns and the other line breaks of python become line feeds (refuted). Confinement for any outcome, also of failing runs."
  },
  {
   "property": "C52",
   "status": "partial",
   "theorems": [
    "C52_copy_partial",
    "C52_refuted",
    "C52_overwritten_refuted"
   ],
   "note": "The copy has content, mode, owner, group and time of the previous file, and is complete before the file is changed, even if the operation fails. Its name is `.<date>.bak` in the same directory, not `<path>.<date>.bak` (refuted), so that copies of two files overwrite each other (refuted). Not covered: a directory or symbolic link where the copy should go."
  },
  {
   "property": "C53",
   "status": "partial",
   "theorems": [
    "C53_tree_partial",
    "C53_confined",
    "C53_works",
    "C53_without_links",
    "C53_no_source",
    "C53_again_partial",
    "C53_links_refuted",
    "C53_slash_refuted",
    "C53_dots_refuted"
   ],
   "note": "After success each directory and file of the tree is at its path below the destination with the content (or one of the same SHA-512 sum), owner, group and mode (set-id bits aside) in effect; the result lists each path once, parents first; no other place differs, nothing is removed. Confinement for any outcome, success when nothing is in the way. Refuted: links are transferred as what they lead to, a source with a final slash goes into the destination itself, \"..\" in the destination splits the tree."
  },
  {
   "property": "C54",
   "status": "partial",
   "theorems": [
    "C54_partial",
    "C54_rerun_partial",
    "C54_refuted",
    "C54_rerun_refuted",
    "C54_number_refuted",
    "C54_stray_refuted"
   ],
   "note": "Requests of 0, [] and \"\" are not requests; names are no numbers; the existing account is complete. Those restrictions are needed (refuted)."
  },
  {
   "property": "C55",
   "status": "partial",
   "theorems": [
    "C55_partial",
    "C55_refuted"
   ],
   "note": "Exact for accounts that are complete or absent. Refuted for accounts without a password entry."
  },
  {
   "property": "C56",
   "status": "partial",
   "theorems": [
    "C56_partial",
    "C56_rerun_partial",
    "C56_refuted",
    "C56_number_refuted"
   ],
   "note": "gid=0 is not a request; names are no numbers. Refuted for those."
  },
  {
   "property": "C57",
   "status": "partial",
   "theorems": [
    "C57_pacman",
    "C57_portage",
    "C57_pacman_works",
    "C57_portage_works",
    "C57_rerun_partial",
    "C57_portage_rerun_partial",
    "C57_rerun_refuted",
    "C57_apt_partial",
    "C57_apt_refuted"
   ],
   "note": "pacman and portage: for any programs that answer queries and carry out installations as documented, only the missing (or present) packages are passed on, once each, and after success all are installed (absent); each outcome, also failures. Reruns report unchanged if no package is named twice (otherwise refuted). apt.package always fails, as it calls \"dpgk-query\" (refuted); where there is a program of this name it is proved like the others."
  },
  {
   "property": "C58",
   "status": "proved",
   "theorems": [
    "C58"
   ],
   "note": "Any registry of plain names, any remote; the probing script is interpreted by a model of the part of bash that it uses."
  },
  {
   "property": "C59",
   "status": "partial",
   "theorems": [
    "C59_partial",
    "C59_invalid",
    "C59_effect",
    "C59_works",
    "C59_refuted"
   ],
   "note": "The exact commands, the state afterwards, and when \"unchanged\" is reported. Exact if state and enabled are both given. If one is not given a change is always reported (refuted)."
  },
  {
   "property": "C60",
   "status": "partial",
   "theorems": [
    "C60_partial",
    "C60_refuted"
   ],
   "note": "Refuted: the unit of the system is asked. Partial: the exact commands; the actions address the user's service manager."
  },
  {
   "property": "C61",
   "status": "partial",
   "theorems": [
    "C61_partial",
    "C61_rerun_partial",
    "C61_branch_refuted",
    "C61_tag_refuted",
    "C61_suffix_refuted"
   ],
   "note": "Holds if the name selects one commit and an existing checkout follows the branch. Refuted for checkouts of other branches, annotated tags, and names that are the end of other names."
  },
  {
   "property": "C62",
   "status": "proved",
   "theorems": [
    "C62_selection"
   ],
   "note": ""
  },
  {
   "property": "C63",
   "status": "partial",
   "theorems": [
    "C63_connections_partial",
    "C63_later_hosts",
    "C63_connections_refuted"
   ],
   "note": "False when the identity of the remote cannot be resolved after connecting (refuted). Everything else is proved; that the process of a closed connection ends is C18."
  },
  {
   "property": "C64",
   "status": "partial",
   "theorems": [
    "C64_decode_escape",
    "C64_diff",
    "C64_diff_coloured",
    "C64_error_output",
    "C64_error_output_refuted"
   ],
   "note": "Proved for diffs, with any unified_diff and file names without control characters. False for the output of failed commands (refuted); C64_error_output says what is shown of it."
  },
  {
   "property": "C65",
   "status": "partial",
   "theorems": [
    "C65_ellipsis_partial",
    "C65_ellipsis_refuted"
   ],
   "note": "Holds for every width of at least 1; false for 0, which no caller uses."
  },
  {
   "property": "C66",
   "status": "partial",
   "theorems": [
    "C66_acceptance_refuted",
    "C66_acceptance_identical_refuted",
    "C66_acceptance_partial",
    "C66_acceptance_order_partial"
   ],
   "note": "False if a first definition is None or a definition repeats the identical object; otherwise proved, with the exact criterion."
  },
  {
   "property": "C67",
   "status": "partial",
   "theorems": [
    "C67_relative_cwd_refuted",
    "C67_relative_cwd_partial"
   ],
   "note": "The full claim is false: a relative directory is applied twice."
  },
  {
   "property": "C68",
   "status": "partial",
   "theorems": [
    "C68_uncaptured_refuted",
    "C68_uncaptured_partial"
   ],
   "note": "The full claim is false with capture_output=False; proved for captured output."
  },
  {
   "property": "C69",
   "status": "partial",
   "theorems": [
    "C69_state_refuted"
   ],
   "note": "False: link targets of the remote are printed as they are (refuted)."
  },
  {
   "property": "C70",
   "status": "partial",
   "theorems": [
    "C70_error_kept_partial",
    "C70_error_kept_refuted"
   ],
   "note": "False if the output was not captured (refuted), proved otherwise."
  },
  {
   "property": "C71",
   "status": "proved",
   "theorems": [
    "C71"
   ],
   "note": "Any programs and outcomes."
  },
  {
   "property": "C72",
   "status": "partial",
   "theorems": [
    "C72_query_user",
    "C72_query_group",
    "C72_getenv",
    "C72_home_dir",
    "C72_own_home_partial",
    "C72_download",
    "C72_download_or",
    "C72_answered",
    "C72_known_refuted",
    "C72_home_refuted",
    "C72_own_home_refuted",
    "C72_unencodable_refuted"
   ],
   "note": "True for every outcome, with the default for accounts that are missing or incomplete. Refuted: the default for accounts that exist but lack a password entry or primary group; home_dir() with an account named like the own uid; names that are not UTF-8."
  },
  {
   "property": "C73",
   "status": "partial",
   "theorems": [
    "C73_again_partial",
    "C73_again_refuted"
   ],
   "note": "True for every script whose steps (directory, file, link, upload_content, upload, template_content, template, upload_dir, line) are about different files, if the first run ran through and left no set-id bits. Refuted if two steps are about the same file: each run changes it twice."
  },
  {
   "property": "C74",
   "status": "partial",
   "theorems": [
    "C74_dry_partial",
    "C74_dry_refuted",
    "C74_detour_refuted",
    "C74_account_refuted",
    "C74_cwd_refuted"
   ],
   "note": "True for every script of directory, file, link, upload_content, upload, template_content, template, upload_dir and line whose real run runs through, if its steps are about different files and paths that led nowhere lead to new files. Refuted if two steps are about the same file, if the way to an existing file leads through a directory that an earlier step creates, and if a step needs an account or a working directory that an earlier step creates (the dry run raises)."
  },
  {
   "property": "C75",
   "status": "partial",
   "theorems": [
    "C75_ssh_partial",
    "C75_local",
    "C75_python_refuted"
   ],
   "note": "Over ssh, on remotes with a program python besides python3 (refuted without: python3 runs an empty program). Locally without condition."
  },
  {
   "property": "C76",
   "status": "partial",
   "theorems": [
    "C76_listed",
    "C76_authors_partial",
    "C76_authors_refuted"
   ],
   "note": "The table is complete and ordered. The attribution is right for variables whose first value is not None and that are not unbound again; refuted for a variable that a group sets to None."
  },
  {
   "property": "C77",
   "status": "partial",
   "theorems": [
    "C77_cells",
    "C77_aligned_partial",
    "C77_aligned_refuted"
   ],
   "note": "Cells are always shown in full. Aligned if at most one column needs more than its share of the line; refuted for two (a name of 25 and a value of 45 characters on a terminal with 120 columns)."
  },
  {
   "property": "C78",
   "status": "partial",
   "theorems": [
    "C78_entries",
    "C78_printed",
    "C78_values_partial",
    "C78_values_refuted",
    "C78_kinds_refuted",
    "C78_prints_partial",
    "C78_prints_refuted"
   ],
   "note": "Entries are exact for values without ESC. Refuted: values that differ behind the eighth character look the same without -v; 644 and \"644\" look the same; a final key without an initial one raises KeyError after the work."
  },
  {
   "property": "C79",
   "status": "partial",
   "theorems": [
    "C79_title",
    "C79_diff_partial",
    "C79_line_partial",
    "C79_line_refuted",
    "C79_binary_refuted"
   ],
   "note": "For contents in UTF-8 without backslashes. Refuted for a tab against a backslash and t, and for bytes that are no UTF-8."
  },
  {
   "property": "C80",
   "status": "partial",
   "theorems": [
    "C80_single_partial",
    "C80_refused",
    "C80_suffix_refuted",
    "C80_port_refuted"
   ],
   "note": "For arguments that do not end in \".py\". Refuted for hosts below the domain py, and for host:port."
  },
  {
   "property": "C81",
   "status": "partial",
   "theorems": [
    "C81_plain_partial",
    "C81_plain_refuted",
    "C81_debug_refuted",
    "C81_inspect_partial",
    "C81_inspect_refuted"
   ],
   "note": "Proved for reports without diffs, and for tables with NO_COLOR. Refuted: diffs and debugging output are always coloured; --inspect-inventory and --init only heed NO_COLOR."
  },
  {
   "property": "C82",
   "status": "partial",
   "theorems": [
    "C82_once_partial",
    "C82_once_refuted",
    "C82_log_refuted",
    "C82_nested"
   ],
   "note": "Proved for titles that fit into a line of the terminal. Refuted: a longer title leaves its first rows on the screen twice, and a log contains every title twice."
  },
  {
   "property": "C83",
   "status": "partial",
   "theorems": [
    "C83_stack_partial",
    "C83_stack_refuted",
    "C83_output_partial",
    "C83_exit",
    "C83_exit_through",
    "C83_trace",
    "C83_traceback"
   ],
   "note": "Proved if the output of commands is captured (the default). Refuted otherwise: the AttributeError of print_process_error takes the place of the exception, and the innermost script is missing in its stack."
  },
  {
   "property": "C84",
   "status": "partial",
   "theorems": [
    "C84_asked",
    "C84_created",
    "C84_empty",
    "C84_success",
    "C84_confined_partial",
    "C84_confined_refuted",
    "C84_again",
    "C84_usable_partial",
    "C84_usable_refuted"
   ],
   "note": "Proved if none of the paths is a symbolic link. Refuted: a link is followed, so that a file outside of the directory is overwritten; the scripts of the layouts dotfiles (host.home_dir), modular and staging_prod (files.line_in_file) call functions that do not exist."
  },
  {
   "property": "C85",
   "status": "partial",
   "theorems": [
    "C85_commands_partial",
    "C85_names_refuted",
    "C85_dry",
    "C85_shell",
    "C85_directory",
    "C85_file",
    "C85_link",
    "C85_upload_content",
    "C85_template_content",
    "C85_upload",
    "C85_template",
    "C85_line",
    "C85_upload_dir",
    "C85_user",
    "C85_group",
    "C85_pacman",
    "C85_apt",
    "C85_portage",
    "C85_package",
    "C85_daemon_reload",
    "C85_service",
    "C85_system_service",
    "C85_repo"
   ],
   "note": "Proved for all operations and arguments, if own options for the package manager each stand for itself (flags), with one exception that is spelled out in the specification (sets). Refuted: an account of the remote whose name begins with a dash is read as options by chown, since the name stands before --."
  },
  {
   "property": "C86",
   "status": "partial",
   "theorems": [
    "C86_keeps_partial",
    "C86_refuted"
   ],
   "note": "Proved if no package name ends with a minus. Refuted: apt.package([\"vim-\"]) runs apt-get install -- vim-, which removes vim."
  },
  {
   "property": "C87",
   "status": "partial",
   "theorems": [
    "C87_status_partial",
    "C87_failure",
    "C87_status_refuted"
   ],
   "note": "Proved unless something calls sys.exit with a multiple of 256. Refuted: sys.exit(0) in a script ends the deploy with status 0 and the following hosts are left out."
  },
  {
   "property": "C88",
   "status": "partial",
   "theorems": [
    "C88_user_partial",
    "C88_userdel_partial",
    "C88_group_partial",
    "C88_torn_refuted"
   ],
   "note": "Proved for the requests of C54 to C56, if every single account command does all or nothing. Refuted without that: a useradd that stops after it wrote /etc/passwd leaves an account that counts as absent and that useradd refuses to add, so that no later attempt succeeds."
  },
  {
   "property": "C89",
   "status": "proved",
   "theorems": [
    "C89_operations",
    "C89_requests",
    "C89_swapped",
    "C89_reconnect_refuted"
   ],
   "note": "Proved for all user code that does not assign to the attributes of fora and of hosts. Beside it, a refuted expectation: a script that opens a second connection to its own host takes the first one away, and its later operations fail."
  },
  {
   "property": "C90",
   "status": "partial",
   "theorems": [
    "C90_partial",
    "C90_refuted"
   ],
   "note": "Proved for scripts in which groups come before accounts, packages are either only installed or only removed, and services are given both a state (started or stopped) and an enablement. The programs are assumed to keep to their own trade (separate). Refuted without that: a service given only a state is reported as changed by every deploy."
  },
  {
   "property": "C91",
   "status": "partial",
   "theorems": [
    "C91_partial",
    "C91_layouts",
    "C91_refuted"
   ],
   "note": "Proved for all command lines, for the options before \"--\". Refuted without that restriction: after \"--\" every argument is a word, so `fora -- --dry deploy.py` runs the script in earnest. argparse (python 3.11) is modelled function by function; the model is not part of the project's code."
  },
  {
   "property": "C92",
   "status": "partial",
   "theorems": [
    "C92_pacman",
    "C92_portage",
    "C92_service",
    "C92_git_partial",
    "C92_submodules_refuted"
   ],
   "note": "Proved for packages (pacman, portage), units and the commit of the checkout. Missing: submodules; this part is refuted: if fetching the submodules fails after the clone, the next attempt reports success without trying again."
  },
  {
   "property": "C93",
   "status": "proved",
   "theorems": [
    "C93_hosts",
    "C93_dry",
    "C93_dry_harmless",
    "C93_named"
   ],
   "note": "Scripts are trees of operations, handlers, scopes, local scripts and uses of the connection; for dry runs the latter must only look (C93_direct shows why). Loading the inventory is an oracle here and touches no host (C89 has inventories that do)."
  },
  {
   "property": "C94",
   "status": "partial",
   "theorems": [
    "C94_again_partial",
    "C94_again_refuted"
   ],
   "note": "Proved for scripts that are lists of file operations as in C73, ending (in the second run) with an exception if an operation reported a change. Refuted for scripts in which two steps are about the same file. C98 is the same for groups, accounts, packages and units."
  },
  {
   "property": "C95",
   "status": "partial",
   "theorems": [
    "C95_url",
    "C95_place_partial",
    "C95_place_refuted"
   ],
   "note": "Proved for urls in the list of hosts, also without a schema, and for full urls set in files or variables. Refuted for urls without a schema that are set in a file: only those in the list of hosts are completed, the others are refused when the host is to be reached. Files assign constants (as in C33); connectors given as a class are opaque."
  },
  {
   "property": "C96",
   "status": "partial",
   "theorems": [
    "C96_reachable",
    "C96_early_partial",
    "C96_known_partial",
    "C96_early_refuted"
   ],
   "note": "Proved for hosts without a name of their own whose url is not set elsewhere. Refuted for named hosts: their url is not looked at before their turn comes, when other hosts have been changed."
  },
  {
   "property": "C97",
   "status": "partial",
   "theorems": [
    "C97_partial",
    "C97_refuted"
   ],
   "note": "Proved under the condition that each step finds what it is about as it was before the script (and that no two groups share a name or number), for dry runs that come to their end. Refuted without it: if an earlier step has installed a package already, the dry run announces a change the run does not make."
  },
  {
   "property": "C98",
   "status": "partial",
   "theorems": [
    "C98_partial",
    "C98_refuted"
   ],
   "note": "Proved for scripts as in C90 (groups before accounts, packages either only installed or only removed, units given both a state and an enablement; no two groups with one number). Refuted for scripts that only start a unit: the second run reports a change although all is as asked."
  },
  {
   "property": "C99",
   "status": "partial",
   "theorems": [
    "C99_partial",
    "C99_refuted"
   ],
   "note": "Proved for scripts in which the steps of C90 come before those of C73, with the hypotheses of both; the records of packages and units are not among the files of the script, and the files get no set-id bits. Refuted for scripts in which the files come first: a group that gets another number later takes away the owner of the directory, and the next run changes it again."
  }
 ]
}