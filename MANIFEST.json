{
 "claims": [
  {
   "property": "C01",
   "status": "proved",
   "theorems": [
    "C01_replies_are_those_of_a_map",
    "C01_every_history_runs",
    "C01_get_returns_last_accepted_write",
    "C01_file_numbers_fit"
   ],
   "note": "All histories of SET/DEL/GET/MGET/EXISTS/CHECK/LENGTH/KEYTIME/NSJUMP/DBSIZE, setting changes and restarts, from an empty directory, no write error, data files up to 2 GiB, fewer than 2^32 index files."
  },
  {
   "property": "C02",
   "status": "proved",
   "theorems": [
    "C02_restart_is_invisible"
   ],
   "note": "Restarts at any number of points; locks are lifted by a restart, so histories with locks are excluded by never_locked."
  },
  {
   "property": "C03",
   "status": "partial",
   "theorems": [
    "C03_histories_with_crashes_partial",
    "C03_every_restart_succeeds_partial",
    "C03_one_crash_partial",
    "C03_file_numbers_fit",
    "C03_index_file_without_header_refuted",
    "C03_torn_index_record_refuted"
   ],
   "note": "Any number of crashes, at any byte of a data write, between any two writes, and at any byte of an in-place index write. The full statement is false at the two kinds of points left out: between creating an index file and writing its header (the second restart fails), and inside of an index append (the restart is undefined), see the two refutations."
  },
  {
   "property": "C04",
   "status": "partial",
   "theorems": [
    "C04_overwrite_loses_the_key_refuted",
    "C04_old_new_or_absent_partial"
   ],
   "note": "The full statement is false of the code: the old record is flagged deleted before the new one is appended. Proved: old, new or absent, nothing else."
  },
  {
   "property": "C05",
   "status": "proved",
   "theorems": [
    "C05_identifiers_are_fresh",
    "C05_identifiers_never_repeat",
    "C05_replies_are_those_of_the_machine",
    "C05_get_returns_last_accepted_write",
    "C05_every_history_runs",
    "C05_empty_file_hides_an_identifier_refuted"
   ],
   "note": "Histories in which no index file is left empty (as quantified). Identifiers are fresh even across crashes. The refutation shows that the restriction on empty files is needed."
  },
  {
   "property": "C06",
   "status": "partial",
   "theorems": [
    "C06_restart_is_invisible_partial",
    "C06_stored_values_survive_any_restart",
    "C06_restart_after_jump_refuted"
   ],
   "note": "The full statement is false: after a jump and a restart the identifier handed out next is unreadable. Proved for restarts that do not find an empty current index file; stored values survive any restart."
  },
  {
   "property": "C07",
   "status": "partial",
   "theorems": [
    "C07_crash_shows_old_or_new_partial",
    "C07_other_identifiers_unchanged_partial",
    "C07_histories_with_crashes_partial",
    "C07_index_file_without_header_refuted",
    "C07_torn_overwrite_refuted"
   ],
   "note": "All crash points between two writes except the one between creating an index file and writing its header, where the statement is false (the second restart fails). Data writes may also be cut anywhere."
  },
  {
   "property": "C08",
   "status": "proved",
   "theorems": [
    "C08_search_finds_the_greatest_start",
    "C08_file_starts_are_sorted"
   ],
   "note": "Any list of starts, any identifier; the map of every reachable namespace meets the hypothesis."
  },
  {
   "property": "C09",
   "status": "partial",
   "theorems": [
    "C09_unknown_identifiers_read_as_absent_partial",
    "C09_aliased_key_refuted"
   ],
   "note": "The full statement is false: offsets are computed on 32 bits, key 2^31 reads and deletes record 0. Proved for keys below 10^8."
  },
  {
   "property": "C10",
   "status": "proved",
   "theorems": [
    "C10_isolation",
    "C10_nsinfo"
   ],
   "note": "Replies of all data commands, walks (SCAN, RSCAN, KSCAN, KEYCUR, HISTORY), counters, DATA and INDEX of a namespace, its files and settings, and NSINFO of it are unchanged by any events which are not about it. C10_nsinfo assumes that restarts before the state list the directories as they are."
  },
  {
   "property": "C11",
   "status": "proved",
   "theorems": [
    "C11_data_files_only_grow"
   ],
   "note": "Any mode, any requests, settings, failing writes, crashes at any byte and reloads; no hypothesis on the history."
  },
  {
   "property": "C12",
   "status": "proved",
   "theorems": [
    "C12_offsets_fit",
    "C12_locations_are_exact",
    "C12_offsets_fit_sequential",
    "C12_locations_are_exact_sequential"
   ],
   "note": "Both modes; sequential histories may contain crashes and are within the limits of C05 and C06."
  },
  {
   "property": "C13",
   "status": "proved",
   "theorems": [
    "C13_quota",
    "C13_quota_sequential"
   ],
   "note": "Both modes; maximum and stored size at least 4 GiB below 2^64."
  },
  {
   "property": "C14",
   "status": "proved",
   "theorems": [
    "C14_counters_are_exact",
    "C14_counters_are_exact_sequential"
   ],
   "note": "Both modes. The counters are those read by DBSIZE and NSINFO."
  },
  {
   "property": "C15",
   "status": "proved",
   "theorems": [
    "C15_worm_keeps_every_key",
    "C15_worm_keeps_every_identifier"
   ],
   "note": "Both modes."
  },
  {
   "property": "C16",
   "status": "partial",
   "theorems": [
    "C16_locked_or_frozen_no_change",
    "C16_frozen_reveals_nothing_partial",
    "C16_frozen_walks_reveal_nothing_partial",
    "C16_kscan_refuted",
    "C16_data_raw_refuted"
   ],
   "note": "Any state, both modes, for SET, DEL, GET, MGET, EXISTS, CHECK, LENGTH, KEYTIME, SCAN, RSCAN, KEYCUR and HISTORY. The statement for all data commands is false: KSCAN and DATA RAW do not look at the frozen state (findings)."
  },
  {
   "property": "C17",
   "status": "proved",
   "theorems": [
    "C17_read_only_sessions_change_nothing"
   ],
   "note": "Any state, both modes."
  },
  {
   "property": "C18",
   "status": "proved",
   "theorems": [
    "C18_write_needs_password",
    "C18_select_decision",
    "C18_select_accepts"
   ],
   "note": "Any server state; one step of any kind. Passwords are compared as C strings (up to the first NUL). The digest is the FIPS 180-4 one (C43)."
  },
  {
   "property": "C19",
   "status": "proved",
   "theorems": [
    "C19_refused",
    "C19_settings",
    "C19_needs_proof"
   ],
   "note": "Any server state, any request. FLUSH is not an administrative command in the code (finding 31)."
  },
  {
   "property": "C20",
   "status": "proved",
   "theorems": [
    "C20_digest_once"
   ],
   "note": "Holds for AUTH SECURE over any events in between. SELECT SECURE does not consume the challenge: C20_select_digest_reusable."
  },
  {
   "property": "C21",
   "status": "partial",
   "theorems": [
    "C21_scan_user",
    "C21_scan_sequential",
    "C21_walks_are_complete_partial",
    "C21_walks_are_prefixes",
    "C21_keys_are_distinct",
    "C21_keycur_user",
    "C21_keycur_sequential",
    "C21_no_time_refuted",
    "C21_late_timestamp_refuted"
   ],
   "note": "Every walk returns a beginning of the rows, in order, whatever the slicing; all of them and the end if each call has time for one entry. A call without time for an entry ends the walk early, and timestamps from 2^31 on are sent negative: both refuted. In sequential mode histories without crashes and below 2^32 files."
  },
  {
   "property": "C22",
   "status": "partial",
   "theorems": [
    "C22_rscan_user",
    "C22_rscan_sequential",
    "C22_empty_file_refuted",
    "C21_walks_are_complete_partial"
   ],
   "note": "Rows in reverse order for every slicing; complete when each call has time for one entry (C21_walks_are_complete_partial); a call without time for an entry ends the walk early as in C21. The refutation is outside the quantifier (an empty current file)."
  },
  {
   "property": "C23",
   "status": "partial",
   "theorems": [
    "C23_walk_among_writes_partial",
    "C23_walk_among_writes_sequential_partial",
    "C23_sequential_refuted"
   ],
   "note": "user mode: every key untouched during the walk comes exactly once when the walk ends. Sequential mode: the same unless the walk is cut short, which only a write of the key under the cursor can do; refuted in full by that case."
  },
  {
   "property": "C24",
   "status": "partial",
   "theorems": [
    "C24_all_but_the_oldest_partial",
    "C24_history_partial",
    "C24_no_history",
    "C24_refuted",
    "C24_history_sequential",
    "C24_no_history_sequential"
   ],
   "note": "Sequential mode: the full statement is proved, for identifiers with versions in any files. User mode: the full statement is false: the first version of a key inserted in a later file is read in data file 0, where it can be the value of another key (C24_refuted). Proved there: for every reached state, as many replies as versions, every version but the oldest told, and the walk stops; all versions told when the key was inserted while there was one index file; a key that is not there has no history."
  },
  {
   "property": "C25",
   "status": "proved",
   "theorems": [
    "C25_stored_value_verifies",
    "C25_corruption_detected",
    "C25_check_user",
    "C25_check_sequential"
   ],
   "note": "The CHECK command in every reached state of both modes (sequential histories may contain crashes): 1 for the value as GET answers it, 0 once its bytes in the data file are changed within four consecutive bytes. Five bytes are not enough: C25_five_bytes_pass."
  },
  {
   "property": "C26",
   "status": "proved",
   "theorems": [
    "C26_engines_agree"
   ],
   "note": "table-driven and both hardware engines"
  },
  {
   "property": "C27",
   "status": "partial",
   "theorems": [
    "C27_executed_requests",
    "C27_cuts_do_not_matter_partial",
    "C27_everything_executed",
    "C27_connection_stays_open",
    "C27_closing_depends_on_packets_refuted",
    "C27_full_buffer_stalls_refuted",
    "C27_empty_array_wedges_refuted"
   ],
   "note": "For every stream of well-formed requests, every cut and every dispatcher, the executed requests are exactly those complete in the bytes read. What is missing is that the same bytes get read for every cut, which is false: C27_closing_depends_on_packets_refuted (a closing verdict is overwritten by the next request of the same read) and C27_full_buffer_stalls_refuted (the server stops reading at a request boundary under an edge-triggered event loop)."
  },
  {
   "property": "C28",
   "status": "proved",
   "theorems": [
    "C28_nothing_lost",
    "C28_received_is_a_prefix",
    "C28_queue_drains"
   ],
   "note": "Every schedule of accepted, partial and refused sends, and connections that break for good. C28_transient_error_refuted: a send error other than EAGAIN/EPIPE after which the socket works again loses the rest of one reply and breaks the stream."
  },
  {
   "property": "C29",
   "status": "partial",
   "theorems": [
    "C29_full_names",
    "C29_lookup_partial",
    "C29_unknown_runs_none",
    "C29_other_words_refuted"
   ],
   "note": "First half proved for every byte string. Second half is false: abbreviations run commands (C29_other_words_refuted); what runs exactly is C29_lookup_partial."
  },
  {
   "property": "C30",
   "status": "partial",
   "theorems": [
    "C30_settings_partial",
    "C30_restart_partial",
    "C30_starts_again",
    "C30_nul_password_refuted",
    "C30_numbers"
   ],
   "note": "All settings values except passwords which begin with NUL: for those the statement is false (C30_nul_password_refuted). Crashes in the middle of the write of the descriptor are in C54."
  },
  {
   "property": "C31",
   "status": "proved",
   "theorems": [
    "C31_names",
    "C31_directory",
    "C31_space_refuted"
   ],
   "note": "C31_names: any events; only the directory listing at restarts is assumed right. NSNEW of a name beginning with NUL is outside the model (it is an undefined outcome, see findings in DESIGN.md). C31_directory adds the contents (a re-created namespace is empty) for the events of all_covered: values of at most 8 MiB, less than 2^32 files, sequential namespaces within C05 and C06, no password beginning with NUL. NSINFO: C31_directory fixes the lines on name, entries, flags, sizes, limits, mode, space left and (sequential mode) the next identifier. C31_space_refuted: the space left wraps to nearly 2^64 when the limit is below what is used."
  },
  {
   "property": "C32",
   "status": "partial",
   "theorems": [
    "C32_flush_refuted"
   ],
   "note": "False of the code: FLUSH answers +OK and deletes nothing."
  },
  {
   "property": "C33",
   "status": "proved",
   "theorems": [
    "C33_dirty_list",
    "C33_backup",
    "C33_append_not_listed_refuted",
    "C33_restart_refuted",
    "C33_failed_write_refuted"
   ],
   "note": "Any mode, any requests since the load or a reset, without failing writes. The backup must also take the file that was current at the reset; witnesses: without it an appended record is missed, a restart empties the list, a failing write is not listed."
  },
  {
   "property": "C34",
   "status": "proved",
   "theorems": [
    "C34_rebuild",
    "C34_rollback_in_time",
    "C34_rollback_refuted",
    "C34_rollback_wrong_value_refuted",
    "C34_rebuild_after_crash_refuted"
   ],
   "note": "The tool run over the data files of any crash-free history gives index files that the server loads to the same key-value state, with the same later answers. With --time the result is the state as of that time if timestamps do not go back. Witnesses: timestamps that go back (null pointer, wrong value) and a record torn by a crash (the tool exits)."
  },
  {
   "property": "C35",
   "status": "partial",
   "theorems": [
    "C35_refused_requests_change_nothing_partial",
    "C35_refused_requests_change_nothing_sequential_partial",
    "C35_failed_data_writes_are_ignored",
    "C35_every_history_runs",
    "C35_failed_data_write_partial",
    "C35_failed_data_write_sequential_partial",
    "C35_failed_insertion_partial",
    "C35_failed_overwrite_refuted",
    "C35_failed_delete_refuted",
    "C35_torn_index_write_refuted"
   ],
   "note": "Refusals without disk errors in both modes. Failed data writes, in user mode along histories with any number of them, in sequential mode for one request. Failed index write of a first insertion. The full statement is false: a failed index write during an overwrite or a deletion changes what is read (witnesses)."
  },
  {
   "property": "C36",
   "status": "partial",
   "theorems": [
    "C36_map_partial",
    "C36_get_after_set_partial",
    "C36_same_checksum_refuted",
    "C36_long_key_refuted",
    "C36_mixed_mode_refuted",
    "C36_sequential_refuted",
    "C36_check_partial"
   ],
   "note": "The full statement is false: witnesses for values of equal checksum (a zero byte in front is enough), keys over 255 bytes, the default mixed mode, and sequential mode with more than one data file. Proved: in user mode with keys of 1 to 255 bytes and no overwrite by a value of the same checksum, every sequence of calls answers as a map."
  },
  {
   "property": "C37",
   "status": "proved",
   "theorems": [
    "C37_mget_is_a_list_of_gets"
   ],
   "note": "Any state, both modes."
  },
  {
   "property": "C38",
   "status": "partial",
   "theorems": [
    "C38_answered_once",
    "C38_notified",
    "C38_timeout_partial",
    "C38_clock_set_back_refuted",
    "C38_two_waits_refuted",
    "C38_started"
   ],
   "note": "Answered at most once over any events and clock values, and by exactly the right events; the timeout is right while the clock does not go backwards (otherwise C38_clock_set_back_refuted). Replication clients are excluded."
  },
  {
   "property": "C39",
   "status": "proved",
   "theorems": [
    "C39_index_item",
    "C39_data_header",
    "C39_index_file_header",
    "C39_data_file_header",
    "C39_cursors",
    "C39_namespace_header"
   ],
   "note": "all packed records"
  },
  {
   "property": "C40",
   "status": "proved",
   "theorems": [
    "C40_map",
    "C40_well_linked",
    "C40_no_dangling",
    "C40_table"
   ],
   "note": "Heap model of index_branch.c (head, last, next, length) and of the table functions of index.c, for any hash function into the array and any addresses from calloc. C40_table joins it to the table of Store.v used by the other theorems."
  },
  {
   "property": "C41",
   "status": "proved",
   "theorems": [
    "C41_data_raw",
    "C41_data_raw_sequential",
    "C41_accepted_record_stays"
   ],
   "note": "The first two give the reply at the place of every record of every file and after the end of the file, in histories without crash; the third covers any life with failing writes and crashes. A record with an empty value answers -Invalid Request, one of a deletion -Unexpected Internal Error (also in the theorems)."
  },
  {
   "property": "C42",
   "status": "proved",
   "theorems": [
    "C42_mode"
   ],
   "note": "For the histories of all_covered (see the quantifier)."
  },
  {
   "property": "C43",
   "status": "proved",
   "theorems": [
    "C43_digest",
    "C43_sha1"
   ],
   "note": "The C code of SHA-1 against FIPS 180-4, every message (length below 2^61 bytes is not needed: both count bits modulo 2^64)."
  },
  {
   "property": "C44",
   "status": "proved",
   "theorems": [
    "C44_sessions"
   ],
   "note": "Any events; the directory listing at restarts is assumed right."
  },
  {
   "property": "C45",
   "status": "proved",
   "theorems": [
    "C45_kscan_returns_the_matching_keys"
   ],
   "note": "For the code compiled without -DRELEASE, which disables the command."
  },
  {
   "property": "C46",
   "status": "proved",
   "theorems": [
    "C46_protect"
   ],
   "note": "Every run without restart after a start with --protect."
  },
  {
   "property": "C47",
   "status": "proved",
   "theorems": [
    "C47_data_files_are_the_log",
    "C47_data_files_are_the_log_sequential"
   ],
   "note": "Histories without crash; settings and requests as in C01 and C05."
  },
  {
   "property": "C48",
   "status": "partial",
   "theorems": [
    "C48_damage_counted_user",
    "C48_damage_counted_sequential",
    "C48_exit_status_partial",
    "C48_server_files_refuted",
    "C48_exit_status_refuted",
    "C48_other_files"
   ],
   "note": "The count is proved for all histories and damages. The claim on the exit status is false: the files of the server are refused by name, and only 8 bits of the number are kept; proved for a directory where the expected name exists, modulo 256. A damaged key is not noticed (C48_ex)."
  },
  {
   "property": "C49",
   "status": "partial",
   "theorems": [
    "C49_files_compacted_partial",
    "C49_data_compacted_partial",
    "C49_output_refused_refuted",
    "C49_wrong_value_refuted",
    "C49_second_file_refuted",
    "C49_rebuilt_deleted_refuted"
   ],
   "note": "The full statement is false in four ways, each with a theorem. Proved in user mode, for any number of data files: the data written is the list of accepted values with the outdated ones emptied and the current ones kept, unless the tool exits, which only happens after a new key was stored beyond the first data file. Missing because false: that a server can use the output."
  },
  {
   "property": "C50",
   "status": "partial",
   "theorems": [
    "C50_edited_settings_apply",
    "C50_dump_prints_settings",
    "C50_long_password_refuted",
    "C50_cut_password_refuted"
   ],
   "note": "Proved for passwords up to 255 bytes, all limits below 2^63 and all flags. For longer passwords the statement is false (witnesses for 256 and 257 bytes)."
  },
  {
   "property": "C51",
   "status": "partial",
   "theorems": [
    "C51_dump_tells_user",
    "C51_dump_tells_sequential",
    "C51_data_file_refuted"
   ],
   "note": "Everything but the number of the data file is proved in both modes; that number is wrong (witness)."
  },
  {
   "property": "C52",
   "status": "proved",
   "theorems": [
    "C52_one_order",
    "C52_directory",
    "C52_defined",
    "C52_negative_length_refuted",
    "C52_closed",
    "C52_removed",
    "C52_stopped",
    "C52_stop_refuted"
   ],
   "note": "The refutation is outside the quantifier: a client that is not well-formed. Connections: C52_closed says why a read ends one, C52_removed that it then does; C52_stopped says what ends the loop. C52_stop_refuted: the converse, which the property does not claim, is false."
  },
  {
   "property": "C53",
   "status": "proved",
   "theorems": [
    "C53_exact",
    "C53_runs",
    "C53_loop",
    "C53_no_crash_refuted"
   ],
   "note": "Exact list of undefined events in reachable states; the last theorem gives one witness for each kind that an administrator can send. Hypotheses: covered events and fewer than 2^32 files per namespace."
  },
  {
   "property": "C54",
   "status": "partial",
   "theorems": [
    "C54_crash_partial",
    "C54_restarts_partial",
    "C54_others",
    "C54_password_refuted",
    "C54_first_password_refuted",
    "C54_maxsize_refuted",
    "C54_new_refuted"
   ],
   "note": "Any number of crashes, in any request, in connections and in the periodic rotation. Missing: the crash points which point_ok excludes (the full statement is false there: the four _refuted theorems); none is excluded in RELOAD and FLUSH. A crash inside of NSDEL is in C55, one inside of a start in C56."
  },
  {
   "property": "C55",
   "status": "partial",
   "theorems": [
    "C55_contained",
    "C55_nsdel_starts",
    "C55_secret_refuted",
    "C55_start_refuted"
   ],
   "note": "Proved for every other namespace whose own files are whole, whatever is found in the rest, once the process survives the start; a crash inside NSDEL never prevents the start. The full statement is false of the code: one damaged index header stops the whole server, and a half deleted private namespace becomes public."
  },
  {
   "property": "C56",
   "status": "partial",
   "theorems": [
    "C56_same",
    "C56_resumed",
    "C56_first",
    "C56_torn_refuted"
   ],
   "note": "Proved for any number of interrupted starts on any files with whole first headers, and on new namespaces. The full statement is false of the code where the header of the first index file of a new namespace is torn (C56_torn_refuted). Missing: a death inside of the first writing of a descriptor, and starts which end by themselves at a damaged file."
  },
  {
   "property": "C57",
   "status": "proved",
   "theorems": [
    "C57_secret",
    "C57_from_start",
    "C57_stored",
    "C57_masters_refuted"
   ],
   "note": "Two runs side by side (SpecSecret). The texts which stand for times, sizes and addresses in INFO and NSINFO are inputs and the same in both runs. Masters are excepted: C57_masters_refuted. Mirrors are excepted, as they are sent the words of requests."
  },
  {
   "property": "C58",
   "status": "partial",
   "theorems": [
    "C58_feed",
    "C58_readable",
    "C58_silent_refuted"
   ],
   "note": "The full statement, for all clients, is false: C58_silent_refuted. Proved for requests with an instance number. The number is an input of the model (v_owner), for masters too, where it is the last word."
  },
  {
   "property": "C59",
   "status": "proved",
   "theorems": [
    "C59_copy",
    "C59_ends",
    "C59_deleted_refuted",
    "C59_refusals_refuted",
    "C59_times_refuted"
   ],
   "note": "Source and target in user mode (a sequential target does not accept the keys). hiredis is modelled as a parser of the RESP grammar. Only requests of others run meanwhile: no setting changes and no restarts. The target has no quota, no lock and no WORM mode; C59_refusals_refuted shows what happens otherwise."
  },
  {
   "property": "C60",
   "status": "proved",
   "theorems": [
    "C60_round",
    "C60_ends",
    "C60_missed_refuted",
    "C60_deleted_refuted",
    "C60_empty_refuted",
    "C60_jump_refuted"
   ],
   "note": "One turn of the loop, with any requests of others. The stronger wish, that every write reaches the target, is refuted."
  },
  {
   "property": "C61",
   "status": "proved",
   "theorems": [
    "C61_hooks",
    "C61_short",
    "C61_code",
    "C61_fork_refuted",
    "C61_room_refuted",
    "C61_killed_refuted"
   ],
   "note": "What the operating system does (new process numbers, waitpid) is the relation os_run of SpecHooks.v. C61_hooks assumes that fork does not fail for a hook the server waits for (C61_fork_refuted: otherwise the server can follow a null pointer) and that the replies fit (C61_short: when arguments are short; C61_room_refuted: a long list of dirty files overflows the buffer). Which events start which hook is not modelled: the theorem is for any sequence of hooks."
  },
  {
   "property": "C62",
   "status": "proved",
   "theorems": [
    "C62_exclusive",
    "C62_start",
    "C62_hook_refuted",
    "C62_flock_refuted"
   ],
   "note": "The locks of flock belong to opened files, shared with child processes; this is modelled. Witnesses: a hook that outlives its server keeps the locks; flock failing for another reason lets two servers share a directory. The tools take no lock."
  },
  {
   "property": "C63",
   "status": "proved",
   "theorems": [
    "C63_backup",
    "C63_complete",
    "C63_same_server",
    "C63_failed_refuted"
   ],
   "note": "One run of the process, writes that do not fail, fewer than 2^31 files. The program is any that is careful in the sense of SpecBackup.v; C63_failed_refuted shows what happens otherwise."
  },
  {
   "property": "C64",
   "status": "proved",
   "theorems": [
    "C64_notify",
    "C64_true",
    "C64_answer",
    "C64_same_server"
   ],
   "note": "For all runs from the first start (all_set_ok: honest listings at restarts, passwords not beginning with NUL). C64_late_refuted is the case of a program installed later. That the processes of the program run in the order they are started is assumed: the server does not wait for them."
  },
  {
   "property": "C65",
   "status": "partial",
   "theorems": [
    "C65_starts",
    "C65_version",
    "C65_sizes",
    "C65_range",
    "C65_server_ok",
    "C65_default",
    "C65_units_refuted",
    "C65_maxsize_refuted",
    "C65_trailing_refuted",
    "C65_undefined_refuted"
   ],
   "note": "All but the last sentence is proved. The last sentence is false: --maxsize knows no units and takes any text, what follows the unit of --datasize is ignored, and sizes from 2^64 on are undefined. The splitting of the command line by getopt_long_only is not modelled."
  },
  {
   "property": "C66",
   "status": "partial",
   "theorems": [
    "C66_scan_answers",
    "C66_rscan_user",
    "C66_rscan_sequential",
    "C66_rscan_answers_partial",
    "C66_refusals",
    "C66_sound_user",
    "C66_sound_sequential",
    "C66_rsound_user",
    "C66_rsound_sequential",
    "C66_passes",
    "C66_forged_row_refuted",
    "C66_wrong_bit_refuted"
   ],
   "note": "Both commands answer for every cursor and number of steps on the files of every history; SCAN on any bytes as index files, RSCAN on any bytes whose first links are sound. A cursor is refused if and only if it does not fit the bytes at its place. A cursor on any record, deleted ones included, makes SCAN and RSCAN send keys of the namespace, from some point on, in order (RSCAN under the condition of C22). The rest of the last sentence of the statement is false: a cursor into the middle of a key gives a row for a key that was never stored, and one wrong bit in an index file makes RSCAN endless (both refuted)."
  },
  {
   "property": "C67",
   "status": "partial",
   "theorems": [
    "C67_positions",
    "C67_value",
    "C67_told_or_refused",
    "C67_other_key_refuted"
   ],
   "note": "All of the statement but its last sentence, for any files: a reply for every position, accepted if and only if the key is at the place, and every value a piece of a data file of the namespace; C67_value says which piece. The last sentence is false (refuted): a version of another key which begins with the key asked for is told."
  }
 ]
}
