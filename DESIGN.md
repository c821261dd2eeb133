# Formal model of 0-db in Rocq (Coq 8.16.1)

## Trusted base

* Coq's kernel (8.16.1), including the `vm_compute` evaluator, which is used for
  concrete examples, refutation witnesses and a few finite sweeps.
* `Print Assumptions` stands under every property theorem. All of them print
  "Closed under the global context": no theorem depends on any axiom. (`vcheck` lists
  seven `Coq.ssr.ssrunder` constants; they belong to the standard library, are
  loaded with `lia`'s plugins and no theorem uses them.)
* The model: the `.v` files under `rocq/theories/` whose first line says MODEL. Each
  definition cites the C lines it models and says where it simplifies.
* The specifications: the files whose first line says SPEC, and the statements in the
  `Prop*.v` files. Everything else is proof and need not be trusted.

## How the model is built

* Bytes are `Coq.Init.Byte.byte`; files are `list byte`. Reads past the end are
  short, writes past the end pad with zeros, as for POSIX files. On-disk records are
  encoded and decoded byte by byte (packed, little-endian).
* A namespace directory is the list of its index files and the list of its data
  files, indexed by file number. Every write goes through one function, which appends
  it to a write log and asks a list of outcomes whether it succeeds.
* Crashes: the process dies; what was handed to `write` before that is on disk, in
  order, and nothing else (`CrashModel.v`). Loss of power, where the kernel loses or
  reorders written pages, is not modelled.
* The in-memory index is a function from bucket number to a list of entries
  (`Store.v`). The C linked lists are modelled apart on an explicit heap (C40).
* C integer widths are explicit: stores into `uint32_t` are reduced mod 2^32,
  `size_t` counters mod 2^64; `atoi`, `strtoumax` and the like are defined on bytes.
* Undefined behaviour (NULL dereference, use of freed memory, unbounded loops) is an
  outcome of its own (`None`, or a constructor), never a default value.
* Clocks, time slices, random challenges, packet boundaries, socket send outcomes and
  directory listings are inputs over which the theorems quantify.
* Replies are the exact bytes sent.

Layers, from the bottom: `Bytes`, `Crc32`, `Sha1`, `Layout` / `Store` (index and data
layer of one namespace) / `Text`, `Commands`, `Scan`, `History`, `System` (commands on
one namespace) / `Machine`, `CrashModel` (one namespace and its life) / `Namespace`,
`Dispatch`, `Server` (all namespaces, sessions, administration, start and restart),
`ServerCrash` (the server dies and is started again) /
`Resp`, `ReplyQueue` (one connection) / `Net` (the event loop with all connections).

The three layers above a namespace are connected as follows. `Server.v` runs the
handlers of `Commands.v`, `Scan.v` and `History.v` on the namespace of the client. The
replies to INFO and HOOKS and some NSINFO lines are inputs there (`v_text`), since the
theorems about `Server.v` do not depend on them. The number of records a SCAN visits
before its time is up is an input too (`v_passes`). `Resp.v` and `ReplyQueue.v` are
about one connection with any dispatcher. `Net.v` puts the three together: each
connection has a parser and a reply queue, the bytes read are parsed into requests,
which `Server.v` executes, and the replies go to the queues. C52 shows that this is
the server of `Server.v` with one sequence of requests.

### Hypotheses that recur

* `reached`, `sreached`: the state comes from an empty directory by any list of
  events: requests, setting changes, restarts (and crashes, in `PropCrash` and
  `PropSeq`). `event_wf`: values at most 8 MiB and timestamps of 32 bits, which the
  parser guarantees; `settings_ok`: data files of at most 2 GiB. `files_fit`: fewer than
  2^32 index files.
* `calm` (sequential mode): identifiers asked for are below 10^8 or known (C09 shows
  why) and no jump or restart leaves an empty index file behind (C05, C06 show why).
* `all_covered` (server): the same for each namespace of a server, and no password
  beginning with NUL (C30 shows why).
* `honest`: at a restart the directory listing given to the loader is right.

### Not modelled

The grouping of events by `epoll_wait`, failing `accept`, several listening sockets,
which
other events start a hook, and what the hook program does (the list of hooks itself is `Hooks.v`, the
hook jump-index `JumpHook.v`, the hooks about namespaces `NsHook.v`),
logging, the splitting of the command line by getopt (the options themselves are `Options.v`), `fsync`, errors
of open/read/lseek on files that exist, memory exhaustion, Unix signals, replication
clients other than db-sync and db-replicate, Python and Go
clients. hiredis, as used by them, is modelled as a parser of the RESP grammar. Of `tools/`: index-rebuild, index-dump, integrity-check, quick-compaction,
namespace-editor and namespace-dump are modelled; `compaction` does not compile against
the present library and is left out, as are the Python programs hooks-monitor and
live-stats, the client incremental-update, and utilities/db-mirror, which ends before it
copies anything (db-prepare.c:182).

## Properties

Status and exact theorem names are in `MANIFEST.json`. "witness" is a computed
counterexample on the model, in a theorem ending in `_refuted`.

| id | what is modelled | how it is proved |
|----|------------------|------------------|
| C01 | data commands, index and data layer in user-key mode | refinement: equality of replies with a map machine, by an invariant over byte-level files (`UserInv`, `UserReq`, `UserRun`) |
| C02 | index and data loaders | same refinement; a restart does nothing in the specification |
| C03 | write log prefixes, loaders | the invariant holds after reload of every prefix (`CrashPre`, `CrashFacts`); witness for the one point where it fails |
| C04 | same | false: witness; partial: old, new or absent |
| C05 | sequential handlers, map of files | refinement to a counter and a map (`SeqInv`, `SeqReq`, `SeqRun`) |
| C06 | sequential load | same, with restarts; witness when the current index file is empty |
| C07 | write log prefixes, sequential mode | as C03; witnesses |
| C08 | binary search for the file | loop invariant (`SeqMap`) |
| C09 | 32-bit offset computation | witness; partial below 10^8 |
| C10 | table shared by all namespaces, whole server | frame lemma for every operation (`FrameFacts`, `IsolFacts`) |
| C11 | data files, failing writes, crashes | every write to a data file appends or rewrites the same header (`FileFacts`), for any history |
| C12 | u32 offsets | invariant relating index and data file sizes, in both modes (`KvFacts`, `SeqLocate`) |
| C13, C14 | quota test, counters | exact size accounting in the invariant |
| C15 | WORM | case analysis, induction over events |
| C16 | locked and frozen | case analysis; witnesses for KSCAN and DATA RAW |
| C17 | writable flag | case analysis |
| C18, C19, C20 | SELECT, AUTH, command table | case analysis over requests, induction over server events (`AuthFacts`, `WaitFacts`) |
| C21, C22 | index_scan.c, SCAN, RSCAN, KEYCUR | walks over the records of well-formed files (`ScanFacts`, `ScanRun`); witnesses |
| C23 | SCAN among other requests | records only move to later places (`UserMove`, `ScanMix`); in sequential mode records keep their place and only a write of the key under the cursor cuts the walk short (`ScanMixSeq`, `PropScanSeq`), with a witness that it does |
| C24 | HISTORY | chain of versions carried along every event (`HistFacts`, `HistSeq`): whole in sequential mode; witness in user mode |
| C25, C26 | crc32c engines, data_check, CHECK | linearity of the crc over GF(2), induction over chunks; CHECK on the records located by the invariants of C01 and C05 (`CheckCmd`) |
| C27 | request parser | refinement to a parser of whole streams; witnesses |
| C28 | reply queue | invariant over send schedules; witness |
| C29 | dispatcher | case analysis; witness for abbreviations |
| C30 | descriptor files | round trip and invariant over server events; witness |
| C31, C42, C44 | namespace table, modes, sessions | invariant over server events (`SrvInv`, `SrvRun`, `NamesFacts`) |
| C32 | FLUSH | false: witness |
| C33 | dirty bitmap, log of writes | every operation keeps: bit set if and only if the log has a write over existing bytes (`DirtyFacts`); witnesses |
| C34 | index-rebuild tool | the pass keeps the index invariant with the replayed map (`RebuildFacts`), joined with the log of C47; witnesses for --time and for torn records |
| C35 | refused commands; requests whose writes fail | case analysis; a failed data write only adds bytes nobody refers to, along histories with any number of failures (`FaultFacts`, `FaultSeq`); witnesses for failed index writes |
| C36 | api.c (`Api.v`) | every call is the request of a client of the server unless checksums collide (`ApiFacts`); witnesses |
| C37 | MGET | direct |
| C38 | WAIT | invariant over events; witnesses |
| C39 | record layouts | round trips |
| C40 | index_branch.c on a heap | list segments with ownership as invariant (`BranchFacts`), then lists to map; joined to the table of `Store.v` |
| C41, C47 | DATA RAW, data files as a log | invariant: the data files are the encoded list of accepted writes (`DataLog`); location lemma (`RawFacts`) |
| C43 | SHA-1 | C code against FIPS 180-4 for every message |
| C45 | KSCAN | bucket invariant |
| C46 | --protect | invariant over server events |
| C48 | integrity-check | induction over the records of the log (C47); linearity of the checksum (`ToolFacts`); witnesses |
| C49 | quick-compaction, start on its output | induction over the index records and the files, and over the history for the cause of an exit; witnesses (`QuickFacts`) |
| C50 | namespace-editor, namespace-dump, descriptor loader | round trip of the descriptor (`EditFacts`); witnesses |
| C51 | index-dump | invariant that relates index records to the accepted writes (`DumpFacts`); witness |
| C52 | event loop | simulation: each event of the loop adds requests to one sequence, with the parser invariant of C27 and the queue invariant of C28 per connection (`NetFacts`); definedness by the same invariants (`NetDefined`); closing by the statuses of the requests (`NetClose`); the end of the loop likewise (`NetStop`); witness |
| C53 | `handle`, `posthandler`, all commands | totality of the walks from the file invariant (`ScanTotal`), then case analysis of each command against a list of crashing requests (`SpecDefined`, `SrvDefined`); witnesses |
| C54 | the server of C31 with crashes: writes of each namespace and of its descriptor, start on what is left | `SrvCrash`: cut points of one namespace from C03 and C07, descriptor cuts, then the invariant of C31 (`SpecSrvCrash` says what may be left); RELOAD and FLUSH write what is already there, by `open_idle` in `StartCut`; witnesses for the cut points left out |
| C55 | the start of C31 on any stored bytes, and what an interrupted NSDEL leaves (`ServerCrash.delete_left`) | `DamageFacts`: loading a namespace touches only its own rows of the shared table, so an undamaged one comes up with its contents; then an invariant of one namespace alone through all events (`SpecDamage`); witnesses for the start that fails and the private namespace laid open |
| C56 | a start which dies in any write (`ServerCrash.start_left`), any number of times (`SpecStart.starts_cut`) | `StartCut`: a start only changes the time in the headers of index files and the header of the last data file, so what it leaves is related to what it found, and loading respects this relation; the relation is transitive. `StartFacts`: new namespaces, lists of namespaces, reached servers |
| C57 | two servers with the same events but other passwords (`SpecSecret.same_server`, `same_words`, `alike`) | `SecretFacts`: relation between the two worlds (all equal but `n_pass`, whose presence agrees, and the descriptors), kept by every handler; induction over the run. Starts: descriptors which differ in the password only (`same_stored`), which `C57_stored` shows for all reached servers |
| C58 | `Server.posthandle`, `mirror_message`; feed of a run `SpecMirror.feed` with its own encoder | `MirrorFacts`: what each step sends to the mirror, induction over the run; unique decoding by injectivity of the encoder up to a rest |
| C59 | `DbSync.v`: `synchronize`, `fetchsync` of utilities/db-sync, replies read by a RESP parser, other clients' requests between any two steps at both servers | `SyncFacts`: the parser reads back what SCAN and GET send; induction over the pages: every stable key is at the target, or about to be copied, or after the cursor (`sync_ok`); the rest of the walk shrinks (`sync_total`) |
| C60 | `DbReplicate.v`: the loop of utilities/db-replicate (RSCAN, WAIT, SCAN from the cursor, copy) on top of `DbSync.v`; WAIT is a point where others may do anything | `RepFacts`: the page of RSCAN is the end of the walk (`rpage`); a live record stays where it was or is new (`grows_live`), so it is after the cursor; then `sync_ok` of C59 from that cursor |
| C61 | `Hooks.v`: all of libzdb/hook.c and `command_hooks`; fork, waitpid and the clock are inputs, constrained by `SpecHooks.os_run` | `HookFacts`: no empty slot comes before a running hook, the counter is the number of children, the slots are the rows of the specification in some order; reply sizes; witnesses for a failing fork, a long argument and a killed hook |
| C62 | `Lock.v`: `zdb_lock`, `zdb_open`; which processes have a lock file open, inherited by children, is the state; failures of open and flock are inputs | `LockFacts`: the locked files are those of the living processes (`agrees`), by induction over starts, forks and ends; witnesses for a hook that outlives its server and for flock failing |
| C63 | `JumpHook.v`: `index_dirty_list_generate`, and `index_jump_next`, SET, NSJUMP and the rotation with the hook jump-index; its exit code and what it copies are inputs | `BackupFacts`: the invariant "every index file below the current one is copied or in the list", on top of `DirtyFacts.step`; the text of the list read back (`numbers_words`); witness for a hook that failed |
| C64 | `NsHook.v`: NSNEW, NSDEL, NSSET, RELOAD, the dispatcher and the start with the hooks they start; the same server as `Server.v` (`C64_same_server`) | `NotifyFacts`: the notes are determined by command and answer (`handle_notes`); then, by induction over the run, the program's list is the settings of the invariant `CfInv` of C30; witness for a program installed later |
| C65 | `Options.v`: the switch of `main`, the size parser, the settings and the first lines of `proceed`; getopt is left out | `OptionFacts`: induction over the options from the right against a specification by the last occurrence (`SpecOptions.wanted`), both directions; witnesses for the sizes |
| C66 | `Scan.v`, the cursors and the loops; None is a walk that does not end in `scan_fuel` passes | `ScanTotal`: a measure over files and places which every pass decreases, from any place and for any bytes; the check of a cursor against `SpecCursor.fits`, both directions; the walk from any record; witnesses for a row made up and for a wrong bit |
| C67 | `History.v` | the check of a position against `SpecPosition.names`, both directions, and what a reply contains (`PositionFacts`); the value, time and previous position told are those the record at the place says, read from the bytes of the index file (`C67_value`; if the length there is 0 it is the one in the data file); witness for another key |

## Findings

Behaviour of the code at the pinned commit that contradicts what a user would rely
on. "P" marks those proved of the model by a witness, with the theorem.

1. P `C04_overwrite_loses_the_key_refuted`: a crash in the middle of an overwrite in
   user mode can lose the key (the old record is flagged before the new one exists).
2. P `C03_index_file_without_header_refuted`, `C07_index_file_without_header_refuted`:
   a crash between creating an index file and writing its header makes the next
   start but one fail. P `C03_torn_index_record_refuted`: after a torn append at the end of an
   index file the next start reads past the end of its buffer.
3. P `C07_torn_overwrite_refuted`: a torn in-place overwrite mixes two versions.
4. P `C05_empty_file_hides_an_identifier_refuted`, `C06_restart_after_jump_refuted`:
   two jumps in a row, or a jump and a restart, make a later identifier unreadable.
5. P `C09_aliased_key_refuted`: sequential offsets are computed on 32 bits, so key
   2^31 reads and deletes record 0.
6. P `C16_kscan_refuted`, `C16_data_raw_refuted`: KSCAN and DATA RAW answer in a
   frozen namespace.
7. P `C20_select_digest_reusable`: SELECT SECURE does not consume the challenge.
8. P `C21_no_time_refuted`: SCAN says "no more data" when its time slice ends before
   the first entry. P `C21_late_timestamp_refuted`: timestamps from 2^31 are sent
   negative.
9. P `C22_empty_file_refuted`: RSCAN after a jump without insertion.
10. P `C23_sequential_refuted`: an update of the key under the cursor invalidates the
    cursor in sequential mode.
11. P `C24_refuted`: HISTORY reads the first version of a key in data file 0,
    whatever file it is in; it can return the value of another key.
12. P `C27_*_refuted`: a closing verdict is overwritten by the next pipelined request;
    reading stops at a request boundary when the buffer is full (edge-triggered loop);
    "*0", more than 1024 arguments or a non-'$' argument wedge the connection.
13. P `C28_transient_error_refuted`: a transient send error loses the rest of a reply.
14. P `C29_other_words_refuted`: abbreviations of commands run commands.
15. P `C30_nul_password_refuted`: a password beginning with NUL comes back as none.
16. P `C32_flush_refuted`: FLUSH answers OK and deletes nothing; it is not an
    administrative command either.
17. P `C38_two_waits_refuted`, `C38_clock_set_back_refuted`.
18. P `C67_other_key_refuted`: HISTORY with an explicit position accepts a stored key that only
    begins with the asked key (commands_history.c:214 compares as many bytes as were asked).
19. With --protect, NSSET on the default namespace writes the administrator password
    in clear text to the descriptor.
20. `INDEX DIRTY` prints into a buffer of ten characters per file number.
    P `C33_append_not_listed_refuted`: it does not list a file that only got new records.
    P `C33_restart_refuted`: a restart empties the list. P `C33_failed_write_refuted`:
    a write that fails half way changes a file without listing it.
21. NSNEW of a name beginning with NUL creates a namespace whose directory is the root.
22. A client whose namespace was deleted can only close (`C44_ex`).
23. P `C36_same_checksum_refuted`: zdb_api_set of a value with the checksum of the old
    one succeeds and stores nothing; the checksum starts from 0 without inversion, so a
    zero byte in front does not change it.
    P `C36_mixed_mode_refuted`: the handlers are indexed by the mode of the instance; the
    default one, mixed, is behind the end of the array.
    P `C36_sequential_refuted`: the entry written in sequential mode has file number 0.
    P `C36_long_key_refuted`: keys over 255 bytes are cut without an error.
    zdb_api_check maps -1 (file not readable) to TRUE.
24. P `C41_data_raw`: DATA RAW of a stored empty value answers "-Invalid Request"; of a file that cannot
    be opened too.
25. P `C48_server_files_refuted`: integrity-check refuses every name that a file of the
    server can have. P `C48_exit_status_refuted`: with 256 errors its exit status is 0.
    P `C49_output_refused_refuted`: the server does not start on the output of
    quick-compaction. P `C49_wrong_value_refuted`: its index gives the second key the
    value of the first. P `C49_second_file_refuted`: it exits when a key was added after
    a change of file. P `C49_rebuilt_deleted_refuted`: an index rebuilt from its output
    has the deleted keys. P `C50_long_password_refuted`, `C50_cut_password_refuted`: a
    password of 256 bytes given to namespace-editor means none, of 257 bytes one byte.
    P `C51_data_file_refuted`: index-dump prints a wrong data file number.
    P `C34_rollback_refuted`, `C34_rollback_wrong_value_refuted`: index-rebuild with
    --time stops a file at the first later record and goes on with the next file; when
    timestamps go back it follows a null pointer or gives a wrong value.
    P `C34_rebuild_after_crash_refuted`: a record torn by a crash makes it exit or take
    the torn bytes as a record.
26. P `C35_failed_overwrite_refuted`: when an index write fails during an overwrite, SET
    answers an error, the key is gone and still counts, with the refused value's size.
    P `C35_failed_delete_refuted`: DEL answers an error and hides the key until the next
    start. P `C35_torn_index_write_refuted`: an index record written in part stays in the
    file, later records follow it, and the next start fails.
27. NSINFO space_available underflows; a negative bulk length; `atoi` on
    unterminated buffers; `args_overflow` off by one; passwords compared up to the
    first NUL.
28. P `C52_negative_length_refuted`: an argument announced with the length -1 is accepted
    and handed to the commands with this length; they then read outside of its buffer.
    P `C52_ex_undefined`: after MASTER, a request of one word makes the server read the
    freed command name (only an administrator can do this).
    P `C52_ex_forgotten`: a client whose namespace was removed is not disconnected if a
    further request had begun to arrive. P `C52_stop_refuted` (debug build): STOP is
    answered with "Stopping" and does not stop the server if another request came in the
    same packet.
29. P `C53_no_crash_refuted`: a word of exactly 256 characters given to INDEX, INDEX DIRTY,
    DATA or NSSET by an administrator overflows a buffer of 256 bytes by its final NUL
    (the check is `> 256`). `C53_exact` shows that with the request of one word from a
    master and a mirror attached to a removed namespace this is the whole list.
30. The descriptor of a namespace is overwritten in place, header first. P
    `C54_password_refuted`: a crash in the middle of NSSET password leaves a third
    password, a part of the old one cut to the length of the new one. P
    `C54_first_password_refuted`: for a first password it leaves the empty password. P
    `C54_maxsize_refuted`: a torn header leaves a limit which was never set. P
    `C54_new_refuted`: after a torn header in NSNEW the namespace takes data, and the
    start after that leaves it out.
31. NSDEL removes the files of a namespace in the order of the directory listing. P
    `C55_secret_refuted`: when the process dies after the descriptor is gone and the index
    is not, the next start takes the namespace for a public one without a password, and its
    data can be read by anybody. P `C55_start_refuted`: a first index file shorter than its
    header, in any one namespace, ends the process at every start.
32. P `C56_torn_refuted`: when the very first start (or NSNEW) dies inside of the 29 bytes of
    the first index header, no later start succeeds.
33. P `C57_masters_refuted`: NSINFO tells a client which has said MASTER (an administrator) the
    password of the namespace in clear text; it is stored in clear text too.
34. P `C58_silent_refuted`: the instance number of requests of ordinary clients is never set
    (redis.c:609 is commented out) and the request is allocated with malloc; when it is 0 the
    mirror is told nothing. Mirrors are told passwords in clear text (`C58_example`).
35. db-sync: P `C59_deleted_refuted`: a key deleted between its page and its GET is written to
    the target with an empty value. P `C59_refusals_refuted`: the replies of the target are not
    looked at, so with a quota or in WORM mode the program reports success without having
    copied. P `C59_times_refuted`: the times of the writes are lost.
36. db-replicate: P `C60_empty_refuted`, `C60_jump_refuted`: the type of the reply of RSCAN is
    not looked at; when the source has no key, or began a new file since the last write, the
    reply is an error and the program follows a null pointer. P `C60_missed_refuted`: the copy
    starts after the last key of the page of RSCAN, so a key written between a copy and RSCAN
    can be lost. P `C60_deleted_refuted`: deletions are not copied.
37. P `C31_space_refuted`: NSINFO computes `space_available` as limit minus used size in
    unsigned arithmetic (commands_namespace.c:300); with a limit below the used size it shows
    nearly 2^64 while SET is refused for want of space.
38. Hooks: P `C61_fork_refuted`: when fork fails in `hook_execute_wait`, waitpid(0) is called and
    the counter of children is decremented once too often; `libzdb_hooks_cleanup` then empties
    slots while a hook runs, and line 233 follows a null pointer when it ends. P
    `C61_room_refuted`: HOOKS writes into 1024 bytes a hook whatever the arguments are; the list
    of dirty files given to jump-index has no limit. P `C61_killed_refuted`: WEXITSTATUS is used
    without WIFEXITED, so a hook killed by a signal counts as successful, and after jump-index
    the dirty list is cleared (index.c:383-387). A background hook whose fork failed stays in the
    list for ever (`C61_example`).
39. Locks: P `C62_hook_refuted`: the lock files are not opened with O_CLOEXEC, so a hook still
    running keeps the locks of a server that is gone; the hook for a crash is not waited for
    (zdbd.c:195-199), so the restart after a crash is refused until it ends. P
    `C62_flock_refuted`: when flock fails for another reason than a lock held by somebody,
    `zdb_lock` returns 1, a valid result (bootstrap.c:82-85): the server runs without a lock and
    closes its standard output at the end (bootstrap.c:160). The tools that rewrite files
    (index-rebuild, quick-compaction) take no lock: `zdb_open` is commented out in them.
40. P `C63_failed_refuted`: when the hook jump-index fails, the list of changed files is kept for the
    next one, but not the file that was closed: a program which could not copy it is never told
    of it again. (What a restart or RELOAD does to the list is `C33_restart_refuted`; a hook killed
    by a signal counts as a success, finding 38.)
41. P `C64_late_refuted`: the namespaces loaded at a start are not reported, so a program added to a
    server which has namespaces never hears of those nobody changes. The server does not wait for
    the hooks about namespaces (namespace.c:336, 662): two of them can overtake each other, and a
    program which looks at the namespace may find it already changed again or gone; C64 takes them
    in order.
42. P `C65_units_refuted`: `--maxsize 64M` is a limit of 64 bytes, while `--datasize 64M` is 64 MB
    (zdbd.c:400 uses atol). P `C65_maxsize_refuted`: a limit that is not a number is no limit. P
    `C65_trailing_refuted`: `--datasize 1M024k` is 1 MB. P `C65_undefined_refuted`: `--datasize
    16777216T` is undefined (libzdb.c:87 converts before zdbd.c:461 compares). C65_server_ok asks for
    data files of at most 2 GB, as the theorems on servers do, while zdbd accepts almost 4 GB.
43. P `C66_forged_row_refuted`: a cursor is checked only against the length and the checksum at its
    place (index.c:635-678), so a client who stores a key which contains index records can point
    into it and make SCAN send rows for keys that do not exist. P `C66_wrong_bit_refuted`: with the
    lowest bit of the link of the first record wrong and that record deleted, the server starts,
    serves the other keys, and the first RSCAN keeps its only thread busy forever
    (index_scan.c:79-179: a link of 1 is taken for the first record). Files the server wrote have
    no such link (C66_rscan_user, C66_rscan_sequential).
