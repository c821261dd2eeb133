{"id": "C01", "title": "User-key reads return the last accepted write", "statement": "In a user-key namespace, after any history of SET, DEL, GET, EXISTS, LENGTH, KEYTIME, CHECK and file jumps, every reply is the one a plain key-to-(value,timestamp) map would give: GET k returns the value of the last accepted SET of k that no DEL followed, and nil otherwise; LENGTH, EXISTS and KEYTIME agree with it.", "quantifier": "every finite sequence of data commands with arbitrary binary keys (0..255 bytes, longer ones rejected), arbitrary values, arbitrary clocks, arbitrary points of data-file rotation, and arbitrary hash collisions between keys", "why_tests_cant": "a test covers a handful of histories; the claim must survive every interleaving of overwrites, deletions, re-insertions, hash collisions and file jumps", "anchors": ["zdbd/commands_set.c:command_set", "zdbd/commands_get.c:command_get", "zdbd/commands_dataset.c:command_del", "libzdb/index_set.c:index_set", "libzdb/index.c:index_entry_get", "libzdb/data.c:data_insert,data_get"]}
{"id": "C02", "title": "A clean restart is invisible to user-key clients", "statement": "Stopping the server after any completed command and starting it again changes no reply: every key keeps its value, length, timestamp and existence, the entry count and the accounted size are unchanged, and later commands behave as if no restart had happened.", "quantifier": "every history of data commands with restarts inserted at any number of arbitrary points", "why_tests_cant": "the in-memory index is rebuilt by replaying every index file; equivalence must hold for every combination of live, superseded and deleted records", "anchors": ["libzdb/index_loader.c:index_load_file,index_internal_load", "libzdb/index_set.c:index_set_memory", "libzdb/data.c:data_init"]}
{"id": "C03", "title": "A crash never damages other user keys", "statement": "If the process dies between any two disk writes of a SET or DEL in user-key mode, then after restart every other key has exactly its previous value, and an interrupted first insertion or deletion is seen either not at all or completely.", "quantifier": "every reachable state, every SET or DEL request, every crash point between two write system calls of that request, and every continuation after the restart", "why_tests_cant": "crash points cannot be enumerated by tests, and the claim is about all later reads", "anchors": ["libzdb/data.c:data_insert,data_delete", "libzdb/index_set.c:index_append_entry_on_disk", "libzdb/index.c:index_entry_delete_disk", "libzdb/index_loader.c:index_load_file"]}
{"id": "C04", "title": "A crash during an overwrite leaves the old or the new value", "statement": "If the process dies while an existing user key is being overwritten, then after restart the key holds either the old or the new value.", "quantifier": "every reachable state, every overwrite, every crash point between two writes of that request", "why_tests_cant": "needs a statement over every crash point; the code flags the old index record as deleted before appending the new one", "anchors": ["libzdb/index_set.c:index_update_entry_memkey", "libzdb/index.c:index_entry_delete_disk"]}
{"id": "C05", "title": "Sequential mode: fresh identifiers and last-write reads", "statement": "In a sequential namespace every accepted SET without key returns an identifier never returned before (strictly increasing), and GET id returns the value of the last accepted SET for that id unless it was deleted; updates and deletes of one id never change another id.", "quantifier": "every finite sequence of inserts, updates, deletes, reads and file jumps in which no index file is left empty", "why_tests_cant": "identifiers are resolved by a binary search over file starts plus an offset computation; correctness must hold for every distribution of identifiers over files", "anchors": ["zdbd/commands_set.c:redis_set_handler_sequential", "libzdb/index_get.c:index_get_handler_sequential", "libzdb/index_set.c:index_update_entry_sequential,index_seq_overwrite", "libzdb/index_seq.c"]}
{"id": "C06", "title": "A clean restart is invisible to sequential clients", "statement": "Restarting the server after any completed command changes no reply in a sequential namespace, including the identifiers handed out afterwards.", "quantifier": "every history of sequential commands with restarts at arbitrary points", "why_tests_cant": "the seq-to-file map and the next identifier are recomputed from the files at load time", "anchors": ["libzdb/index_loader.c:index_load_file,index_rehash", "libzdb/index_seq.c:index_seqid_push"]}
{"id": "C07", "title": "Sequential updates are crash-atomic", "statement": "If the process dies between any two disk writes of a sequential insert, update or delete, then after restart every other id is unchanged and the id concerned shows either the old or the new state.", "quantifier": "every reachable sequential state, every request, every crash point between two writes", "why_tests_cant": "all crash points and all later reads", "anchors": ["libzdb/index_set.c:index_update_entry_sequential,index_seq_overwrite", "libzdb/index.c:index_entry_delete_disk"]}
{"id": "C08", "title": "Identifier-to-file resolution is exact", "statement": "The lookup that maps a sequential identifier to an index file always terminates and returns the file whose first identifier is the greatest one not above the requested identifier.", "quantifier": "every non-empty list of file starts sorted by identifier and starting at 0, every 64-bit identifier", "why_tests_cant": "binary search boundary behaviour over all list sizes", "anchors": ["libzdb/index_seq.c:index_seqmap_from_seq"]}
{"id": "C09", "title": "Distinct sequential keys never alias", "statement": "Two different 64-bit keys never resolve to the same stored record: a GET for a key that was never handed out returns nil.", "quantifier": "every 64-bit key", "why_tests_cant": "needs all 2^64 keys; the offset is computed in 32 bits", "anchors": ["libzdb/index_get.c:index_get_handler_sequential", "libzdb/index_seq.c:index_seq_offset"]}
{"id": "C10", "title": "Namespaces are isolated", "statement": "A command executed on one namespace never changes the reply of any read, lookup, walk (SCAN, RSCAN, KSCAN, HISTORY), count or size on another namespace, although all namespaces share one in-memory hash table.", "quantifier": "every pair of namespaces, every state, every data command or namespace reload/deletion on the first, every key of the second (including equal keys and colliding hashes)", "why_tests_cant": "needs all key pairs and states of the shared table", "anchors": ["libzdb/index.c:index_entry_get,index_clean_namespace", "libzdb/index_branch.c", "libzdb/namespace.c"]}
{"id": "C11", "title": "Data files are append-only", "statement": "No command, jump, reload or restart ever changes a byte already written to a data file; data files only grow at the end.", "quantifier": "every reachable state and every command or restart, every byte offset of every data file", "why_tests_cant": "needs every command and every offset", "anchors": ["libzdb/data.c:data_insert,data_delete,data_initialize,data_jump_next"]}
{"id": "C12", "title": "Stored offsets never overflow", "statement": "With a configured data-file size limit up to 2 GiB every record location handed to the index fits its 32-bit field, whatever the history, so a later read looks at the place that was written.", "quantifier": "every history of commands, every key and value length accepted", "why_tests_cant": "overflow happens only on multi-gigabyte files that tests do not build", "anchors": ["zdbd/commands_set.c:command_set", "libzdb/index_set.c:index_append_entry_on_disk", "libzdb/data.c:data_insert"]}
{"id": "C13", "title": "The size quota is enforced", "statement": "In a namespace with a maximum size, an accepted SET never leaves the total size of live values above the maximum, an accepted overwrite is charged only for the difference, and a refused SET changes nothing.", "quantifier": "every history, every maximum, every value size, overwrites included", "why_tests_cant": "accounting must be exact over every history of overwrites and deletes", "anchors": ["zdbd/commands_set.c:command_set", "libzdb/index_set.c", "libzdb/index.c:index_entry_delete_memory"]}
{"id": "C14", "title": "Entry count and data size are exact", "statement": "DBSIZE and NSINFO entries / data_size_bytes always equal the number of live keys and the sum of the lengths of their current values.", "quantifier": "every history of commands and restarts, both modes", "why_tests_cant": "an accounting drift shows up only after particular interleavings", "anchors": ["zdbd/commands_namespace.c:command_dbsize,command_nsinfo", "libzdb/index_set.c", "libzdb/index.c:index_entry_delete_memory"]}
{"id": "C15", "title": "WORM namespaces never lose or change a value", "statement": "While a namespace is in WORM mode, no SET or DEL by any client changes or removes a key that exists; it stays readable with the same value.", "quantifier": "every state, every client (admin included), every sequence of data commands", "why_tests_cant": "negative property over all command sequences", "anchors": ["zdbd/commands_set.c:command_set", "zdbd/commands_dataset.c:command_del"]}
{"id": "C16", "title": "Locked and frozen namespaces", "statement": "While a namespace is locked no SET or DEL changes anything; while frozen, in addition no data command returns stored data.", "quantifier": "every data command, argument list, client and state", "why_tests_cant": "negative property over all commands", "anchors": ["libzdb/namespace.c:namespace_is_locked,namespace_is_frozen", "zdbd/commands_set.c", "zdbd/commands_get.c", "zdbd/commands_dataset.c"]}
{"id": "C17", "title": "Read-only sessions cannot write", "statement": "A client that entered a password-protected public namespace without password can never change its keys through SET or DEL.", "quantifier": "every sequence of data commands by such a client", "why_tests_cant": "negative property over all sequences", "anchors": ["zdbd/commands_namespace.c:command_select", "zdbd/commands_set.c:command_set", "zdbd/commands_dataset.c:command_del"]}
{"id": "C18", "title": "Namespace passwords guard access", "statement": "A client becomes attached to a password-protected namespace by SELECT with write permission only by supplying exactly its password or the digest of its password and the client's current challenge; without password only a public namespace is entered, and then read-only.", "quantifier": "every SELECT argument list, every namespace configuration, every client state", "why_tests_cant": "negative security property over all inputs", "anchors": ["zdbd/commands_namespace.c:command_select", "zdbd/auth.c", "libzdb/security.c"]}
{"id": "C19", "title": "Administrative commands require authentication", "statement": "A client without administrator rights never changes namespaces or settings through an administrative command, whatever its arguments, and it obtains administrator rights only by presenting the configured password or the right challenge digest.", "quantifier": "every command, every argument list, every client state", "why_tests_cant": "negative security property over all inputs", "anchors": ["zdbd/commands.c:command_admin_authorized", "zdbd/commands_auth.c", "zdbd/commands_namespace.c"]}
{"id": "C20", "title": "Challenges are single use", "statement": "After a digest comparison in AUTH SECURE the challenge is gone: the same digest cannot authenticate a second time.", "quantifier": "every sequence of AUTH commands of a client", "why_tests_cant": "replay over all sequences", "anchors": ["zdbd/commands_auth.c:command_auth_secure"]}
{"id": "C21", "title": "SCAN enumerates every live key exactly once", "statement": "Following the cursors of SCAN from the beginning to the end without concurrent writes returns every live key exactly once, in the order of the index files, with its length and timestamp, and terminates.", "quantifier": "every reachable state, every partition of the walk into calls (the server stops a call after a time slice)", "why_tests_cant": "all states and all slicings", "anchors": ["libzdb/index_scan.c:index_first_header,index_next_header", "zdbd/commands_scan.c:command_scan"]}
{"id": "C22", "title": "RSCAN enumerates in reverse", "statement": "Following RSCAN from the end returns every live key exactly once in the reverse order of SCAN.", "quantifier": "every reachable state in which no index file is empty, every slicing", "why_tests_cant": "backward links cross files by comparing offsets", "anchors": ["libzdb/index_scan.c:index_last_header,index_previous_header", "zdbd/commands_scan.c:command_rscan"]}
{"id": "C23", "title": "SCAN under concurrent writes misses nothing stable", "statement": "If writes are executed between the calls of a SCAN walk, every key that is live when the walk starts and is neither updated nor deleted during it is returned exactly once, and no key deleted before the walk is returned.", "quantifier": "every interleaving of writes with the calls of a walk", "why_tests_cant": "all interleavings", "anchors": ["libzdb/index_scan.c", "zdbd/commands_scan.c"]}
{"id": "C24", "title": "HISTORY returns the previous versions", "statement": "Following HISTORY from the current version of a key returns all its earlier accepted values since its insertion, newest first, each with its payload and timestamp, and stops.", "quantifier": "every history of SETs of a key, in any files", "why_tests_cant": "version chains of any length across files", "anchors": ["zdbd/commands_history.c", "libzdb/index_set.c"]}
{"id": "C25", "title": "CHECK detects corruption", "statement": "CHECK answers 1 for every value as it was stored, and 0 if the stored value bytes differ from the original by any change confined to four consecutive bytes.", "quantifier": "every value, every position, every such corruption", "why_tests_cant": "2^32 corruptions at every position of every value", "anchors": ["libzdb/data.c:data_check_real", "libzdb/crc32.c"]}
{"id": "C26", "title": "All checksum engines agree", "statement": "The table-driven checksum and the 8-bytes-at-a-time hardware versions give the same 32-bit result for every input.", "quantifier": "every byte string of every length", "why_tests_cant": "length-dependent chunking boundary over all inputs", "anchors": ["libzdb/crc32.c:crc32c_software,crc32c_sse42,crc32c_armv8"]}
{"id": "C27", "title": "Request parsing does not depend on packet boundaries", "statement": "However the client's byte stream is cut into reads, the server executes the same sequence of requests with the same arguments; a request encoded by a client is decoded to exactly its arguments.", "quantifier": "every sequence of requests, every cut of the stream into non-empty chunks that fit the receive buffer", "why_tests_cant": "all cuts of all streams", "anchors": ["zdbd/redis.c:redis_chunk"]}
{"id": "C28", "title": "Replies are delivered in order", "statement": "For every schedule of full and partial socket writes, the bytes a client has received are always a prefix of the concatenation of its replies in command order, and what remains queued is exactly the rest.", "quantifier": "every sequence of replies, every schedule of send results", "why_tests_cant": "all schedules", "anchors": ["zdbd/redis.c:redis_reply_generic,redis_send_response,redis_delayed_write"]}
{"id": "C29", "title": "Commands are recognised by name, case-insensitively", "statement": "A request whose first argument is the full name of a command in any letter case runs that command, and a request whose first argument is not a command name runs none.", "quantifier": "every byte string as command name", "why_tests_cant": "all strings", "anchors": ["zdbd/commands.c:redis_dispatcher"]}
{"id": "C30", "title": "Namespace settings survive restarts", "statement": "Password, maximum size, public and WORM flags set through NSSET are the ones in force after restart, whatever previous settings were stored.", "quantifier": "every sequence of NSSET values up to the accepted length", "why_tests_cant": "the descriptor file is rewritten in place without truncation", "anchors": ["libzdb/namespace.c:namespace_descriptor_update,namespace_descriptor_load", "zdbd/commands_namespace.c:command_nsset"]}
{"id": "C31", "title": "Namespace set semantics", "statement": "NSNEW and NSDEL act on a set of names: names stay unique, the default namespace always exists, NSLIST returns exactly the existing names, a lookup by name finds a namespace iff it was created and not deleted, and a re-created namespace is empty.", "quantifier": "every sequence of NSNEW, NSDEL and NSLIST", "why_tests_cant": "slot reuse over all sequences", "anchors": ["libzdb/namespace.c:namespace_push,namespace_kick_slot,namespace_get", "zdbd/commands_namespace.c:command_nsnew,command_nsdel,command_nslist"]}
{"id": "C32", "title": "FLUSH empties the namespace", "statement": "After a successful FLUSH no key of the namespace exists.", "quantifier": "every private namespace state", "why_tests_cant": "all states", "anchors": ["libzdb/namespace.c:namespace_flush", "libzdb/filesystem.c:dir_clean_cb"]}
{"id": "C33", "title": "Dirty tracking lists every modified index file", "statement": "INDEX DIRTY lists exactly the index files that had an existing record rewritten since the last reset (or since the namespace was loaded); a backup that copies the listed files, the file that was current at the reset and the files created since then misses no modification.", "quantifier": "every history of commands, jumps and resets", "why_tests_cant": "all histories", "anchors": ["libzdb/index.c:index_dirty_set,index_dirty_resize,index_dirty_list", "zdbd/commands_system.c:command_index"]}
{"id": "C34", "title": "An index rebuilt from the data files is equivalent", "statement": "Running the index rebuild over the data files of a user-key namespace yields a database in which every key has the same value and timestamp.", "quantifier": "every history of commands that produced the data files", "why_tests_cant": "all histories", "anchors": ["tools/index-rebuild/index-rebuild.c", "libzdb/data.c"]}
{"id": "C35", "title": "Refused and failing commands have no effect on keys", "statement": "A SET or DEL answered with an error or with nil changes no key, no value and no counter of entries or size.", "quantifier": "every state, every request, every reason of refusal", "why_tests_cant": "all states and requests", "anchors": ["zdbd/commands_set.c", "zdbd/commands_dataset.c"]}
{"id": "C36", "title": "The library API agrees with a map", "statement": "Through the C API (zdb_api_set/get/del/exists) a get after an accepted set returns the value just set.", "quantifier": "every key and every pair of old and new values", "why_tests_cant": "the API compares only 32-bit checksums to decide whether a value changed", "anchors": ["libzdb/api.c:zdb_api_set,zdb_api_get"]}
{"id": "C37", "title": "MGET equals a sequence of GETs", "statement": "MGET k1..kn replies with a list of n replies, each the one GET ki would give.", "quantifier": "every state, every list of keys", "why_tests_cant": "all lists and states", "anchors": ["zdbd/commands_get.c:command_mget"]}
{"id": "C38", "title": "WAIT notifications", "statement": "A client waiting for a command on its namespace is answered exactly once: when another client of the same namespace executes that command, or when its timeout expires, whichever comes first.", "quantifier": "every sequence of commands by other clients and clock values", "why_tests_cant": "all interleavings", "anchors": ["zdbd/redis.c:redis_posthandler_client,redis_idle_process", "zdbd/commands.c:command_wait"]}
{"id": "C39", "title": "On-disk records decode to what was encoded", "statement": "Every index record, data record, file header, namespace descriptor and cursor read back from its byte representation has exactly the field values that were written.", "quantifier": "every value of every field within its width, every key", "why_tests_cant": "all field values", "anchors": ["libzdb/index.h", "libzdb/data.h", "libzdb/namespace.h"]}
{"id": "C40", "title": "The hash table of linked lists is a map", "statement": "The in-memory table (buckets of singly linked lists with head, last and length) behaves as a map from (namespace, key) to entry under any sequence of append, remove and namespace cleaning, with no dangling last pointer.", "quantifier": "every sequence of table operations, every hash distribution", "why_tests_cant": "pointer manipulation corner cases (first, last, only element)", "anchors": ["libzdb/index_branch.c", "libzdb/index.c:index_clean_namespace_branch,index_entry_delete_memory"]}
{"id": "C41", "title": "Raw data access returns the stored record", "statement": "DATA RAW at the offset of a stored non-deleted non-empty record returns exactly its key, value, checksum, flags, timestamp and previous link, and beyond the end of the file an end-of-file error.", "quantifier": "every record of every data file, every offset at or beyond the end", "why_tests_cant": "all records", "anchors": ["libzdb/data.c:data_raw_get_real", "zdbd/commands_system.c"]}
{"id": "C42", "title": "The mode of a namespace changes only while it is unused", "statement": "NSSET mode succeeds only on a namespace into which nothing was ever written in any file, so stored keys are never reinterpreted in the other mode.", "quantifier": "every history of requests, connections, restarts and rotations of a server whose values are at most 8 MiB, with less than 2^32 files per namespace and sequential namespaces used within the limits of C05 and C06", "why_tests_cant": "all histories", "anchors": ["zdbd/commands_namespace.c:command_nsset_mode", "libzdb/namespace.c:namespace_is_fresh"]}
{"id": "C43", "title": "Challenge digests are the published SHA-1", "statement": "The digest compared in secure authentication is the SHA-1 digest of FIPS 180-4 of challenge, colon and password, in lower-case hexadecimal, so any independent client computes the accepted value.", "quantifier": "every challenge and password of any length", "why_tests_cant": "all lengths around the block boundaries and all contents", "anchors": ["libzdb/sha1.c:SHA1Transform,SHA1Update,SHA1Final", "libzdb/security.c:zdb_hash_password", "zdbd/commands_auth.c", "zdbd/commands_namespace.c:command_select"]}
{"id": "C44", "title": "A client stays in the namespace it has selected", "statement": "A connected client acts on the namespace of its last successful SELECT (the default one before). Nothing other clients do moves it elsewhere: when that namespace is deleted every later request of the client is refused, also if a namespace of the same name, or one stored in the same place, is created afterwards.", "quantifier": "every history of connections, requests of any number of clients, restarts and periodic work", "why_tests_cant": "it ranges over all interleavings of several clients and over the reuse of the slots of deleted namespaces", "anchors": ["zdbd/redis.c:redis_detach_clients,socket_client_new", "zdbd/commands_namespace.c:command_select,command_nsdel", "zdbd/commands.c:redis_dispatcher"]}
{"id": "C45", "title": "KSCAN returns exactly the keys with a prefix", "statement": "KSCAN prefix on a user-key namespace returns exactly the live keys of that namespace that start with the prefix, each once, and the keys of no other namespace.", "quantifier": "every reachable state, every non-empty prefix, whatever the other namespaces put in the shared table", "why_tests_cant": "it ranges over all histories, all prefixes and all distributions of the keys over the buckets", "anchors": ["zdbd/commands_scan.c:command_kscan,command_kscan_send_list", "libzdb/index_branch.c:index_branch_append"]}
{"id": "C46", "title": "Protect mode guards the default namespace", "statement": "When the server is started with --protect, a client gets permission to write in the default namespace only by a SELECT with the administrator password, or with the digest of that password and the client's challenge; no later command, including NSSET, NSDEL and RELOAD by an administrator, removes that protection before the server restarts.", "quantifier": "every sequence of connections, requests of any clients and periodic work after the start", "why_tests_cant": "negative security property over all command sequences of all clients", "anchors": ["zdbd/zdbd.c:proceed", "zdbd/redis.c:socket_client_new", "zdbd/commands_namespace.c:command_select,command_nsset"]}
{"id": "C47", "title": "The data files are exactly the log of the accepted writes", "statement": "Without crashes, the data files of a namespace contain, after their headers, exactly one record per SET and DEL that was answered positively, in the order of the answers, each with its key, value, timestamp, checksum and deletion mark and with the place of the record before it in the same file; refused, unchanged and reading requests leave no trace.", "quantifier": "all histories of requests, setting changes, jumps and restarts in user-key and sequential mode", "why_tests_cant": "It is a statement about every byte of every data file after every history; tests look at a few files.", "anchors": ["libzdb/data.c:data_insert", "libzdb/data.c:data_delete", "libzdb/data.c:data_open_final", "zdbd/commands_set.c", "zdbd/commands_dataset.c:command_del"]}
{"id": "C48", "title": "integrity-check counts the damaged values", "statement": "Run over a data file of a namespace, the integrity checker reports no error if the file is as the server wrote it, and exactly k errors if the values of k records have been changed, each within four consecutive bytes; its exit status tells whether there are errors.", "quantifier": "all histories in user-key and sequential mode, all data files of the namespace, all sets of damaged records and all such damages", "why_tests_cant": "It ranges over every damage of every file; a test can flip a few bits of one file.", "anchors": ["tools/integrity-check/integrity-check.c:data_integrity,main", "libzdb/crc.c:zdb_crc32"]}
{"id": "C49", "title": "quick-compaction keeps the current values", "statement": "The files written by quick-compaction from the files of a namespace hold the current value of every key and no outdated value, and a server started on them answers GET as before.", "quantifier": "all histories of requests, jumps and restarts in user-key mode", "why_tests_cant": "It is a statement about all histories that lead to the input files.", "anchors": ["tools/quick-compaction/quick-compact.c", "libzdb/index_loader.c:index_internal_load"]}
{"id": "C50", "title": "namespace-editor sets the settings it announces", "statement": "After namespace-editor was run on a namespace that the server can load, the server still loads it, with the same contents and with exactly the password, size limit, public and worm settings given as options, or their documented default; namespace-dump prints these settings.", "quantifier": "all descriptors the server loads, all options: passwords, limits below 2^63, flags", "why_tests_cant": "All passwords, lengths and former descriptors, including those where the new one is shorter than the old one.", "anchors": ["tools/namespace-editor/namespace-editor.c:namespace_edit,main", "tools/namespace-dump/namespace-dump.c", "libzdb/namespace.c:namespace_commit,namespace_descriptor_load"]}
{"id": "C51", "title": "index-dump shows every entry", "statement": "index-dump prints one numbered line per accepted value in user-key mode (per key given out in sequential mode), in order, with its key, value length, checksum and time, and the lines without the deletion flag are exactly those of the keys that GET finds, with their current values; the data file number is the file that holds the value.", "quantifier": "all histories in user-key and sequential mode", "why_tests_cant": "It relates the output to every history that can have produced the index files.", "anchors": ["tools/index-dump/index-dump.c:index_dump_files,index_dump", "zdbd/commands_set.c:redis_set_handler_userkey"]}
{"id": "C52", "title": "All clients see one order of requests", "statement": "Whatever the pieces in which the bytes of all clients arrive and are read and in which the replies are taken by their sockets, there is one sequence of all requests, growing with time, such that the server is in the state after executing them one after the other, each client's part of the sequence is the beginning of its own stream that was read completely, in its order, and what each client received and what still waits for it are exactly the messages for it in that execution. As long as the clients send well-formed requests, nothing but the execution of a request itself can be undefined. Such a client loses its connection only by hanging up or after it was told that its namespace has been removed, and then it does lose it. The server stops only in a debug build and only by STOP.", "quantifier": "all sequences of accepts, arrivals, reads, writes, hang-ups and idle work, for any number of clients; all cuts of reads and writes", "why_tests_cant": "The interleavings of clients, packet cuts and partial writes are unbounded.", "anchors": ["zdbd/socket_epoll.c:socket_event,socket_handler", "zdbd/redis.c:redis_chunk_read,redis_handle_resp_finished,redis_reply_heap,redis_reply_stack,redis_delayed_write,socket_client_free"]}
{"id": "C53", "title": "Which requests crash the server", "statement": "In every state a server reaches, an event leads to a crash or to behaviour outside the model if and only if it is in a short explicit list: INDEX, INDEX DIRTY, DATA or NSSET from an administrator with a word of exactly 256 characters, a request of one word from a client which declared itself master, a request forwarded to a mirror for a client whose namespace was removed, NSNEW with an empty name, and FLUSH of a namespace whose name contains a data or index file prefix. Every other request with any words, in particular SCAN, RSCAN and HISTORY with forged cursors, terminates and is answered. Over the network the server gets through everything well-formed clients send unless one of these is the next request.", "quantifier": "all server configurations, all runs of requests, idle work and restarts, all next requests with arbitrary words; all interleavings of clients on the network", "why_tests_cant": "The words and cursors are arbitrary bytes and the states are unbounded; termination of the walks cannot be observed by a finite test.", "anchors": ["zdbd/commands_namespace.c:command_nsset,command_nsnew,command_flush", "zdbd/commands_scan.c:command_scan,command_rscan", "zdbd/commands_history.c:command_history", "zdbd/commands_system.c:command_index,command_data", "libzdb/index_scan.c", "zdbd/redis.c:redis_posthandler_client"]}
{"id": "C54", "title": "Crash of a server with several namespaces", "statement": "If the server process dies at any moment and is started again, every namespace is there with the data and the settings that its last answered requests gave it. Of the request being handled at that moment there is no effect, its whole effect, or for a request on the data an effect that C03 and C07 allow; all other namespaces are unchanged. The server always starts again.", "quantifier": "all server configurations, all histories of connections, requests, periodic work, restarts and crashes, all points between and within writes of data, index and descriptor files, any order of the directory listing", "why_tests_cant": "Crash points multiply with histories and namespaces; a test kills the server at a few of them.", "anchors": ["libzdb/namespace.c:namespace_descriptor_update,namespace_descriptor_load,namespace_commit,namespace_scanload,namespace_create", "zdbd/commands_namespace.c:command_nsset,command_nsnew", "zdbd/redis.c:redis_idle_process", "libzdb/index.c", "libzdb/data.c"]}
{"id": "C55", "title": "Damage stays in the damaged namespace", "statement": "If the files of some namespaces are damaged, missing, half removed by an interrupted NSDEL or new when the server starts, then every other namespace is found under its name with its settings and answers every data request exactly as before, whatever is later done in the damaged ones. A server interrupted at any moment of NSDEL starts again. (Not so: any damage leaves the server able to start; an interrupted NSDEL never opens a private namespace.)", "quantifier": "all server configurations, all histories before, all contents of the files of the other namespaces (arbitrary bytes), all directory listings, all later events that do not remove, set or reload the namespace", "why_tests_cant": "The damage is arbitrary bytes in arbitrarily many files and the namespaces share one hash table; a test tries a few damaged files.", "anchors": ["libzdb/namespace.c:namespaces_init,namespace_scanload,namespace_load,namespace_delete,namespace_descriptor_load", "libzdb/filesystem.c:zdb_dir_remove", "libzdb/index_loader.c:index_internal_load,index_load_file", "libzdb/index_branch.c"]}
{"id": "C56", "title": "An interrupted start can be repeated", "statement": "If the server dies while it starts, at any write to the files of any namespace, and this any number of times, then the next start ends in the same state as the first would have: the same namespaces, settings, memory and bytes in all files, or no start in both cases. After any history it comes up with all its contents and goes on. This holds for the very first start too. (Not so: when the header of the first index file of a new namespace is only partly written, the server never starts again.)", "quantifier": "all server configurations, all directories found (arbitrary bytes after the first headers), all numbers of interrupted starts, all points of interruption; for the second part all histories before and after", "why_tests_cant": "A start rewrites headers of every file of every namespace; the interruption points of repeated starts over arbitrary files cannot be enumerated.", "anchors": ["libzdb/namespace.c:namespaces_init,namespace_scanload,namespace_load,namespace_descriptor_load", "libzdb/index_loader.c:index_internal_load,index_load_file,index_initialize", "libzdb/data.c:data_init,data_initialize,data_open_final"]}
{"id": "C57", "title": "Passwords are not disclosed", "statement": "What clients receive depends on the passwords only through the answers to AUTH, SELECT and NSSET. Take two histories which differ only in the administrator's password, in the passwords of namespaces and in the passwords or digests the clients present. If every AUTH, SELECT and NSSET is answered alike in both, then everything else that clients receive is the same, byte for byte: NSINFO, NSLIST, INFO, data, error messages. The state, and what is left in the directories, is alike but for the passwords. (Not so for clients which have said MASTER: NSINFO tells them the password of the namespace. Mirrors receive the words of requests, passwords included.)", "quantifier": "all pairs of server configurations, all pairs of histories of any length with any number of clients, connections, requests, periodic checks and restarts", "why_tests_cant": "It compares every pair of histories; a test can only look for one known password in a few replies.", "anchors": ["zdbd/commands_namespace.c:command_nsinfo,command_nsset,command_select", "zdbd/commands_auth.c:command_auth", "zdbd/auth.c", "zdbd/redis.c", "libzdb/namespace.c:namespace_descriptor_load,namespace_descriptor_update"]}
{"id": "C58", "title": "A mirror is told of the requests of the others", "statement": "A client which has said MIRROR receives, for every later request of any other client which names a command and carries an instance number, one message: the time, the name of the namespace of that client, the instance number and the words of the request, unchanged. The messages come in the order of the requests and nothing else is sent to it. Its stream can be read back in one way only. (Not so for ordinary clients: their instance number is never set, and when the memory happens to be zero the mirror is told nothing.)", "quantifier": "all servers, all histories of any length after MIRROR, all clients and requests (refused ones too), all contents of the words", "why_tests_cant": "The order and completeness of a stream among any number of clients, and that it can be read unambiguously whatever bytes the words hold, are claims about all histories.", "anchors": ["zdbd/commands_replicate.c:command_mirror,command_master", "zdbd/redis.c:redis_mirror_client,redis_posthandler_client,redis_handle_resp_ownerid"]}
{"id": "C59", "title": "db-sync copies a namespace", "statement": "When the program db-sync says that the database is synchronized, every key that nobody else asked to write or to delete meanwhile, at the source or at the target, reads at the target as at the source if the source has it, and as before if not. Other clients may read and write other keys of both servers all the time, however the server cuts the pages. If nobody writes to the source, the program ends after at most as many pages as there are keys, and one more. The target must take writes: it is not locked, not in WORM mode, has no quota, and the session may write. (Not so: a key deleted between its page and its GET comes to the target with an empty value; refusals of the target are ignored; times of writes are not copied.)", "quantifier": "all reachable user-mode namespaces at the source and at the target, all keys and values, all interleavings with requests of other clients on both servers, all page sizes", "why_tests_cant": "A test copies one database with one schedule; completeness under every interleaving of writes with pages needs an invariant of the walk.", "anchors": ["utilities/db-sync/db-sync.c:synchronize,fetchsync", "zdbd/commands_scan.c:command_scan", "zdbd/commands_get.c:command_get", "zdbd/commands_set.c:command_set"]}
{"id": "C60", "title": "db-replicate copies what is written at the source", "statement": "In each turn of its loop db-replicate asks the source for its last keys (RSCAN), waits, and copies. At the end of the turn the target reads as the source did when the wait ended, for every key that was in the page of RSCAN and not its last one, and for every key whose value changed during the wait, unless somebody else asks to write or delete the key during the copy. A key that the source does not have is left as it was. If nobody else writes to the source during the copy, the turn ends. (Not so: a key written between a copy and RSCAN that is the last one of the page is never copied; deletions are not copied; the program follows a null pointer when the source has no key, or began a new file since the last write.)", "quantifier": "all reachable user-mode namespaces at the source and at the target, all keys and values, all sizes of the page of RSCAN and of the pages of SCAN, all requests of other clients on both servers between any two steps", "why_tests_cant": "What is copied depends on how RSCAN is cut and on when others write; a test sees one schedule, and the lost key needs a particular one.", "anchors": ["utilities/db-replicate/db-replicate.c:synchronize,replicate_from_reply,fetchsync", "zdbd/commands_scan.c:command_rscan", "zdbd/commands_scan.c:command_scan", "libzdb/index_scan.c:index_previous_header"]}
{"id": "C61", "title": "HOOKS shows every hook and its outcome", "statement": "A server with a hook program starts a process for each event to report, in the background or waiting for its end, and keeps a list of them. Whatever hooks are started, in whatever order and at whatever time they end, and whenever the server is idle, keeping the list never makes the server fail, and HOOKS answers with every hook started: its type, its arguments (without the identifier of the server), process number, times of start and end and the exit code of that very process. A hook is left out only from 300 seconds after its end on. The replies fit in the buffer made for them when the arguments of each hook take at most 700 bytes. (Not so: when fork fails for a hook the server waits for, a later idle turn can follow a null pointer; with a long list of dirty files HOOKS writes past its buffer; a hook killed by a signal is shown, and acted upon, as one that succeeded.)", "quantifier": "all sequences of hooks started and waited for, all process numbers (also used again), all orders and statuses of their ends, all times, all failures of fork for background hooks", "why_tests_cant": "The list has holes and grows; whether the end of a process is looked for past a hole depends on the order in which many processes end and expire.", "anchors": ["libzdb/hook.c:hook_new,hook_append,hook_execute,hook_execute_wait,hook_expired_cleanup,libzdb_hooks_cleanup", "zdbd/commands_system.c:command_hooks", "libzdb/index.c:index_jump_next"]}
{"id": "C62", "title": "Two servers never use the same directory", "statement": "Whatever servers are started on whatever directories, whatever hook processes they start, and whenever any of these processes ends or dies, no two living servers have a directory in common, be it as index or as data directory. A server starts exactly when its two directories are different, both lock files can be opened, and neither directory is used by a living server or by a living process which a server using it has started; no lock is left behind by a death. (Not so where flock itself fails: the server then runs without a lock. And a hook outliving its server keeps the directories locked.)", "quantifier": "all sequences of starts, forks and ends of processes, all directories, all failures to open a lock file", "why_tests_cant": "It is about every interleaving of several processes, and about locks inherited by processes started at any moment.", "anchors": ["libzdb/bootstrap.c:zdb_lock,zdb_open,zdb_close", "zdbd/zdbd.c:proceed,sighandler", "libzdb/hook.c:hook_execute"]}
{"id": "C63", "title": "A hook program can keep an exact copy of the index files", "statement": "A server with a hook program calls it at every change of files (by a SET that does not fit, NSJUMP, or rotation), waits for it, and tells it the index file closed, the one opened, and the older index files changed since its last success. If the program always copies the file closed, and reports success only after copying the other files it was told of, then at any time, after any requests, its copies equal the index files of the server byte for byte, but for the current file and those INDEX DIRTY lists; and at each success they are exact for all files but the one just opened. A program that fails changes nothing in the server. (Not so for a program which fails before copying the file closed: it is not told of that file again.)", "quantifier": "all histories of requests, rotations and INDEX commands other than RESET in one run of the process without failing writes, all exit codes, all careful programs, both modes", "why_tests_cant": "It is an invariant of the list of changed files over all interleavings of writes, jumps and failures of the program; a missed file shows only when a backup is restored.", "anchors": ["libzdb/index.c:index_jump_next,index_dirty_list_generate,index_dirty_set,index_dirty_reset,index_dirty_list", "zdbd/commands_set.c:command_set", "zdbd/commands_namespace.c:command_nsjump", "zdbd/redis.c:redis_files_rotate"]}
{"id": "C64", "title": "A hook program is told of every change to the namespaces", "statement": "A server with a hook program starts it once for each NSNEW, NSDEL, NSSET and RELOAD it answers with OK, with the name of that namespace, and for no other request about a namespace; at a start it is told of the start alone. Nothing it is told is wrong: a namespace reported created was not there before and is there now, one reported deleted was there and is gone. So a program which knows the default namespace of a new server, and looks only at the namespaces it is told of when it is told of them, always knows exactly which namespaces there are and what their settings are, over refused requests and restarts. (A program which is there only from a later start on is told nothing of the namespaces which are loaded.)", "quantifier": "all runs of a server from its first start, with any clients, requests, refusals, idle moments and restarts; passwords do not begin with NUL", "why_tests_cant": "It is an invariant over all histories: a path on which a notification is missed, given twice or given for a refused request shows only as a list that drifts from the server later.", "anchors": ["libzdb/namespace.c:namespace_create,namespace_delete,namespace_commit,namespace_reload,namespaces_init,namespace_scanload", "zdbd/commands_namespace.c:command_nsnew,command_nsdel,command_nsset,command_reload", "libzdb/hook.c:hook_execute"]}
{"id": "C65", "title": "The command line decides the settings, or there is no server", "statement": "The server starts for exactly the command lines whose options are all valid (a known mode, a data file size from 512 KB up to below 4 GB written as a number with an optional unit k, M, G or T) and which do not ask for protection without an administrator password; otherwise it exits, with success only for --version before any invalid option. Its settings are then those asked for, the last one when an option is repeated, whatever the order, and the documented defaults for the rest; a unix socket replaces the network unless both are asked for. The default namespace gets the administrator password with --protect and the limit of --maxsize, and nothing else of what was stored changes. Sizes mean the same for all options, and a text that is not a size is refused.", "quantifier": "all lists of options of any length with any arguments (for sizes: texts which are not signed, fractional, hexadecimal or with exponent), and all stored files for the start", "why_tests_cant": "There are endless lines of options, with repetitions and orders, and endless texts for a size; a wrong limit shows only when the space runs out.", "anchors": ["zdbd/zdbd.c:main,proceed,long_options", "libzdb/libzdb.c:zdb_human_readable_parse", "libzdb/bootstrap.c:zdb_initialize"]}
{"id": "C66", "title": "SCAN and RSCAN answer whatever the cursor", "statement": "SCAN and RSCAN always come to an end with a reply, whatever the client sends as a cursor: a cursor made up, changed, old, or pointing into the middle of a record. A cursor is refused if and only if there is no such file, no room for a record at its place, or the length or checksum there differs. No cursor makes the server, which has a single thread, walk forever. The rows sent back are keys of the namespace, also for a cursor made up; and a damaged index file does not make a walk endless.", "quantifier": "all argument lists, all numbers of steps the clock allows, all states reached by histories of requests, jumps and restarts in both modes (with crashes in sequential mode), below 2^32 files; for SCAN all contents of the index files", "why_tests_cant": "The cursor is 17 free bytes which name a place in the files, the bytes there may be a key chosen by the client, and the walk follows links read from there: that no such chain is endless needs a measure that decreases from every place.", "anchors": ["libzdb/index_scan.c:index_previous_header,index_previous_header_real,index_next_header,index_next_header_real,index_first_header,index_last_header", "libzdb/index.c:index_entry_deserialize", "zdbd/commands_scan.c:command_scan,command_rscan,scan_initial_get"]}
{"id": "C67", "title": "HISTORY with a position given by the client", "statement": "HISTORY with a key and any 8 bytes as a position always answers. It tells something if and only if the position names an existing index file in which the bytes of the key are where a record at that place has its key; otherwise it is refused. What it tells is a piece of a data file of this namespace, never anything else from memory or from another namespace. It is a version of the key asked for.", "quantifier": "all keys of up to 255 bytes, all positions, all contents of the index and data files", "why_tests_cant": "The position is free and the bytes it names may be chosen by the client; that nothing outside of the files is sent has to hold for all of them.", "anchors": ["zdbd/commands_history.c:command_history,history_send,history_send_array", "libzdb/index.c:index_item_get_disk", "libzdb/data.c:data_get,data_get_real"]}
