(* MODEL.  zdbd data commands on one namespace.  Replies are the exact bytes sent. *)
From Coq Require Import List NArith ZArith Bool Strings.Byte Strings.String.
From Verif Require Import Bytes Crc32 Layout Store Text.
Import ListNotations.
Open Scope N_scope.

(* libzdb/namespace.h:21-26 *)
Definition NS_LOCK_UNLOCKED : N := 0.
Definition NS_LOCK_READ_ONLY : N := 1.
Definition NS_LOCK_READ_WRITE : N := 2.

(* libzdb/namespace.h:39-54: the settings of a namespace (paths, version and the
   slot number live elsewhere) *)
Record nscfg := mkCfg {
  n_name : bytes; n_pass : option bytes; n_public : bool; n_worm : bool;
  n_maxsize : N; n_lock : N
}.

(* What a data command looks at in the client (zdbd/redis.h, redis_client_t) *)
Record perm := mkPerm { p_admin : bool; p_writable : bool }.

(* libzdb/settings.h: server mode and data file size limit *)
Record settings := mkSettings { g_mode : N; g_datasize : N }.

(* libzdb/index.h:264 *)
Definition MAX_KEY_LENGTH : N := 255.

Definition arg (i : nat) (argv : list bytes) : bytes := nth i argv [].
Definition argc (argv : list bytes) : N := nlen argv.

Definition NIL : bytes := hardsend "$-1".

(* zdbd/commands.c:26-45: None when the arguments are accepted *)
Definition real_args_validate (argv : list bytes) (expected : N) (nullallowed : bool) : option bytes :=
  if negb (argc argv =? expected) then Some (hardsend "-Unexpected arguments")
  else if nullallowed then None
  else if existsb (fun a => blen a =? 0) argv then Some (hardsend "-Invalid argument")
  else None.

Definition args_validate (argv : list bytes) (n : N) : option bytes := real_args_validate argv n false.
Definition args_validate_null (argv : list bytes) (n : N) : option bytes := real_args_validate argv n true.

(* zdbd/commands.c:49-64 *)
Definition args_validate_min (argv : list bytes) (n : N) : option bytes :=
  if argc argv <? n then Some (hardsend "-Missing arguments")
  else if existsb (fun a => blen a =? 0) argv then Some (hardsend "-Invalid argument")
  else None.

(* zdbd/commands.c:74-84 (the statistics counter is left out) *)
Definition admin_authorized (p : perm) : option bytes :=
  if p_admin p then None else Some (hardsend "-Permission denied").

(* libzdb/namespace.c:742-783 *)
Definition is_locked (c : nscfg) : bool := negb (n_lock c =? NS_LOCK_UNLOCKED).
Definition is_frozen (c : nscfg) : bool := n_lock c =? NS_LOCK_READ_WRITE.

(* zdbd/commands.c:270-281 *)
Definition error_locked : bytes := hardsend "-Namespace is temporarily locked (read-only)".
Definition error_frozen : bytes := hardsend "-Namespace is temporarily frozen (read-write disabled)".

(* zdbd/commands_set.c:16-29, timestamp_from_set; the result is only stored in
   uint32_t fields *)
Definition timestamp_from_set (argv : list bytes) (field : nat) (now : N) : N :=
  if argc argv =? N.of_nat field then u32 now
  else z_u32 (atoll (cstr (arg field argv))).

(* zdbd/commands_set.c:52-74, data_compare_matching *)
Definition data_compare_matching (d : disk) (x : entry) (value : bytes) : bool :=
  if negb (e_len x =? blen value) then false
  else
    match data_get d (e_off x) (e_len x) (e_dataid x) (blen (e_id x)) with
    | None => false
    | Some p => bseqb (nfirst (blen value) p) value
    end.

(* the test at zdbd/commands_set.c:111-117 and 221-227 *)
Definition unchanged (d : disk) (existing : option entry) (value : bytes) : bool :=
  match existing with
  | Some x => (e_crc x =? zdb_crc32 value) && data_compare_matching d x value
  | None => false
  end.

(* zdbd/commands_set.c:136-144 and 247-255: the fields of the structure are
   uint32_t, except the flags; fields not mentioned are 0 *)
Definition idxreq (off len crc dataid ts : N) : entry :=
  mkEntry 0 [] (u32 off) 0 (u32 len) 0 (u32 dataid) 0 crc 0 0 ts.

(* zdbd/commands_set.c:76-171 *)
Definition set_handler_userkey (argv : list bytes) (now : N) (existing : option entry) (s : est) : bytes * est :=
  let id := arg 1 argv in
  if blen id =? 0 then (hardsend "-Invalid argument, key needed", s)
  else
    let value := arg 2 argv in
    let ts := timestamp_from_set argv 3 now in
    let crc := zdb_crc32 value in
    if unchanged (dk s) existing value then (NIL, s)
    else
      let '(off, s1) := data_insert s (mkDreq value id 0 crc ts) in
      if off =? 0 then (hardsend "-Cannot write data right now", s1)
      else
        match index_set s1 id (idxreq off (blen value) crc 0 ts) existing with
        | (None, s2) => (hardsend "-Cannot write index right now", s2)
        | (Some _, s2) => (bulk id, s2)
        end.

(* zdbd/commands_set.c:173-283; index_next_id is libzdb/index.c:160-165 *)
Definition set_handler_sequential (argv : list bytes) (now : N) (existing : option entry) (s : est) : bytes * est :=
  match existing with
  | None =>
      if negb (blen (arg 1 argv) =? 0) then (hardsend "-Invalid key, only update authorized", s)
      else
        let id := le 8 (x_nextentry (ix s)) in
        let value := arg 2 argv in
        let ts := timestamp_from_set argv 3 now in
        let crc := zdb_crc32 value in
        let '(off, s1) := data_insert s (mkDreq value id 0 crc ts) in
        if off =? 0 then (hardsend "-Cannot write data right now", s1)
        else
          match index_set s1 id (idxreq off (blen value) crc (d_dataid (dt s1)) ts) None with
          | (None, s2) => (hardsend "-Cannot write index right now", s2)
          | (Some _, s2) => (bulk id, s2)
          end
  | Some x =>
      (* memcpy of idlength bytes over the next id *)
      let id := nfirst 8 (e_id x) ++ nskip (blen (nfirst 8 (e_id x))) (le 8 (x_nextentry (ix s))) in
      let value := arg 2 argv in
      let ts := timestamp_from_set argv 3 now in
      let crc := zdb_crc32 value in
      if unchanged (dk s) existing value then (NIL, s)
      else
        let '(off, s1) := data_insert s (mkDreq value id 0 crc ts) in
        if off =? 0 then (hardsend "-Cannot write data right now", s1)
        else
          match index_set s1 id (idxreq off (blen value) crc (d_dataid (dt s1)) ts) existing with
          | (None, s2) => (hardsend "-Cannot write index right now", s2)
          | (Some _, s2) => (bulk id, s2)
          end
  end.

(* zdbd/commands_set.c:292-380 *)
Definition command_set (g : settings) (p : perm) (now : N) (argv : list bytes) (c : nscfg) (s : est) : bytes * est :=
  match (if argc argv =? 4 then admin_authorized p else args_validate_null argv 3) with
  | Some err => (err, s)
  | None =>
      if MAX_KEY_LENGTH <? blen (arg 1 argv) then (hardsend "-Key too large", s)
      else if negb (p_writable p) then (hardsend "-Namespace is in read-only mode", s)
      else if is_frozen c then (error_frozen, s)
      else if is_locked c then (error_locked, s)
      else
        let existing := if blen (arg 1 argv) =? 0 then None else index_get s (arg 1 argv) in
        let floating := match existing with Some e => e_len e | None => 0 end in
        if (match existing with Some _ => n_worm c | None => false end)
        then (hardsend "-Namespace is protected by worm mode", s)
        else if negb (n_maxsize c =? 0)
                && (add64 (n_maxsize c) floating <? add64 (x_datasize (ix s)) (blen (arg 2 argv)))
        then (hardsend "-No space left on this namespace", s)
        else
          let s1 := if g_datasize g <? dsize (dk s) (d_dataid (dt s)) + blen (arg 2 argv)
                    then jump_next s else s in
          if x_mode (ix s) =? MODE_KV then set_handler_userkey argv now existing s1
          else set_handler_sequential argv now existing s1
  end.

(* zdbd/commands_get.c:15-57 *)
Definition get_single (s : est) (key : bytes) : bytes :=
  match index_get s key with
  | None => NIL
  | Some e =>
      match data_get (dk s) (e_off e) (e_len e) (e_dataid e) (blen (e_id e)) with
      | None => hardsend "-Internal Error"
      | Some b => bulk b
      end
  end.

(* zdbd/commands_get.c:59-75; the same preamble as EXISTS, CHECK, LENGTH, KEYTIME
   (zdbd/commands_dataset.c) *)
Definition read_command (argv : list bytes) (c : nscfg) (k : bytes -> bytes) : bytes :=
  match args_validate argv 2 with
  | Some err => err
  | None =>
      if MAX_KEY_LENGTH <? blen (arg 1 argv) then hardsend "-Invalid key"
      else if is_frozen c then error_frozen
      else k (arg 1 argv)
  end.

Definition command_get (argv : list bytes) (c : nscfg) (s : est) : bytes :=
  read_command argv c (get_single s).

(* zdbd/commands_get.c:77-111 *)
Definition command_mget (argv : list bytes) (c : nscfg) (s : est) : bytes :=
  if argc argv <? 2 then hardsend "-Invalid arguments"
  else if existsb (fun k => MAX_KEY_LENGTH <? blen k) (tl argv) then hardsend "-Invalid key"
  else if is_frozen c then error_frozen
  else arrayhdr (argc argv - 1) ++ List.concat (map (get_single s) (tl argv)).

(* zdbd/commands_dataset.c:15-52 *)
Definition command_exists (argv : list bytes) (c : nscfg) (s : est) : bytes :=
  read_command argv c (fun k => match index_get s k with Some _ => intreply 1 | None => intreply 0 end).

(* zdbd/commands_dataset.c:54-102; data_check gives -1, 0 or 1 *)
Definition command_check (argv : list bytes) (c : nscfg) (s : est) : bytes :=
  read_command argv c (fun k =>
    match index_get s k with
    | None => NIL
    | Some e =>
        match data_check (dk s) (e_off e) (e_dataid e) with
        | None => str ":-1" ++ CRLF
        | Some true => intreply 1
        | Some false => intreply 0
        end
    end).

(* zdbd/commands_dataset.c:184-227 *)
Definition command_length (argv : list bytes) (c : nscfg) (s : est) : bytes :=
  read_command argv c (fun k => match index_get s k with Some e => intreply (e_len e) | None => NIL end).

(* zdbd/commands_dataset.c:229-272 *)
Definition command_keytime (argv : list bytes) (c : nscfg) (s : est) : bytes :=
  read_command argv c (fun k => match index_get s k with Some e => intreply (e_ts e) | None => NIL end).

(* zdbd/commands_dataset.c:104-182 *)
Definition command_del (p : perm) (now : N) (argv : list bytes) (c : nscfg) (s : est) : bytes * est :=
  match (if argc argv =? 3 then admin_authorized p else args_validate argv 2) with
  | Some err => (err, s)
  | None =>
      if MAX_KEY_LENGTH <? blen (arg 1 argv) then (hardsend "-Invalid key", s)
      else if negb (p_writable p) then (hardsend "-Namespace is in read-only mode", s)
      else if is_frozen c then (error_frozen, s)
      else if is_locked c then (error_locked, s)
      else
        match index_get s (arg 1 argv) with
        | None => (hardsend "-Key not found", s)
        | Some e =>
            if n_worm c then (hardsend "-Cannot delete a key when namespace is in worm mode", s)
            else
              let ts := timestamp_from_set argv 2 now in
              let '(ok, s1) := data_delete s (e_id e) ts in
              if ok then
                let '(ok2, s2) := index_entry_delete s1 e in
                if ok2 then (hardsend "+OK", s2) else (hardsend "-Cannot delete key (index)", s2)
              else (hardsend "-Cannot delete key (data)", s1)
        end
  end.

(* zdbd/commands_namespace.c:585-598, NSJUMP on the client's namespace *)
Definition command_nsjump (p : perm) (s : est) : bytes * est :=
  match admin_authorized p with
  | Some err => (err, s)
  | None => (hardsend "+OK", jump_next s)
  end.

(* zdbd/commands_namespace.c:600-607; entries is a size_t *)
Definition command_dbsize (s : est) : bytes := intreply (x_entries (ix s)).
