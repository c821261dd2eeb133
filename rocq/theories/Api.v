(* MODEL.  libzdb/api.c: the functions a program calls when it uses the library without
   the server. *)
From Coq Require Import Strings.String Strings.Byte List NArith Bool.
From Verif Require Import Bytes Crc32 Layout Store Text Commands.
Import ListNotations.
Open Scope N_scope.

(* libzdb/api.h:5-28, zdb_api_t: the status with its payload *)
Inductive api_reply :=
| ASuccess
| AFailure (msg : string)
| AEntry (key payload : bytes)
| AUpToDate
| ABuffer (b : bytes)
| ANotFound
| ADeleted
| AInternalError
| ATrue
| AFalse
| AInsertDenied.

(* a length given as size_t is passed on in uint8_t parameters and fields
   (libzdb/index_get.h:4, libzdb/data.h:122, libzdb/index.h:91): the callee sees a
   prefix of the key *)
Definition key8 (key : bytes) : bytes := nfirst (blen key mod 256) key.

(* libzdb/api.c:106-163, api_set_handler_userkey.  Payloads of 2^32 bytes and more are
   out of the model (datalength is a uint32_t). *)
Definition api_set_userkey (now : N) (key value : bytes) (existing : option entry) (s : est) : api_reply * est :=
  if blen key =? 0 then (AFailure "Invalid argument, key needed", s)
  else
    let ts := u32 now in
    let crc := zdb_crc32 value in
    if (match existing with Some x => e_crc x =? crc | None => false end) then (AUpToDate, s)
    else
      let '(off, s1) := data_insert s (mkDreq value (key8 key) 0 crc ts) in
      if off =? 0 then (AFailure "Cannot write data right now", s1)
      else
        match index_set s1 (key8 key) (idxreq off (blen value) crc 0 ts) existing with
        | (None, s2) => (AFailure "Cannot write index right now", s2)
        | (Some _, s2) => (ABuffer key, s2)
        end.

(* libzdb/api.c:165-252, api_set_handler_sequential.  The file number of the entry is
   not set, it is 0 (lines 226-233). *)
Definition api_set_sequential (now : N) (key value : bytes) (existing : option entry) (s : est) : api_reply * est :=
  match existing, blen key =? 0 with
  | None, false => (AInsertDenied, s)
  | _, _ =>
      let next := le 8 (x_nextentry (ix s)) in
      let id := match existing with
                | Some x => nfirst 8 (e_id x) ++ nskip (blen (nfirst 8 (e_id x))) next
                | None => next
                end in
      let ts := u32 now in
      let crc := zdb_crc32 value in
      if (match existing with Some x => e_crc x =? crc | None => false end) then (AUpToDate, s)
      else
        let '(off, s1) := data_insert s (mkDreq value id 0 crc ts) in
        if off =? 0 then (AInternalError, s1)
        else
          match index_set s1 id (idxreq off (blen value) crc 0 ts) existing with
          | (None, s2) => (AInternalError, s2)
          | (Some _, s2) => (ABuffer id, s2)
          end
  end.

(* libzdb/api.c:256-306, zdb_api_set.  The handler is chosen by the mode of the whole
   instance in an array of four; the library's default is mixed mode, number 4
   (libzdb/bootstrap.c:46).  None: undefined behaviour. *)
Definition zdb_api_set (g : settings) (maxsize now : N) (key value : bytes) (s : est) : option (api_reply * est) :=
  let existing := if blen key =? 0 then None else index_get s (key8 key) in
  let floating := match existing with Some e => e_len e | None => 0 end in
  if negb (maxsize =? 0) && (add64 maxsize floating <? add64 (x_datasize (ix s)) (blen value))
  then Some (AFailure "No space left on this namespace", s)
  else
    let s1 := if g_datasize g <? dsize (dk s) (d_dataid (dt s)) + blen value then jump_next s else s in
    if g_mode g =? 0 then Some (api_set_userkey now key value existing s1)
    else if g_mode g <? 4 then Some (api_set_sequential now key value existing s1)
    else None.

(* libzdb/api.c:312-345, zdb_api_get; index_get gives no deleted entry *)
Definition zdb_api_get (key : bytes) (s : est) : api_reply :=
  match index_get s (key8 key) with
  | None => ANotFound
  | Some e =>
      match data_get (dk s) (e_off e) (e_len e) (e_dataid e) (blen (e_id e)) with
      | None => AInternalError
      | Some b => AEntry key b
      end
  end.

(* libzdb/api.c:351-366, zdb_api_exists *)
Definition zdb_api_exists (key : bytes) (s : est) : api_reply :=
  match index_get s (key8 key) with None => AFalse | Some _ => ATrue end.

(* libzdb/api.c:368-389, zdb_api_check: -1 is taken for true *)
Definition zdb_api_check (key : bytes) (s : est) : api_reply :=
  match index_get s (key8 key) with
  | None => ANotFound
  | Some e => match data_check (dk s) (e_off e) (e_dataid e) with
              | Some false => AFalse
              | _ => ATrue
              end
  end.

(* libzdb/api.c:391-420, zdb_api_del *)
Definition zdb_api_del (now : N) (key : bytes) (s : est) : api_reply * est :=
  match index_get s (key8 key) with
  | None => (ANotFound, s)
  | Some e =>
      let '(ok, s1) := data_delete s (e_id e) (u32 now) in
      if ok then
        let '(ok2, s2) := index_entry_delete s1 e in
        if ok2 then (ASuccess, s2) else (AInternalError, s2)
      else (AInternalError, s1)
  end.

(* calls of a program *)
Inductive api_call :=
| KSet (now : N) (key value : bytes)
| KGet (key : bytes)
| KExists (key : bytes)
| KCheck (key : bytes)
| KDel (now : N) (key : bytes).

Definition api_do (g : settings) (maxsize : N) (c : api_call) (s : est) : option (api_reply * est) :=
  match c with
  | KSet now key value => zdb_api_set g maxsize now key value s
  | KGet key => Some (zdb_api_get key s, s)
  | KExists key => Some (zdb_api_exists key s, s)
  | KCheck key => Some (zdb_api_check key s, s)
  | KDel now key => Some (zdb_api_del now key s)
  end.

Fixpoint api_run (g : settings) (maxsize : N) (cs : list api_call) (s : est) : option (list api_reply * est) :=
  match cs with
  | [] => Some ([], s)
  | c :: r =>
      match api_do g maxsize c s with
      | None => None
      | Some (o, s1) =>
          match api_run g maxsize r s1 with
          | None => None
          | Some (os, s2) => Some (o :: os, s2)
          end
      end
  end.
