(* MODEL of jumps to the next files on a server with a hook program: what the program is told
   by jump-index (libzdb/index.c) and what its exit code does. *)
From Coq Require Import Strings.String Strings.Byte List NArith Bool.
From Verif Require Import Bytes Layout Store Text Commands System SpecKV Machine.
Import ListNotations.
Open Scope N_scope.

(* libzdb/index.c:310-336, index_dirty_list_generate: the numbers of the files with a space
   after each, the last one overwritten.  The number is printed with %d: as modelled below
   2^31. *)
Definition dirty_list_generate (x : index) : bytes :=
  removelast (List.concat (map (fun f => dec f ++ [x20]) (index_dirty_list x))).

(* the arguments of the hook (libzdb/index.c:347-381) without the identifier of the server:
   the file closed and the file opened (by their numbers; the names are printed from them,
   libzdb/index.c:161-164) and the list; with the index files as they are while it runs *)
Record jreport := mkReport { r_closed : N; r_opened : N; r_dirty : bytes; r_files : list bytes }.

(* libzdb/index.c:341-398, index_jump_next with a hook.  The server waits for the program; on
   exit code 0 the map is cleared.  That this happens before index_seqid_push does not
   matter: it is another field. *)
Definition index_jump_hook (code : N) (s : est) : jreport * est :=
  let list := dirty_list_generate (ix s) in
  let s1 := index_jump_next s in
  (mkReport (x_indexid (ix s)) (x_indexid (ix s1)) list (dk_i (dk s1)),
   if code =? 0 then set_ix (index_dirty_reset (ix s1)) s1 else s1).

(* both files (zdbd/commands_set.c:370-373, zdbd/commands_namespace.c:592-593,
   zdbd/redis.c:1106-1107).  The hook of the data file (libzdb/data.c:419-444) runs in the
   background and changes nothing in the server. *)
Definition jump_hook (code : N) (s : est) : jreport * est :=
  let '(r, s1) := index_jump_hook code s in (r, data_jump_next (x_indexid (ix s1)) s1).

(* zdbd/commands_set.c:292-380 *)
Definition command_set_hook (code : N) (g : settings) (p : perm) (now : N) (argv : list bytes) (c : nscfg) (s : est) : option jreport * est :=
  match (if argc argv =? 4 then admin_authorized p else args_validate_null argv 3) with
  | Some err => (None, s)
  | None =>
      if MAX_KEY_LENGTH <? blen (arg 1 argv) then (None, s)
      else if negb (p_writable p) then (None, s)
      else if is_frozen c then (None, s)
      else if is_locked c then (None, s)
      else
        let existing := if blen (arg 1 argv) =? 0 then None else index_get s (arg 1 argv) in
        let floating := match existing with Some e => e_len e | None => 0 end in
        if (match existing with Some _ => n_worm c | None => false end) then (None, s)
        else if negb (n_maxsize c =? 0)
                && (add64 (n_maxsize c) floating <? add64 (x_datasize (ix s)) (blen (arg 2 argv)))
        then (None, s)
        else
          let '(r, s1) := if g_datasize g <? dsize (dk s) (d_dataid (dt s)) + blen (arg 2 argv)
                          then let '(r, s1) := jump_hook code s in (Some r, s1) else (None, s) in
          (r, snd (if x_mode (ix s) =? MODE_KV then set_handler_userkey argv now existing s1
                   else set_handler_sequential argv now existing s1))
  end.

(* zdbd/commands_namespace.c:575-598 *)
Definition command_nsjump_hook (code : N) (p : perm) (s : est) : option jreport * est :=
  match admin_authorized p with
  | Some err => (None, s)
  | None => let '(r, s1) := jump_hook code s in (Some r, s1)
  end.

(* What happens in a namespace: a request, the rotation of files in an idle moment
   (zdbd/redis.c:1091-1110), an INDEX command. *)
Inductive bevent :=
| BReq (g : settings) (p : perm) (now : N) (q : req) (c : nscfg)
| BRotate
| BIndex (p : perm) (argv : list bytes).

(* one event on a server with a hook program which would end with this code; None: undefined
   behaviour of INDEX *)
Definition bstep (e : bevent) (code : N) (s : est) : option (option jreport * est) :=
  match e with
  | BReq g p now q c =>
      match q with
      | QSet _ _ _ => Some (command_set_hook code g p now (argv_of q) c s)
      | QJump => Some (command_nsjump_hook code p s)
      | _ => Some (None, snd (run_req g p now q c s))
      end
  | BRotate => if x_updated (ix s) then let '(r, s1) := jump_hook code s in Some (Some r, s1) else Some (None, s)
  | BIndex p argv => match command_index p argv s with Some (_, s1) => Some (None, s1) | None => None end
  end.
