(* MODEL.  zdbd/commands_system.c: INDEX and DATA on the client's namespace. *)
From Coq Require Import Strings.String Strings.Byte List NArith ZArith Bool.
From Verif Require Import Bytes Layout Store Text Commands Sha1 Dispatch.
Import ListNotations.
Open Scope N_scope.

(* zdbd/commands.h:4 *)
Definition COMMAND_MAXLEN : N := 256.

(* zdbd/commands.c:86-95 *)
Definition args_overflow (argv : list bytes) (i : nat) (maxlen : N) : option bytes :=
  if maxlen <? blen (arg i argv) then Some (hardsend "-Argument too long") else None.

(* zdbd/commands.c:97-106 *)
Definition args_namespace (argv : list bytes) (i : nat) : option bytes :=
  if 128 <? blen (arg i argv) then Some (hardsend "-Namespace too long") else None.

(* sprintf("%.*s") into a buffer of COMMAND_MAXLEN characters: None when it writes
   after the end of the buffer *)
Definition sprint_max (a : bytes) : option bytes :=
  if blen (cstr a) <? COMMAND_MAXLEN then Some (cstr a) else None.

(* strcasecmp(s, name) == 0 on C strings *)
Definition case_eq (s name : bytes) : bool := bseqb (map tolower s) (map tolower name).

(* libzdb/index.c:859-884, index_dirty_list *)
Fixpoint dirty_ids (n : nat) (i : N) (x : index) : list N :=
  match n with O => [] | S m => (if index_dirty_get i x then [i] else []) ++ dirty_ids m (i + 1) x end.
Definition index_dirty_list (x : index) : list N := dirty_ids (8 * length (x_dmap x)) 0 x.

(* zdbd/commands_system.c:182-228.  None: undefined behaviour. *)
Definition command_index_dirty (argv : list bytes) (s : est) : option (bytes * est) :=
  if argc argv =? 3 then
    match args_overflow argv 2 COMMAND_MAXLEN with
    | Some err => Some (err, s)
    | None =>
        match sprint_max (arg 2 argv) with
        | None => None
        | Some sub =>
            if case_eq sub (str "RESET") then Some (hardsend "+OK", set_ix (index_dirty_reset (ix s)) s)
            else Some (hardsend "-Unknown INDEX DIRTY subcommand", s)
        end
    end
  else
    let l := index_dirty_list (ix s) in
    Some (arrayhdr (nlen l) ++ concat (map intreply l), s).

(* zdbd/commands_system.c:230-250 *)
Definition command_index (p : perm) (argv : list bytes) (s : est) : option (bytes * est) :=
  match admin_authorized p with
  | Some err => Some (err, s)
  | None =>
      match args_validate_min argv 2 with
      | Some err => Some (err, s)
      | None =>
          match args_overflow argv 1 COMMAND_MAXLEN with
          | Some err => Some (err, s)
          | None =>
              match sprint_max (arg 1 argv) with
              | None => None
              | Some c => if case_eq c (str "DIRTY") then command_index_dirty argv s
                          else Some (hardsend "-Unknown INDEX subcommand", s)
              end
          end
      end
  end.

(* printf("0x%08x") *)
Definition hex8 (n : N) : bytes := str "0x" ++ hexstr (be4 n).

(* zdbd/commands_system.c:252-340.  The offset is an off_t: lseek to a negative
   offset fails, and the header is then read at the end of the file.  A data file
   which cannot be opened gives a zeroed result without error. *)
Definition command_data_raw (argv : list bytes) (s : est) : bytes :=
  match args_validate_min argv 4 with
  | Some err => err
  | None =>
      let fid := z_u32 (atoll (cstr (arg 2 argv))) in
      let off := atoll (cstr (arg 3 argv)) in
      match (if (off <? 0)%Z
             then match dfile (dk s) fid with Some _ => Some RawUnexpected | None => None end
             else data_raw_get (dk s) fid (Z.to_N off)) with
      | None => hardsend "-Invalid Request"
      | Some RawEof => hardsend "-EOF"
      | Some RawUnexpected => hardsend "-Unexpected Internal Error"
      | Some (RawOk h payload) =>
          if dr_datalen h =? 0 then hardsend "-Invalid Request"
          else str "*6" ++ CRLF ++ bulk (dr_id h) ++ intreply (dr_prev h) ++ bulk (hex8 (dr_crc h))
               ++ intreply (dr_flags h) ++ intreply (dr_ts h) ++ bulk payload
      end
  end.

(* zdbd/commands_system.c:342-363 *)
Definition command_data (p : perm) (argv : list bytes) (s : est) : option bytes :=
  match admin_authorized p with
  | Some err => Some err
  | None =>
      match args_validate_min argv 2 with
      | Some err => Some err
      | None =>
          match args_overflow argv 1 COMMAND_MAXLEN with
          | Some err => Some err
          | None =>
              match sprint_max (arg 1 argv) with
              | None => None
              | Some c => if case_eq c (str "RAW") then Some (command_data_raw argv s)
                          else Some (hardsend "-Unknown DATA subcommand")
              end
          end
      end
  end.
