(* MODEL.  Walking the index files: libzdb/index_scan.c, and the commands SCAN,
   RSCAN, KEYCUR and KSCAN of zdbd/commands_scan.c. *)
From Coq Require Import List NArith ZArith Bool Strings.Byte Strings.String.
From Verif Require Import Bytes Layout Store Text Commands.
Import ListNotations.
Open Scope N_scope.

(* libzdb/index_scan.h:7-15, index_scan_status_t *)
Inductive sstat := SSuccess | SUnexpected | SNoMore | SDeleted | SEof | SPrevious.

(* libzdb/index_scan.h:17-27, index_scan_t (the descriptor is the file content passed
   along; offsets are 64 bits wide in C and never come near that) *)
Record scan := mkScan { sc_fid : N; sc_orig : N; sc_tgt : N; sc_hdr : option item; sc_st : sstat }.

(* libzdb/index_scan.c:18-27 *)
Definition index_scan_error (s : scan) (e : sstat) : scan :=
  mkScan (sc_fid s) (sc_orig s) (sc_tgt s) None e.

(* read(fd, &source, sizeof(index_item_t)) at an offset: the fixed part only *)
Definition read_head (f : bytes) (off : N) : option item :=
  let b := fread f off 34 in
  if blen b =? 34 then Some (dec_item b) else None.

(* the common end of the four functions below (index_scan.c:162-178, 276-294,
   370-386, 483-499): the id is read after the fixed part; malloc does not fail *)
Definition read_entry (f : bytes) (s : scan) (src : item) : scan :=
  let id := fread f (sc_tgt s + 34) (it_idlen src) in
  if blen id =? it_idlen src
  then mkScan (sc_fid s) (sc_orig s) (sc_tgt s)
         (Some (mkItem (it_idlen src) (it_off src) (it_len src) (it_prev src) (it_flags src)
                  (it_dataid src) (it_ts src) (it_crc src) (it_pid src) (it_poff src) id)) SSuccess
  else index_scan_error s SUnexpected.

Definition set_tgt (t : N) (s : scan) : scan := mkScan (sc_fid s) (sc_orig s) t (sc_hdr s) (sc_st s).
Definition set_fid (f : N) (s : scan) : scan := mkScan f (sc_orig s) (sc_tgt s) (sc_hdr s) (sc_st s).
Definition set_both (o t : N) (s : scan) : scan := mkScan (sc_fid s) o t (sc_hdr s) (sc_st s).

(* libzdb/index_scan.c:79-179 *)
Definition index_previous_header_real (f : bytes) (s : scan) : scan :=
  let go (s : scan) :=
    if sc_tgt s =? 0 then index_scan_error s SNoMore
    else match read_head f (sc_tgt s) with
         | None => index_scan_error s SUnexpected
         | Some src =>
             if is_deleted (it_flags src)
             then index_scan_error (set_both (sc_tgt s) 0 s) SDeleted
             else read_entry f s src
         end in
  if sc_tgt s =? 0
  then match read_head f (sc_orig s) with
       | None => index_scan_error s SUnexpected
       | Some src =>
           let p := it_prev src in
           if sc_orig s <=? p then index_scan_error (set_tgt p s) SPrevious
           else go (set_tgt (if p =? 1 then 29 else p) s)
       end
  else go s.

(* libzdb/index_scan.c:226-295 *)
Definition index_next_header_real (f : bytes) (s : scan) : scan :=
  let go (s : scan) :=
    match read_head f (sc_tgt s) with
    | None => index_scan_error (set_tgt 29 s) SEof
    | Some src =>
        if is_deleted (it_flags src)
        then index_scan_error (set_both (sc_tgt s) 0 s) SDeleted
        else read_entry f s src
    end in
  if sc_tgt s =? 0
  then match read_head f (sc_orig s) with
       | None => index_scan_error s SUnexpected
       | Some src => go (set_tgt (sc_orig s + 34 + it_idlen src) s)
       end
  else go s.

(* libzdb/index_scan.c:341-387 *)
Definition index_first_header_real (f : bytes) (s : scan) : scan :=
  match read_head f (sc_tgt s) with
  | None => index_scan_error (set_tgt 29 s) SEof
  | Some src =>
      if is_deleted (it_flags src)
      then index_scan_error (set_tgt (sc_tgt s + 34 + it_idlen src) s) SDeleted
      else read_entry f s src
  end.

(* libzdb/index_scan.c:432-500.  __ditry_seqmode_fix returns at once (lines 57-76).
   A target of 1 means 38 bytes before the end; lseek to a negative offset fails
   and leaves the descriptor at the end, where the read fails. *)
Definition index_last_header_real (f : bytes) (s : scan) : scan :=
  if sc_tgt s =? 0 then index_scan_error s SNoMore
  else
    let s := if sc_tgt s =? 1 then set_tgt (if blen f <? 38 then blen f else blen f - 38) s else s in
    match read_head f (sc_tgt s) with
    | None => index_scan_error s SUnexpected
    | Some src =>
        if is_deleted (it_flags src)
        then let p := it_prev src in
             index_scan_error (set_tgt p s) (if (sc_tgt s <=? p) || (p =? 1) then SPrevious else SDeleted)
        else read_entry f s src
    end.

(* The loops (index_scan.c:191-220, 307-336, 400-427, 513-542).  The file is opened
   at each pass (index_grab_fileid, libzdb/index.c:252-267).  None: the loop did not
   end within the given number of passes; scan_fuel is more than any walk needs
   (no call gives None: C21_scan_user, C21_scan_sequential, C22_rscan_user and C22_rscan_sequential in PropScan.v). *)
Fixpoint scan_loop (fuel : nat) (real : bytes -> scan -> scan) (d : disk) (s : scan) : option scan :=
  match fuel with
  | O => None
  | S fuel =>
      match ifile d (sc_fid s) with
      | None => Some (index_scan_error s SNoMore)
      | Some f =>
          let s := real f s in
          match sc_st s with
          | SSuccess | SUnexpected | SNoMore => Some s
          | SDeleted => scan_loop fuel real d s
          | SEof => scan_loop fuel real d (set_fid (u32 (sc_fid s + 1)) s)
          | SPrevious => scan_loop fuel real d (set_fid (u32 (sc_fid s + 4294967295)) s)
          end
      end
  end.

Definition scan_fuel (d : disk) : nat :=
  S (S (List.length (List.concat (dk_i d)) + 2 * List.length (dk_i d))).

(* libzdb/index_scan.c:181-223 *)
Definition index_previous_header (d : disk) (fid off : N) : option scan :=
  scan_loop (scan_fuel d) index_previous_header_real d (mkScan fid off 0 None SUnexpected).

(* libzdb/index_scan.c:297-339 *)
Definition index_next_header (d : disk) (fid off : N) : option scan :=
  scan_loop (scan_fuel d) index_next_header_real d (mkScan fid off 0 None SUnexpected).

(* libzdb/index_scan.c:390-430 *)
Definition index_first_header (d : disk) : option scan :=
  scan_loop (scan_fuel d) index_first_header_real d (mkScan 0 29 29 None SUnexpected).

(* libzdb/index_scan.c:503-545 *)
Definition index_last_header (d : disk) (x : index) : option scan :=
  scan_loop (scan_fuel d) index_last_header_real d
    (mkScan (x_indexid x) (x_prev x) (x_prev x) None SUnexpected).

(* ---- cursors ---- *)

(* libzdb/index.c:604-616: the offset parameter is 32 bits wide *)
Definition index_item_serialize (it : item) (off fid : N) : bkey :=
  mkBkey (it_idlen it) fid (it_len it) (u32 off) (it_crc it).

(* libzdb/index.c:618-630 *)
Definition index_entry_serialize (e : entry) : bkey :=
  mkBkey (u8 (blen (e_id e))) (e_indexid e) (e_len e) (e_idxoff e) (e_crc e).

(* libzdb/index.c:635-678: the place the cursor stands for *)
Definition index_entry_deserialize (d : disk) (k : bkey) : option (N * N) :=
  match index_item_get_disk d (bk_fileid k) (bk_idxoff k) (bk_idlen k) with
  | None => None
  | Some it =>
      if (it_len it =? bk_length k) && (it_crc it =? bk_crc k)
      then Some (bk_fileid k, bk_idxoff k) else None
  end.

(* ---- the commands ---- *)

(* sprintf("%d") of an unsigned 32-bit value *)
Definition dec_signed (n : N) : bytes :=
  if n <? 2147483648 then dec n else str "-" ++ dec (4294967296 - n).

(* one row of a scan list: the record and where it is *)
Definition srow := (N * N * item)%type.

(* zdbd/commands_scan.c:132-149 *)
Definition scan_row_send (r : srow) : bytes :=
  let it := snd r in
  str "*3" ++ CRLF ++ str "$" ++ dec (it_idlen it) ++ CRLF ++ nfirst (it_idlen it) (it_id it) ++ CRLF ++
  str ":" ++ dec_signed (it_len it) ++ CRLF ++ str ":" ++ dec_signed (it_ts it) ++ CRLF.

(* zdbd/commands_scan.c:91-154 (malloc does not fail) *)
Definition command_scan_send_scanlist (l : list srow) : bytes :=
  match rev l with
  | [] => hardsend "-No more data"
  | (fid, off, it) :: _ =>
      str "*2" ++ CRLF ++ str "$17" ++ CRLF ++ enc_bkey (index_item_serialize it off fid) ++ CRLF ++
      str "*" ++ dec (nlen l) ++ CRLF ++ flat_map scan_row_send l
  end.

(* zdbd/commands_scan.c:72-78 and 156-165 *)
Definition row_of (s : scan) : option srow :=
  match sc_st s, sc_hdr s with
  | SSuccess, Some it => Some (sc_fid s, sc_tgt s, it)
  | _, _ => None
  end.

(* zdbd/commands_scan.c:249-264 and 306-321.  The clock decides how many times the
   body runs; n is that number, and the loop also ends at the first failure. *)
Fixpoint scan_walk (n : nat) (next : N -> N -> option scan) (fid off : N) : option (list srow) :=
  match n with
  | O => Some []
  | S n =>
      match next fid off with
      | None => None
      | Some s =>
          match row_of s with
          | None => Some []
          | Some (fid', off', it) =>
              match scan_walk n next fid' off' with
              | None => None
              | Some l => Some ((fid', off', it) :: l)
              end
          end
      end
  end.

(* zdbd/commands_scan.c:208-216: nothing is sent for another status, which the
   header functions never return *)
Definition scan_failure (s : scan) : bytes :=
  match sc_st s with
  | SNoMore => hardsend "-No more data"
  | SUnexpected => hardsend "-Internal Error"
  | _ => []
  end.

(* zdbd/commands_scan.c:167-206 *)
Definition scan_initial_get (d : disk) (k : bytes) : option (N * N) :=
  if negb (blen k =? 17) then None else index_entry_deserialize d (dec_bkey k).

(* zdbd/commands_scan.c:221-273 and 278-330 share this body *)
Definition scan_body (n : nat) (first : option scan) (next : N -> N -> option scan)
    (argv : list bytes) (c : nscfg) (s : est) : option bytes :=
  if is_frozen c then Some error_frozen
  else if argc argv =? 1
  then match first with
       | None => None
       | Some sc =>
           match row_of sc with
           | None => Some (scan_failure sc)
           | Some (fid, off, it) =>
               option_map (fun l => command_scan_send_scanlist ((fid, off, it) :: l)) (scan_walk n next fid off)
           end
       end
  else match scan_initial_get (dk s) (arg 1 argv) with
       | None => Some (hardsend "-Invalid key format")
       | Some (fid, off) => option_map command_scan_send_scanlist (scan_walk n next fid off)
       end.

(* zdbd/commands_scan.c:221-273; n is the number of passes the clock allows *)
Definition command_scan (n : nat) (argv : list bytes) (c : nscfg) (s : est) : option bytes :=
  scan_body n (index_first_header (dk s)) (index_next_header (dk s)) argv c s.

(* zdbd/commands_scan.c:278-330 *)
Definition command_rscan (n : nat) (argv : list bytes) (c : nscfg) (s : est) : option bytes :=
  scan_body n (index_last_header (dk s) (ix s)) (index_previous_header (dk s)) argv c s.

(* zdbd/commands_scan.c:335-372 *)
Definition command_keycur (argv : list bytes) (c : nscfg) (s : est) : bytes :=
  match args_validate argv 2 with
  | Some e => e
  | None =>
      if is_frozen c then error_frozen
      else match index_get s (arg 1 argv) with
           | None => hardsend "-Key not found"
           | Some e => str "$17" ++ CRLF ++ enc_bkey (index_entry_serialize e) ++ CRLF
           end
  end.

(* zdbd/commands_scan.c:409-449 *)
Definition command_kscan_send_list (l : list entry) : bytes :=
  match l with
  | [] => hardsend "-No keys match"
  | _ => str "*2" ++ CRLF ++ str "$1" ++ CRLF ++ str "0" ++ CRLF ++ str "*" ++ dec (nlen l) ++ CRLF ++
         flat_map (fun e => bulk (e_id e)) l
  end.

(* zdbd/commands_scan.c:484-490 *)
Definition kscan_match (ns : N) (p : bytes) (e : entry) : bool :=
  (e_ns e =? ns) && negb (blen (e_id e) <? blen p) && bseqb (nfirst (blen p) (e_id e)) p.

(* zdbd/commands_scan.c:451-498.  release: compiled with -DRELEASE.  The list of
   branches is walked from the first to the last of the 2^24 buckets
   (libzdb/index_branch.c:18); the bucket numbers are passed by the caller so that
   the walk can be run on small tables. *)
Definition command_kscan (release : bool) (buckets : list N) (argv : list bytes) (s : est) : bytes :=
  if release then hardsend "-Command disabled in release code, not yet available"
  else if negb (x_mode (ix s) =? MODE_KV) then hardsend "-Index running mode doesn't support this feature"
  else match args_validate argv 2 with
       | Some e => e
       | None =>
           command_kscan_send_list
             (flat_map (fun h => filter (kscan_match (x_ns (ix s)) (arg 1 argv)) (tb s h)) buckets)
       end.
