(* MODEL.  The tools integrity-check, index-dump, quick-compaction, namespace-editor
   and namespace-dump. *)
From Coq Require Import Strings.String Strings.Byte List NArith ZArith Bool.
From Verif Require Import Bytes Crc32 Layout Store Text Commands Namespace Rebuild.
Import ListNotations.
Open Scope N_scope.
Local Notation length := List.length.

(* A directory: the files in it, by name.  Subdirectories and special files are left
   out. *)
Definition dir := list (bytes * bytes).

Fixpoint dget (name : bytes) (d : dir) : option bytes :=
  match d with
  | [] => None
  | (n, f) :: r => if bseqb n name then Some f else dget name r
  end.

(* libzdb/data.c:280 and libzdb/index.c:162, the names of the server *)
Definition data_name (id : N) : bytes := str "d" ++ dec id.
Definition index_name (id : N) : bytes := str "i" ++ dec id.

(* the directories of a namespace of the server *)
Fixpoint named (name : N -> bytes) (id : N) (files : list bytes) : dir :=
  match files with
  | [] => []
  | f :: r => (name id, f) :: named name (id + 1) r
  end.

(* libzdb/index_loader.c:387-404, index_availity_check and the data files beside: the
   consecutive files from id on.  The number of entries of the directory is enough
   fuel. *)
Fixpoint consecutive (name : N -> bytes) (fuel : nat) (id : N) (d : dir) : list bytes :=
  match fuel with
  | O => []
  | S fuel' => match dget (name id) d with Some f => f :: consecutive name fuel' (id + 1) d | None => [] end
  end.

(* libzdb/namespace.c:227-240 on two directories: store_open (Store.v) with the test of
   libzdb/index_loader.c:412-427 for files of old versions in front *)
Definition start_on (smode ns : N) (t : table) (idir ddir : dir) : option est :=
  match dget (str "zdb-index-00000") idir with
  | Some _ => None
  | None => store_open smode ns t
      (mkDisk (consecutive index_name (length idir) 0 idir) (consecutive data_name (length ddir) 0 ddir) [] [])
  end.

(* ---- integrity-check ---- *)

Inductive checked :=
| KReturn (errors : N)    (* data_integrity returns *)
| KExit                   (* zdb_diep: the process exits *)
| KFuel.

(* tools/integrity-check/integrity-check.c:49-109, the loop of data_integrity over the
   file f from pos on.  Every turn advances by 18 bytes or more, so the length of the
   file is enough fuel.  errors is an int; it does not overflow on files of less than
   2^35 bytes.  read(2) reads all that is asked (less than 2 GiB). *)
Fixpoint integrity_pass (fuel : nat) (f : bytes) (pos errors : N) : checked :=
  match fuel with
  | O => KFuel
  | S fuel' =>
      match fread f pos 1 with
      | [] => KReturn errors
      | b =>
          let idlen := unle b in
          let h := fread f pos (18 + idlen) in
          if blen h =? 18 + idlen then
            let r := dec_drec h in
            let next := pos + 18 + idlen in
            if dr_datalen r =? 0 then integrity_pass fuel' f next errors
            else
              let p := fread f next (dr_datalen r) in
              if blen p =? dr_datalen r then
                integrity_pass fuel' f (next + dr_datalen r)
                  (if zdb_crc32 p =? dr_crc r then errors else errors + 1)
              else KExit
          else KExit
      end
  end.

(* tools/integrity-check/integrity-check.c:30-43: the header, then the loop *)
Definition data_integrity (f : bytes) : checked :=
  if data_file_valid f then integrity_pass (S (length f)) f 28 0 else KReturn 1.

(* the exit status of a process whose main returns v or calls exit(v) *)
Definition exit_status (v : N) : N := v mod 256.

(* tools/integrity-check/integrity-check.c:112-166, main with one argument, the name of
   a file in the directory d (dirname and basename are left out).  A data file that
   cannot be opened gives the descriptor -1, from which no header can be read.
   None: not enough fuel, which does not happen. *)
Definition integrity_check (d : dir) (name : bytes) : option N :=
  match dget name d with
  | None => Some 1
  | Some _ =>
      if negb (bseqb (nfirst 9 name) (str "zdb-data-")) then Some 1
      else match dget (data_name (z_u32 (atoll (nskip 9 name)))) d with
           | None => Some 1
           | Some f =>
               match data_integrity f with
               | KReturn e => Some (exit_status e)
               | KExit => Some 1
               | KFuel => None
               end
           end
  end.

(* ---- index-dump ---- *)

(* what tools/index-dump/index-dump.c:39-57 prints about one record: its number in the
   file and its offset, then its fields.  The file numbers are printed with PRIu16. *)
Record shown := mkShown {
  sh_nr : N; sh_at : N; sh_idlen : N; sh_len : N; sh_off : N; sh_dataid : N; sh_flags : N; sh_ts : N;
  sh_prev : N; sh_crc : N; sh_pid : N; sh_poff : N; sh_key : bytes
}.

Definition show (nr at_ : N) (it : item) : shown :=
  mkShown nr at_ (it_idlen it) (it_len it) (it_off it) (it_dataid it mod 65536) (it_flags it) (it_ts it)
    (it_prev it) (it_crc it) (it_pid it mod 65536) (it_poff it) (nfirst (it_idlen it) (it_id it)).

Inductive dumped {A} :=
| DDone (l : A)
| DExit (l : A)      (* the process exits, after having printed l *)
| DFuel.
Arguments dumped : clear implicits.

(* tools/index-dump/index-dump.c:32-62 with libzdb/index_get.c:91-110: the records from
   pos on.  Every turn advances by 34 bytes or more. *)
Fixpoint dump_file (fuel : nat) (f : bytes) (nr pos : N) (acc : list shown) : dumped (list shown) :=
  match fuel with
  | O => DFuel
  | S fuel' =>
      match fread f pos 1 with
      | [] => DDone acc
      | b =>
          let idlen := unle b in
          let h := fread f pos (34 + idlen) in
          if blen h =? 34 + idlen
          then dump_file fuel' f (nr + 1) (pos + 34 + idlen) (acc ++ [show (nr + 1) pos (dec_item h)])
          else DExit acc
      end
  end.

(* libzdb/index_loader.c:142-174 *)
Definition index_file_valid (f : bytes) : bool :=
  let h := fread f 0 29 in
  (blen h =? 29) && bseqb (nfirst 4 h) (str "IDX0") && (unle (nfirst 4 (nskip 4 h)) =? ZDB_IDXFILE_VERSION).

(* tools/index-dump/index-dump.c:7-74: one list for each file; the exit status is 1
   when a header is wrong *)
Fixpoint dump_files (files : list bytes) (acc : list (list shown)) : dumped (list (list shown)) :=
  match files with
  | [] => DDone acc
  | f :: r =>
      if index_file_valid f then
        match dump_file (S (length f)) f 0 29 [] with
        | DDone l => dump_files r (acc ++ [l])
        | DExit l => DExit (acc ++ [l])
        | DFuel => DFuel
        end
      else DExit acc
  end.

(* tools/index-dump/index-dump.c:76-124 *)
Definition index_dump (d : dir) : dumped (list (list shown)) :=
  match consecutive index_name (length d) 0 d with
  | [] => DExit []
  | files => dump_files files []
  end.

(* ---- quick-compaction ---- *)

Inductive packed {A} :=
| QDone (x : A)
| QExit              (* diep *)
| QFuel.
Arguments packed : clear implicits.

(* printf("%05d") *)
Definition dec5 (n : N) : bytes := repeat x30 (5 - length (dec n)) ++ dec n.

Definition legacy_index_name (id : N) : bytes := str "zdb-index-" ++ dec5 id.
Definition legacy_data_name (id : N) : bytes := str "zdb-data-" ++ dec5 id.

(* tools/quick-compaction/quick-compact.c:180-286, the loop of quick_compact_pass over
   the index file fi from pos on; fd is the data file with the same number, other ones
   are opened by their old name in the data directory.  oi and od are the files written
   so far, dataoffset and prev the variables of the same names (uint32_t).  An index
   record that is cut before its key ends the loop.  malloc does not fail; the 512 bytes
   of id are enough for a key. *)
Fixpoint quick_pass (fuel : nat) (ddir : dir) (fileid : N) (fi fd : bytes) (pos dataoffset prev : N) (oi od : bytes)
    : packed (N * bytes * bytes) :=
  match fuel with
  | O => QFuel
  | S fuel' =>
      let h := fread fi pos 34 in
      if negb (blen h =? 34) then QDone (prev, oi, od)
      else
        let it := dec_item h in
        let id := fread fi (pos + 34) (it_idlen it) in
        if negb (blen id =? it_idlen it) then QExit
        else
          let newlen := if is_deleted (it_flags it) then 0 else it_len it in
          let oi' := oi ++ enc_item (mkItem (it_idlen it) dataoffset newlen (it_prev it) (it_flags it) fileid (it_ts it)
                                       (it_crc it) (it_pid it) (it_poff it) id) in
          match (if it_dataid it =? fileid then Some fd else dget (legacy_data_name (it_dataid it)) ddir) with
          | None => QExit
          | Some src =>
              let datalen := 18 + it_idlen it + it_len it in
              let b := fread src (it_off it) datalen in
              if negb (blen b =? datalen) then QExit
              else
                let r := dec_drec (nfirst 18 b) in
                let r' := if newlen =? 0
                  then mkDrec (dr_idlen r) 0 prev 0 (N.lor (dr_flags r) DATA_ENTRY_TRUNCATED) (dr_ts r) []
                  else mkDrec (dr_idlen r) (dr_datalen r) prev (dr_crc r) (dr_flags r) (dr_ts r) [] in
                let at_ := u32 (blen od) in
                quick_pass fuel' ddir fileid fi fd (pos + 34 + it_idlen it) at_ at_
                  oi' (od ++ nfirst (18 + it_idlen it + newlen) (enc_drec r' ++ nskip 18 b))
          end
  end.

(* tools/quick-compaction/quick-compact.c:296-318, quick_compaction with
   index_data_jump_to (50-88) and the headers (143-177): stops at the first file that
   cannot be opened.  The output directories are empty before.  fuel counts the files. *)
Fixpoint quick_files (fuel : nat) (idir ddir : dir) (fileid prev : N) (oi od : dir) : packed (dir * dir) :=
  match fuel with
  | O => QFuel
  | S fuel' =>
      match dget (index_name fileid) idir, dget (data_name fileid) ddir with
      | Some fi, Some fd =>
          if data_file_valid fd then
            if negb (blen (fread fi 0 29) =? 29) then QExit
            else
              match quick_pass (S (length fi)) ddir fileid fi fd 29 28 prev (fread fi 0 29) (fread fd 0 28) with
              | QDone (prev', i, d) =>
                  quick_files fuel' idir ddir (fileid + 1) prev'
                    (oi ++ [(legacy_index_name fileid, i)]) (od ++ [(legacy_data_name fileid, d)])
              | QExit => QExit
              | QFuel => QFuel
              end
          else QDone (oi, od)
      | _, _ => QDone (oi, od)
      end
  end.

(* tools/quick-compaction/quick-compact.c:333-491, main; the descriptor, which is copied
   too (104-117), is left out *)
Definition quick_compact (idir ddir : dir) : packed (dir * dir) :=
  quick_files (S (length idir)) idir ddir 0 0 [] [].

(* ---- namespace-editor and namespace-dump ---- *)

(* the options of tools/namespace-editor/namespace-editor.c:101-162; --public and --worm
   are yes, no or absent *)
Record edits := mkEdits { ed_pass : option bytes; ed_max : option bytes; ed_public : option bool; ed_worm : option bool }.

(* tools/namespace-editor/namespace-editor.c:95-99 and 117-151: what is to be written.
   An option is a C string. *)
Definition edited (name : bytes) (e : edits) : nscfg :=
  mkCfg name (option_map cstr (ed_pass e))
    (match ed_public e with Some b => b | None => true end)
    (match ed_worm e with Some b => b | None => false end)
    (match ed_max e with Some m => z_u64 (atoll m) | None => 0 end)
    NS_LOCK_UNLOCKED.

(* tools/namespace-editor/namespace-editor.c:20-73, namespace_edit on the descriptor f:
   the descriptor afterwards.  None: the namespace could not be loaded. *)
Definition namespace_edit (name : bytes) (e : edits) (f : bytes) : option bytes :=
  match descriptor_load name f with
  | None => None
  | Some (_, f1) => Some (namespace_commit (edited name e) f1)
  end.

(* tools/namespace-dump/namespace-dump.c:36-46: what is printed about the descriptor f.
   A namespace that cannot be loaded is a null pointer that is followed: None. *)
Definition namespace_dump (name f : bytes) : option (bytes * option bytes * bool * bool * N) :=
  match descriptor_load name f with
  | None => None
  | Some (c, _) => Some (n_name c, n_pass c, n_public c, n_worm c, n_maxsize c)
  end.
