(* MODEL.  tools/index-rebuild: the index of a namespace made again from its data
   files. *)
From Coq Require Import List NArith Bool Strings.Byte Strings.String.
From Verif Require Import Bytes Layout Store.
Import ListNotations.
Open Scope N_scope.

(* libzdb/index_loader.c:590-612, index_init, called through zdb_index_init
   (libzdb/api.c:425-427): the part of store_open (Store.v) that comes before the
   data files.  None when the process does not survive. *)
Definition index_init (mode ns : N) (t : table) (d : disk) : option est :=
  let s := mkEst t (index_rehash (index_init_lazy mode ns)) (mkData 0 0) d in
  match index_internal_load mode s with
  | LExit | LUb => None
  | LDiscard s1 | LNew s1 | LOk s1 =>
      Some (set_dk (do_write (MkI (x_indexid (ix s1))) (dk s1)) (set_ix (x_set_updated false (ix s1)) s1))
  end.

(* tools/index-rebuild/index-rebuild.c:87-96, idxreq *)
Definition rebuild_request (x : index) (fid pos : N) (r : drec) : entry :=
  mkEntry 0 [] (u32 pos) 0 (dr_datalen r) (dr_flags r) fid (x_indexid x) (dr_crc r) 0 0 (dr_ts r).

Inductive pass :=
| PEnd (s : est)       (* returns the number of entries: end of file or time limit *)
| PError (s : est)     (* returns -1 *)
| PExit (s : est)      (* zdb_diep: the process exits *)
| PUb.                 (* a null pointer is followed *)

(* tools/index-rebuild/index-rebuild.c:56-130, index_rebuild_pass over the file f,
   read from pos on.  limit is the timestamp given with --time, 0 without it.  Every
   turn of the loop advances by 18 bytes or more, so the length of the file is
   enough fuel.  The bytes after the key are read with read(2) and skipped with
   lseek, which may go beyond the end of the file. *)
Fixpoint rebuild_pass (fuel : nat) (limit fid : N) (f : bytes) (pos : N) (s : est) : pass :=
  match fuel with
  | O => PUb
  | S fuel' =>
      match fread f pos 1 with
      | [] => PEnd s
      | b =>
          let idlen := unle b in
          let h := fread f pos (18 + idlen) in
          if blen h =? 18 + idlen then
            let r := dec_drec h in
            if (0 <? limit) && (limit <? dr_ts r) then PEnd s
            else
              let existing := index_get s (dr_id r) in
              let next := pos + 18 + idlen + dr_datalen r in
              if is_deleted (dr_flags r) then
                match existing with
                | None => PUb
                | Some e =>
                    let '(ok, s1) := index_entry_delete s e in
                    if ok then rebuild_pass fuel' limit fid f next s1 else PError s1
                end
              else
                match index_set s (dr_id r) (rebuild_request (ix s) fid pos r) existing with
                | (Some _, s1) => rebuild_pass fuel' limit fid f next s1
                | (None, s1) => PError s1
                end
          else PExit s
      end
  end.

(* tools/index-rebuild/index-rebuild.c:32-41 with libzdb/data.c:177-210 *)
Definition data_file_valid (f : bytes) : bool :=
  let h := fread f 0 28 in
  (blen h =? 28) && bseqb (nfirst 4 h) (str "DAT0") && (unle (nfirst 4 (nskip 4 h)) =? ZDB_DATAFILE_VERSION).

Inductive rebuilt :=
| RDone (s : est)      (* "index rebuilt" is printed *)
| RExit (s : est)
| RUb.

(* tools/index-rebuild/index-rebuild.c:133-154, index_rebuild with index_data_jump_to
   (21-54): stops at the first file that cannot be opened or is not a data file, and
   at the first pass that fails, and reports success in all cases *)
Fixpoint rebuild_files (limit fid : N) (files : list bytes) (s : est) : rebuilt :=
  match files with
  | [] => RDone s
  | f :: rest =>
      if data_file_valid f then
        let s1 := if 0 <? fid then index_jump_next s else s in
        match rebuild_pass (S (List.length f)) limit fid f 28 s1 with
        | PEnd s2 => rebuild_files limit (u32 (fid + 1)) rest s2
        | PError s2 => RDone s2
        | PExit s2 => RExit s2
        | PUb => RUb
        end
      else RDone s
  end.

(* tools/index-rebuild/index-rebuild.c:257-305, main, with the options --mode, --time
   and the data files of --data.  The index is initialised in the directory given
   with --index, which holds the files found.  The namespace has number 0 (libzdb/namespace.c:255)
   and its descriptor (--template is not used) is left out.  The data files are
   only read; the data part of the state stays empty. *)
Definition rebuild (mode limit : N) (found data : list bytes) : rebuilt :=
  match index_init mode 0 empty_table (mkDisk found [] [] []) with
  | None => RExit (mkEst empty_table (index_init_lazy mode 0) (mkData 0 0) (mkDisk found [] [] []))
  | Some s => rebuild_files limit 0 data s
  end.
