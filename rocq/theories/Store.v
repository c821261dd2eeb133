(* MODEL.  libzdb: index and data layers of one namespace, byte level. *)
From Coq Require Import List NArith Bool Strings.Byte Strings.String.
From Verif Require Import Bytes Crc32 Layout.
Import ListNotations.
Open Scope N_scope.

(* ---- modes (libzdb/index.h:4-25) ---- *)
Definition MODE_KV : N := 0.
Definition MODE_SEQ : N := 1.
Definition MODE_MIX : N := 4.

(* libzdb/libzdb.h:29-30 *)
Definition ZDB_DATAFILE_VERSION : N := 3.
Definition ZDB_IDXFILE_VERSION : N := 4.

(* libzdb/data.h:6 *)
Definition ZDB_DATA_MAX_PAYLOAD : N := 8388608.

(* sizeof(index_entry_t) on a 64-bit machine (libzdb/index.h:77-104) *)
Definition ENTRY_SIZEOF : N := 64.

(* ---- disk ---- *)

(* One system call which changes the namespace directories.
   MkI/MkD: open with O_CREAT; WrI/WrD: write at an offset. *)
Inductive dwrite :=
| MkI (fid : N)
| MkD (fid : N)
| WrI (fid off : N) (b : bytes)
| WrD (fid off : N) (b : bytes).

(* Outcome of a write: complete, or failed after n bytes. *)
Inductive wout := WOk | WFail (n : N).

(* Index directory, data directory (files by id), log of what was done (newest
   last), outcomes of the writes to come (empty: all succeed). *)
Record disk := mkDisk {
  dk_i : list bytes;
  dk_d : list bytes;
  dk_log : list dwrite;
  dk_io : list wout
}.

(* open(O_CREAT): files are created with consecutive ids, so that a directory is
   the list of its files; an id beyond the end plus one cannot occur *)
Definition mkfile (fid : N) (fs : list bytes) : list bytes :=
  if fid =? nlen fs then fs ++ [[]] else fs.

Definition wrfile (fid off : N) (b : bytes) (fs : list bytes) : list bytes :=
  match nget fid fs with
  | Some f => nset fid (fwrite f off b) fs
  | None => fs
  end.

Definition apply_write (w : dwrite) (fs : list bytes * list bytes) : list bytes * list bytes :=
  match w with
  | MkI fid => (mkfile fid (fst fs), snd fs)
  | MkD fid => (fst fs, mkfile fid (snd fs))
  | WrI fid off b => (wrfile fid off b (fst fs), snd fs)
  | WrD fid off b => (fst fs, wrfile fid off b (snd fs))
  end.

Definition apply_writes (ws : list dwrite) (fs : list bytes * list bytes) : list bytes * list bytes :=
  fold_left (fun a w => apply_write w a) ws fs.

(* perform an operation which succeeds *)
Definition do_write (w : dwrite) (d : disk) : disk :=
  let fs := apply_write w (dk_i d, dk_d d) in
  mkDisk (fst fs) (snd fs) (dk_log d ++ [w]) (dk_io d).

(* write(2) of record data: takes the next outcome *)
Definition cut_write (n : N) (w : dwrite) : dwrite :=
  match w with
  | WrI fid off b => WrI fid off (nfirst n b)
  | WrD fid off b => WrD fid off (nfirst n b)
  | _ => w
  end.

Definition try_write (w : dwrite) (d : disk) : bool * disk :=
  match dk_io d with
  | [] => (true, do_write w d)
  | WOk :: io => (true, do_write w (mkDisk (dk_i d) (dk_d d) (dk_log d) io))
  | WFail n :: io => (false, do_write (cut_write n w) (mkDisk (dk_i d) (dk_d d) (dk_log d) io))
  end.

Definition ifile (d : disk) (fid : N) : option bytes := nget fid (dk_i d).
Definition dfile (d : disk) (fid : N) : option bytes := nget fid (dk_d d).

(* lseek(fd, 0, SEEK_END) *)
Definition isize (d : disk) (fid : N) : N := match ifile d fid with Some f => blen f | None => 0 end.
Definition dsize (d : disk) (fid : N) : N := match dfile d fid with Some f => blen f | None => 0 end.

(* ---- memory structures ---- *)

(* libzdb/index.h:77-104, index_entry_t.  e_ns is the namespace pointer; the
   link is the position in the bucket list; idlength is the length of e_id (keys
   longer than 255 bytes are refused before they get here). *)
Record entry := mkEntry {
  e_ns : N; e_id : bytes; e_off : N; e_idxoff : N; e_len : N; e_flags : N;
  e_dataid : N; e_indexid : N; e_crc : N; e_pid : N; e_poff : N; e_ts : N
}.

Definition e_set_flags (f : N) (e : entry) : entry :=
  mkEntry (e_ns e) (e_id e) (e_off e) (e_idxoff e) (e_len e) f (e_dataid e) (e_indexid e)
    (e_crc e) (e_pid e) (e_poff e) (e_ts e).
Definition e_set_loc (indexid idxoff : N) (e : entry) : entry :=
  mkEntry (e_ns e) (e_id e) (e_off e) idxoff (e_len e) (e_flags e) (e_dataid e) indexid
    (e_crc e) (e_pid e) (e_poff e) (e_ts e).
Definition e_set_parent (pid poff : N) (e : entry) : entry :=
  mkEntry (e_ns e) (e_id e) (e_off e) (e_idxoff e) (e_len e) (e_flags e) (e_dataid e) (e_indexid e)
    (e_crc e) pid poff (e_ts e).

(* libzdb/index.h:177-214, index_root_t.  The file descriptor of the current file
   is represented by indexid; branches is NULL exactly in sequential mode
   (index_loader.c:557-569); synchronisation, rotation time, status and the error
   counters are left out. *)
Record index := mkIndex {
  x_ns : N;                         (* namespace pointer *)
  x_mode : N;
  x_indexid : N;
  x_nextentry : N;
  x_nextid : N;
  x_prev : N;
  x_updated : bool;
  x_seq : option (list (N * N));    (* seqid: (first id, file id) *)
  x_entries : N;                    (* stats.entries *)
  x_datasize : N;                   (* stats.datasize *)
  x_size : N;                       (* stats.size *)
  x_dmax : N;                       (* dirty.maxid *)
  x_dmap : list N                   (* dirty.map, one number per byte *)
}.

Definition x_set_mode v x := mkIndex (x_ns x) v (x_indexid x) (x_nextentry x) (x_nextid x) (x_prev x) (x_updated x) (x_seq x) (x_entries x) (x_datasize x) (x_size x) (x_dmax x) (x_dmap x).
Definition x_set_indexid v x := mkIndex (x_ns x) (x_mode x) v (x_nextentry x) (x_nextid x) (x_prev x) (x_updated x) (x_seq x) (x_entries x) (x_datasize x) (x_size x) (x_dmax x) (x_dmap x).
Definition x_set_next ne ni x := mkIndex (x_ns x) (x_mode x) (x_indexid x) ne ni (x_prev x) (x_updated x) (x_seq x) (x_entries x) (x_datasize x) (x_size x) (x_dmax x) (x_dmap x).
Definition x_set_prev v x := mkIndex (x_ns x) (x_mode x) (x_indexid x) (x_nextentry x) (x_nextid x) v (x_updated x) (x_seq x) (x_entries x) (x_datasize x) (x_size x) (x_dmax x) (x_dmap x).
Definition x_set_updated v x := mkIndex (x_ns x) (x_mode x) (x_indexid x) (x_nextentry x) (x_nextid x) (x_prev x) v (x_seq x) (x_entries x) (x_datasize x) (x_size x) (x_dmax x) (x_dmap x).
Definition x_set_seq v x := mkIndex (x_ns x) (x_mode x) (x_indexid x) (x_nextentry x) (x_nextid x) (x_prev x) (x_updated x) v (x_entries x) (x_datasize x) (x_size x) (x_dmax x) (x_dmap x).
Definition x_set_stats en ds sz x := mkIndex (x_ns x) (x_mode x) (x_indexid x) (x_nextentry x) (x_nextid x) (x_prev x) (x_updated x) (x_seq x) en ds sz (x_dmax x) (x_dmap x).
Definition x_set_dirty m l x := mkIndex (x_ns x) (x_mode x) (x_indexid x) (x_nextentry x) (x_nextid x) (x_prev x) (x_updated x) (x_seq x) (x_entries x) (x_datasize x) (x_size x) m l.

(* libzdb/data.h:20-32, data_root_t *)
Record dataroot := mkData { d_dataid : N; d_prev : N }.

(* The global table of buckets shared by all namespaces (libzdb/index_branch.c):
   one list per hash value.  The linked-list code itself is in Branch.v. *)
Definition table := N -> list entry.
Definition tset (t : table) (h : N) (l : list entry) : table :=
  fun h' => if h' =? h then l else t h'.

(* What one namespace operation can touch *)
Record est := mkEst { tb : table; ix : index; dt : dataroot; dk : disk }.

Definition set_tb v s := mkEst v (ix s) (dt s) (dk s).
Definition set_ix v s := mkEst (tb s) v (dt s) (dk s).
Definition set_dt v s := mkEst (tb s) (ix s) v (dk s).
Definition set_dk v s := mkEst (tb s) (ix s) (dt s) v.

(* ---- bucket table ---- *)

(* libzdb/index_branch.c:28 and libzdb/index.c:419-421 *)
Definition buckets_mask : N := 16777215.
Definition index_key_hash (id : bytes) : N := N.land (zdb_crc32 id) buckets_mask.

Definition entry_matches (ns : N) (id : bytes) (e : entry) : bool :=
  (e_ns e =? ns) && bseqb (e_id e) id.

(* libzdb/index.c:424-445, index_entry_get *)
Definition index_entry_get (t : table) (ns : N) (id : bytes) : option entry :=
  find (entry_matches ns id) (t (index_key_hash id)).

(* an entry is updated through its pointer: the first match is the entry that
   index_entry_get returned *)
Fixpoint upd_first (f : entry -> bool) (g : entry -> entry) (l : list entry) : list entry :=
  match l with
  | [] => []
  | e :: r => if f e then g e :: r else e :: upd_first f g r
  end.

Fixpoint del_first (f : entry -> bool) (l : list entry) : list entry :=
  match l with
  | [] => []
  | e :: r => if f e then r else e :: del_first f r
  end.

Definition table_update (t : table) (ns : N) (id : bytes) (g : entry -> entry) : table :=
  let h := index_key_hash id in tset t h (upd_first (entry_matches ns id) g (t h)).

(* libzdb/index_branch.c:105-127, index_branch_append: at the end *)
Definition table_append (t : table) (e : entry) : table :=
  let h := index_key_hash (e_id e) in tset t h (t h ++ [e]).

(* libzdb/index_branch.c:135-174, get_previous + remove *)
Definition table_remove (t : table) (ns : N) (id : bytes) : table :=
  let h := index_key_hash id in tset t h (del_first (entry_matches ns id) (t h)).

(* libzdb/index.c:715-741, index_clean_namespace_branch on every branch *)
Definition table_clean (t : table) (ns : N) : table :=
  fun h => filter (fun e => negb (e_ns e =? ns)) (t h).

(* libzdb/index.c:748-771, index_clean_namespace: nothing is done when the namespace
   has no branches, which is the case in sequential mode
   (libzdb/index_loader.c:557-571, index_rehash) *)
Definition index_clean_namespace (t : table) (x : index) : table :=
  if x_mode x =? MODE_SEQ then t else table_clean t (x_ns x).

(* ---- dirty bitmap ---- *)

(* libzdb/index.c:800-829, index_dirty_resize.  realloc leaves the new bytes
   undefined except the last one; ids grow one by one so that there is at most
   one new byte (DirtyFacts.v).  Bytes added by the model are 0. *)
Definition index_dirty_resize (maxid : N) (x : index) : index :=
  if maxid <=? x_dmax x then x
  else
    let nbytes := (maxid + 8) / 8 in
    if nbytes <=? nlen (x_dmap x) then x_set_dirty maxid (x_dmap x) x
    else x_set_dirty maxid (x_dmap x ++ repeat 0 (N.to_nat (nbytes - nlen (x_dmap x)))) x.

(* libzdb/index.c:832-837 *)
Definition index_dirty_reset (x : index) : index :=
  x_set_dirty (x_dmax x) (map (fun _ => 0) (x_dmap x)) x.

(* libzdb/index.c:840-849, index_dirty_set with value 1 *)
Definition index_dirty_set (id : N) (x : index) : index :=
  match nget (id / 8) (x_dmap x) with
  | Some b => x_set_dirty (x_dmax x) (nset (id / 8) (N.lor b (N.shiftl 1 (id mod 8))) (x_dmap x)) x
  | None => x     (* out of bounds in C; excluded by the invariant of DirtyFacts.v *)
  end.

(* libzdb/index.c:852-857, index_dirty_get *)
Definition index_dirty_get (id : N) (x : index) : bool :=
  match nget (id / 8) (x_dmap x) with
  | Some b => N.testbit b (id mod 8)
  | None => false
  end.

(* ---- sequential map ---- *)

(* libzdb/index_seq.c:11-41, index_seqmap_from_seq.  None: the loop does not end
   or reads outside the array. *)
Fixpoint seqmap_search (fuel : nat) (m : list (N * N)) (lower higher id : N) : option (N * N) :=
  match fuel with
  | O => None
  | S fuel' =>
      if lower <? higher then
        let mid := (lower + higher) / 2 in
        match nget mid m with
        | None => None
        | Some (midid, midfile) =>
            if id =? midid then Some (midid, midfile)
            else if id <? midid then seqmap_search fuel' m lower mid id
            else if nlen m <=? lower + 1 then nget lower m
            else
              match nget lower m, nget (lower + 1) m with
              | Some (lid, lfile), Some (nid, _) =>
                  if (lid <? id) && (id <? nid) then Some (lid, lfile)
                  else seqmap_search fuel' m mid higher id
              | _, _ => None
              end
        end
      else nget lower m
  end.

Definition index_seqmap_from_seq (m : list (N * N)) (id : N) : option (N * N) :=
  seqmap_search (S (List.length m)) m 0 (nlen m) id.

(* libzdb/index_seq.c:50-65, index_seqid_push (vector growth left out) *)
Definition index_seqid_push (id fid : N) (x : index) : index :=
  match x_seq x with
  | Some m => x_set_seq (Some (m ++ [(id, fid)])) x
  | None => x
  end.

(* libzdb/index_seq.c:67-82, in size_t *)
Definition index_seq_offset (relative : N) : N := u64 (29 + relative * 42).

(* ---- reading index items ---- *)

(* libzdb/index.c:453-483 with index_read 131-159 *)
Definition index_item_get_disk (d : disk) (indexid off idlen : N) : option item :=
  match ifile d indexid with
  | None => None
  | Some f =>
      let b := fread f off (34 + idlen) in
      if blen b =? 34 + idlen then Some (dec_item b) else None
  end.

(* libzdb/index_get.c:16-59.  relative and offset are uint32_t.  The item keeps
   the 8 bytes of id read from the disk. *)
Definition index_get_sequential (x : index) (d : disk) (id : bytes) : option entry :=
  if negb (blen id =? 8) then None
  else
    match x_seq x with
    | None => None
    | Some m =>
        match index_seqmap_from_seq m (unle id) with
        | None => None
        | Some (start, fid) =>
            let relative := u32 (sub64 (unle id) start) in
            let off := u32 (index_seq_offset relative) in
            match index_item_get_disk d fid off 8 with
            | None => None
            | Some it =>
                Some (mkEntry (x_ns x) (nfirst (it_idlen it) (it_id it)) (it_off it) off (it_len it)
                        (it_flags it) (it_dataid it) fid (it_crc it) (it_pid it) (it_poff it) (it_ts it))
            end
        end
    end.

(* libzdb/index_get.c:68-86 *)
Definition index_get (s : est) (id : bytes) : option entry :=
  let r := if x_mode (ix s) =? MODE_KV
           then index_entry_get (tb s) (x_ns (ix s)) id
           else index_get_sequential (ix s) (dk s) id in
  match r with
  | Some e => if is_deleted (e_flags e) then None else Some e
  | None => None
  end.

(* ---- writing the index ---- *)

(* libzdb/index_set.c:116-134, index_item_from_set: fields are truncated by the
   assignment to the packed structure when it is encoded *)
Definition index_item_from_set (x : index) (id : bytes) (e : entry) : item :=
  mkItem (blen id) (e_off e) (e_len e) (x_prev x) (e_flags e) (e_dataid e) (e_ts e) (e_crc e)
    (e_pid e) (e_poff e) id.

(* libzdb/index_set.c:136-164, index_append_entry_on_disk; returns the entry with
   its location (idxoffset is a uint32_t) *)
Definition index_append (s : est) (id : bytes) (e : entry) : bool * entry * est :=
  let x := ix s in
  let cur := isize (dk s) (x_indexid x) in
  let e1 := e_set_loc (x_indexid x) (u32 cur) e in
  let it := index_item_from_set x id e1 in
  let x1 := x_set_updated true (x_set_prev cur x) in
  let '(ok, d1) := try_write (WrI (x_indexid x) cur (enc_item it)) (dk s) in
  if ok then (true, e1, set_dk d1 (set_ix x1 s))
  else (false, e_set_flags (N.lor (e_flags e1) INDEX_ENTRY_DELETED) e1, set_dk d1 (set_ix x1 s)).

(* size_t counters *)
Definition add64 (a b : N) : N := u64 (a + b).

(* libzdb/index_set.c:174-213, index_insert_memory_handler_memkey *)
Definition insert_memory_memkey (t : table) (x : index) (id : bytes) (new : entry) : table * index * entry :=
  let e := mkEntry (x_ns x) id (e_off new) (e_idxoff new) (e_len new) (e_flags new) (x_indexid x)
             (e_indexid new) (e_crc new) (e_pid new) (e_poff new) (e_ts new) in
  let x1 := x_set_stats (add64 (x_entries x) 1) (add64 (x_datasize x) (e_len new))
              (add64 (x_size x) (ENTRY_SIZEOF + blen id)) x in
  let x2 := x_set_next (u64 (x_nextentry x1 + 1)) (u32 (x_nextid x1 + 1)) x1 in
  (table_append t e, x2, e).

(* libzdb/index_set.c:215-231, index_insert_memory_handler_sequential *)
Definition insert_memory_seq (x : index) (id : bytes) (new : entry) : index :=
  let x1 := x_set_stats (add64 (x_entries x) 1) (add64 (x_datasize x) (e_len new))
              (add64 (x_size x) (ENTRY_SIZEOF + blen id)) x in
  x_set_next (u64 (x_nextentry x1 + 1)) (u32 (x_nextid x1 + 1)) x1.

(* libzdb/index_set.c:238-269, index_update_memory_handler_memkey: new content of
   the existing entry *)
Definition update_memory_entry (x : index) (new exists_ : entry) : entry :=
  mkEntry (e_ns exists_) (e_id exists_) (e_off new) (e_idxoff new) (e_len new) (e_flags new)
    (x_indexid x) (e_indexid new) (e_crc new) (e_indexid exists_) (e_idxoff exists_) (e_ts new).

Definition update_memory_memkey (t : table) (x : index) (id : bytes) (new exists_ : entry) : table * index * entry :=
  let x1 := x_set_stats (x_entries x) (add64 (sub64 (x_datasize x) (e_len exists_)) (e_len new)) (x_size x) x in
  let e := update_memory_entry x new exists_ in
  (table_update t (x_ns x) id (fun _ => e), x1, e).

(* libzdb/index.c:536-589, index_entry_delete_disk.  The entry's own flags are
   updated by the callers of this function in the model.  Returns false on error. *)
Definition index_entry_delete_disk (s : est) (e : entry) : bool * est :=
  let n := 34 + blen (e_id e) in
  match ifile (dk s) (e_indexid e) with
  | None => (false, s)
  | Some f =>
      let b := fread f (e_idxoff e) n in
      if blen b =? n then
        let it := dec_item b in
        let it' := mkItem (it_idlen it) (it_off it) (it_len it) (it_prev it)
                     (N.lor (e_flags e) INDEX_ENTRY_DELETED) (it_dataid it) (it_ts it) (it_crc it)
                     (it_pid it) (it_poff it) (it_id it) in
        let '(ok, d1) := try_write (WrI (e_indexid e) (e_idxoff e) (enc_item it')) (dk s) in
        if ok then (true, set_dk d1 (set_ix (index_dirty_set (e_indexid e) (ix s)) s))
        else (false, set_dk d1 s)
      else (false, s)
  end.

(* libzdb/index_set.c:304-323, index_update_entry_memkey.  The result of the
   deletion is ignored, as in the code.  The updated memory entry gets its
   location from the append, so the table is updated last. *)
Definition index_update_entry_memkey (s : est) (id : bytes) (new previous : entry) : option entry * est :=
  let '(_, s1) := index_entry_delete_disk s previous in
  let '(t1, x1, e) := update_memory_memkey (tb s1) (ix s1) id new previous in
  let s2 := set_ix x1 (set_tb t1 s1) in
  let '(ok, e', s3) := index_append s2 id e in
  let s4 := set_tb (table_update (tb s3) (x_ns (ix s3)) id (fun _ => e')) s3 in
  (if ok then Some e' else None, s4).

(* libzdb/index_set.c:370-382, index_insert_entry_memkey *)
Definition index_insert_entry_memkey (s : est) (id : bytes) (new : entry) : option entry * est :=
  let '(ok, new', s1) := index_append s id (e_set_flags 0 new) in
  if ok then
    let '(t1, x1, e) := insert_memory_memkey (tb s1) (ix s1) id new' in
    (Some e, set_ix x1 (set_tb t1 s1))
  else (None, s1).

(* libzdb/index_set.c:384-396, index_insert_entry_sequential *)
Definition index_insert_entry_sequential (s : est) (id : bytes) (new : entry) : option entry * est :=
  let '(ok, new', s1) := index_append s id (e_set_flags 0 new) in
  if ok then (Some new', set_ix (insert_memory_seq (ix s1) id new') s1)
  else (None, s1).

(* libzdb/index_set.c:55-110, index_seq_overwrite: relative is a uint64_t, offset
   a uint32_t.  Returns false on error. *)
Definition index_seq_overwrite (s : est) (id : bytes) (e : entry) : bool * est :=
  let x := ix s in
  match x_seq x with
  | None => (false, s)
  | Some m =>
      match index_seqmap_from_seq m (unle (firstn 8 id)) with
      | None => (false, s)
      | Some (start, fid) =>
          let off := u32 (index_seq_offset (sub64 (unle (firstn 8 id)) start)) in
          match ifile (dk s) fid with
          | None => (false, s)
          | Some f =>
              let b := fread f off 34 in
              if blen b =? 34 then
                let it := index_item_from_set x id e in
                let it' := mkItem (it_idlen it) (it_off it) (it_len it) (it_prev (dec_item b))
                             (it_flags it) (it_dataid it) (it_ts it) (it_crc it) (it_pid it)
                             (it_poff it) (it_id it) in
                let '(ok, d1) := try_write (WrI fid off (enc_item it')) (dk s) in
                if ok then (true, set_dk d1 (set_ix (index_dirty_set fid x) s))
                else (false, set_dk d1 s)
              else (false, s)
          end
      end
  end.

(* libzdb/index_set.c:325-359, index_update_entry_sequential.  The result of the
   overwrite is ignored, as in the code. *)
Definition index_update_entry_sequential (s : est) (id : bytes) (new previous : entry) : option entry * est :=
  let dup := e_set_flags (N.lor (e_flags previous) INDEX_ENTRY_DELETED) previous in
  let '(ok, dup', s1) := index_append s id dup in
  if ok then
    let new' := e_set_parent (x_indexid (ix s1)) (e_idxoff dup') new in
    let '(_, s2) := index_seq_overwrite s1 id new' in
    let x := ix s2 in
    let x1 := x_set_next (u64 (x_nextentry x + 1)) (u32 (x_nextid x + 1)) x in
    let x2 := x_set_stats (x_entries x1)
                (add64 (sub64 (x_datasize x1) (e_len previous)) (e_len new)) (x_size x1) x1 in
    (Some new', set_ix x2 s2)
  else (None, s1).

(* libzdb/index_set.c:416-424, index_set *)
Definition index_set (s : est) (id : bytes) (new : entry) (existing : option entry) : option entry * est :=
  match existing with
  | Some prev =>
      if x_mode (ix s) =? MODE_KV then index_update_entry_memkey s id new prev
      else index_update_entry_sequential s id new prev
  | None =>
      if x_mode (ix s) =? MODE_KV then index_insert_entry_memkey s id new
      else index_insert_entry_sequential s id new
  end.

(* libzdb/index.c:505-534, index_entry_delete_memory *)
Definition index_entry_delete_memory (t : table) (x : index) (e : entry) : table * index :=
  let x1 := x_set_stats (sub64 (x_entries x) 1) (sub64 (x_datasize x) (e_len e))
              (sub64 (x_size x) (ENTRY_SIZEOF + blen (e_id e))) x in
  if x_mode x =? MODE_KV then (table_remove t (x_ns x) (e_id e), x1) else (t, x1).

(* libzdb/index.c:591-601, index_entry_delete.  When the disk part fails the
   memory entry stays flagged as deleted (index.c:544). *)
Definition index_entry_delete (s : est) (e : entry) : bool * est :=
  let '(ok, s1) := index_entry_delete_disk s e in
  if ok then
    let '(t1, x1) := index_entry_delete_memory (tb s1) (ix s1) e in
    (true, set_ix x1 (set_tb t1 s1))
  else
    if x_mode (ix s) =? MODE_KV then
      (false, set_tb (table_update (tb s1) (x_ns (ix s1)) (e_id e)
                        (fun m => e_set_flags (N.lor (e_flags m) INDEX_ENTRY_DELETED) m)) s1)
    else (false, s1).

(* ---- data layer ---- *)

(* libzdb/data.h:118-127, data_request_t *)
Record dreq := mkDreq { q_data : bytes; q_id : bytes; q_flags : N; q_crc : N; q_ts : N }.

(* libzdb/data.c:594-633, data_insert: 0 is the error value *)
Definition data_insert (s : est) (q : dreq) : N * est :=
  let fid := d_dataid (dt s) in
  let off := dsize (dk s) fid in
  let hdr := mkDrec (blen (q_id q)) (blen (q_data q)) (d_prev (dt s)) (q_crc q) (q_flags q) (q_ts q) (q_id q) in
  let '(ok1, d1) := try_write (WrD fid off (enc_drec hdr)) (dk s) in
  if ok1 then
    let '(ok2, d2) := try_write (WrD fid (dsize d1 fid) (q_data q)) d1 in
    if ok2 then (off, set_dt (mkData fid off) (set_dk d2 s))
    else (0, set_dk d2 s)
  else (0, set_dk d1 s).

(* libzdb/data.c:653-671, data_delete *)
Definition data_delete (s : est) (id : bytes) (ts : N) : bool * est :=
  let '(off, s1) := data_insert s (mkDreq [] id DATA_ENTRY_DELETED 0 ts) in
  (negb (off =? 0), s1).

(* libzdb/data.c:449-461, data_length_from_offset *)
Definition data_length_from_offset (f : bytes) (off : N) : N :=
  let b := fread f off 18 in
  if blen b =? 18 then dr_datalen (dec_drec b) else 0.

(* libzdb/data.c:464-504, data_get_real: None is the NULL buffer *)
Definition data_get_real (f : bytes) (off len idlen : N) : option bytes :=
  let len' := if len =? 0 then data_length_from_offset f off else len in
  if len' =? 0 then Some []
  else
    let b := fread f (off + 18 + idlen) len' in
    if blen b =? len' then Some b else None.

(* libzdb/data.c:509-528, data_get *)
Definition data_get (d : disk) (off len dataid idlen : N) : option bytes :=
  match dfile d dataid with
  | None => None
  | Some f => data_get_real f off len idlen
  end.

(* libzdb/data.c:533-588, data_check: None is -1 *)
Definition data_check_real (f : bytes) (off : N) : option bool :=
  let h := fread f off 18 in
  if blen h =? 18 then
    let r := dec_drec h in
    let b := fread f (off + 18 + dr_idlen r) (dr_datalen r) in
    if blen b =? dr_datalen r then Some (zdb_crc32 b =? dr_crc r) else None
  else None.

Definition data_check (d : disk) (off dataid : N) : option bool :=
  match dfile d dataid with
  | None => None
  | Some f => data_check_real f off
  end.

(* libzdb/data.c:325-387, data_raw_get_real *)
Inductive raw_result :=
| RawEof
| RawUnexpected
| RawOk (header : drec) (payload : bytes).   (* the id is dr_id header *)

Definition data_raw_get_real (f : bytes) (off : N) : raw_result :=
  if blen f <=? off then RawEof
  else
    let h := fread f off 18 in
    if negb (blen h =? 18) then RawUnexpected
    else
      let r := dec_drec h in
      if ZDB_DATA_MAX_PAYLOAD <? dr_datalen r then RawUnexpected
      else
        let id := fread f (off + 18) (dr_idlen r) in
        if negb (blen id =? dr_idlen r) then RawUnexpected
        else if negb (N.land (dr_flags r) DATA_ENTRY_DELETED =? 0) then RawUnexpected
        else
          let p := fread f (off + 18 + dr_idlen r) (dr_datalen r) in
          if negb (blen p =? dr_datalen r) then RawUnexpected
          else RawOk (mkDrec (dr_idlen r) (dr_datalen r) (dr_prev r) (dr_crc r) (dr_flags r) (dr_ts r) id) p.

(* libzdb/data.c:390-409, data_raw_get: None when the file cannot be opened (the
   C function returns a zeroed result without error) *)
Definition data_raw_get (d : disk) (dataid off : N) : option raw_result :=
  match dfile d dataid with
  | None => None
  | Some f => Some (data_raw_get_real f off)
  end.

(* libzdb/data.c:245-276, data_initialize: the header is (re)written at offset 0 *)
Definition data_header (fid : N) : bytes := enc_dhdr (mkDhdr (str "DAT0") ZDB_DATAFILE_VERSION 0 0 fid).

Definition data_initialize (fid : N) (d : disk) : disk :=
  do_write (WrD fid 0 (data_header fid)) (do_write (MkD fid) d).

(* libzdb/data.c:306-311, loop of data_open_final which finds the last record *)
Fixpoint data_find_last (fuel : nat) (f : bytes) (pos prev : N) : N :=
  match fuel with
  | O => prev
  | S fuel' =>
      let h := fread f pos 18 in
      if blen h =? 18 then
        let r := dec_drec h in
        data_find_last fuel' f (pos + 18 + u32 (dr_datalen r + dr_idlen r)) pos
      else prev
  end.

(* libzdb/data.c:283-315, data_open_final (the file exists already) *)
Definition data_open_final (fid prev : N) (d : disk) : dataroot :=
  match dfile d fid with
  | Some f => mkData fid (data_find_last (List.length f) f 28 prev)
  | None => mkData fid prev
  end.

(* libzdb/data.c:688-718, data_init *)
Definition data_init (fid : N) (s : est) : est :=
  let d1 := data_initialize fid (dk s) in
  set_dt (data_open_final fid 0 d1) (set_dk d1 s).

(* libzdb/data.c:413-447, data_jump_next (hook left out) *)
Definition data_jump_next (fid : N) (s : est) : est :=
  let d1 := data_initialize fid (dk s) in
  set_dt (data_open_final fid (d_prev (dt s)) d1) (set_dk d1 s).

(* ---- index files ---- *)

(* libzdb/index_loader.c:86-104, index_initialize *)
Definition index_header (fid mode : N) : bytes :=
  enc_ihdr (mkIhdr (str "IDX0") ZDB_IDXFILE_VERSION 0 0 fid mode).

(* libzdb/index.c:167-173, index_set_id *)
Definition index_set_id (fid : N) (x : index) : index := index_dirty_resize fid (x_set_indexid fid x).

(* libzdb/index.c:341-399, index_jump_next (hook left out).  indexid + 1 is
   computed in uint32_t. *)
Definition index_jump_next (s : est) : est :=
  let fid := u32 (x_indexid (ix s) + 1) in
  let x1 := index_set_id fid (x_set_next (x_nextentry (ix s)) 0 (ix s)) in
  let d1 := do_write (MkI fid) (dk s) in
  let d2 := do_write (WrI fid (isize d1 fid) (index_header fid (x_mode x1))) d1 in
  let x2 := x_set_updated false x1 in
  let x3 := index_seqid_push (x_nextentry x2) fid x2 in
  set_dk d2 (set_ix x3 s).

(* both files jump together (zdbd/commands_set.c:370-373, zdbd/commands_namespace.c:592-593,
   zdbd/zdbd.c rotation) *)
Definition jump_next (s : est) : est :=
  let s1 := index_jump_next s in
  data_jump_next (x_indexid (ix s1)) s1.

(* ---- loading ---- *)

(* libzdb/index_set.c:426-446, index_set_memory *)
Definition index_set_memory (t : table) (x : index) (id : bytes) (e : entry) : table * index * entry :=
  if x_mode x =? MODE_SEQ then (t, insert_memory_seq x id e, e)
  else
    match index_entry_get t (x_ns x) id with
    | Some old => if is_deleted (e_flags old) then insert_memory_memkey t x id e
                  else update_memory_memkey t x id e old
    | None => insert_memory_memkey t x id e
    end.

(* libzdb/index_loader.c:317-371, one index file replayed in memory.  None: the
   last record is shorter than its announced size (the C code reads past the end
   of its buffer). *)
Fixpoint index_load_loop (fuel : nat) (rest : bytes) (off : N) (t : table) (x : index) : option (table * index) :=
  match rest with
  | [] => Some (t, x)
  | _ =>
      match fuel with
      | O => None
      | S fuel' =>
          let raw := dec_item rest in
          let n := 34 + it_idlen raw in
          if blen rest <? n then None
          else
            let id := nfirst (it_idlen raw) (it_id raw) in
            let source := mkEntry (x_ns x) id (it_off raw) (u32 off) (it_len raw) (it_flags raw) 0
                            (x_indexid x) (it_crc raw) (it_pid raw) (it_poff raw) (it_ts raw) in
            let x0 := if off =? 29 then index_seqid_push (x_nextentry x) (x_indexid x) x else x in
            let '(t1, x1, fresh) := index_set_memory t x0 id source in
            let '(t2, x2) := if is_deleted (e_flags fresh)
                             then index_entry_delete_memory t1 x1 fresh else (t1, x1) in
            index_load_loop fuel' (nskip n rest) (off + n) t2 (x_set_prev off x2)
      end
  end.

(* libzdb/index_loader.c:557-587, index_rehash *)
Definition index_rehash (x : index) : index :=
  let x1 := if x_mode x =? MODE_SEQ
            then match x_seq x with None => x_set_seq (Some []) x | Some _ => x end
            else x in
  match x_seq x1 with
  | Some [] => index_seqid_push 0 0 x1
  | _ => x1
  end.

Inductive lres :=
| LExit                        (* the process exits *)
| LUb                          (* undefined behaviour *)
| LDiscard (s : est)           (* file discarded: load stops here (returns 0) *)
| LNew (s : est)               (* initial file created (returns 0) *)
| LOk (s : est).               (* loaded *)

(* libzdb/index_loader.c:183-384, index_load_file for the current indexid.  smode
   is the mode of the server (zdb_rootsettings.mode). *)
Definition index_load_body (smode : N) (s : est) (hdr : ihdr) (created : bool) : lres :=
  if negb (bseqb (ih_magic hdr) (str "IDX0")) then LExit
  else if negb (ih_version hdr =? ZDB_IDXFILE_VERSION) then LExit
  else
    let x := ix s in
    let x1 := if (ih_mode hdr =? MODE_SEQ) || (ih_mode hdr =? MODE_KV) then x_set_mode (ih_mode hdr) x else x in
    let x2 := index_rehash x1 in
    let hdr' := mkIhdr (ih_magic hdr) (ih_version hdr) (ih_created hdr) 0 (ih_fileid hdr) (ih_mode hdr) in
    let d1 := do_write (WrI (x_indexid x2) 0 (enc_ihdr hdr')) (dk s) in
    if negb (smode =? MODE_MIX) && negb (ih_mode hdr =? smode) then LExit
    else
      match ifile d1 (x_indexid x2) with
      | None => LUb
      | Some f =>
          let body := nskip 29 f in
          match index_load_loop (List.length body) body 29 (tb s) (x_set_next (x_nextentry x2) 0 x2) with
          | None => LUb
          | Some (t3, x3) =>
              let s3 := mkEst t3 x3 (dt s) d1 in
              if created then LNew s3 else LOk s3
          end
      end.

Definition index_load_file (smode : N) (s : est) : lres :=
  let x := ix s in
  let d0 := do_write (MkI (x_indexid x)) (dk s) in
  let s0 := set_dk d0 s in
  match ifile d0 (x_indexid x) with
  | None => LExit
  | Some f =>
      let h := fread f 0 29 in
      if blen h =? 29 then index_load_body smode s0 (dec_ihdr h) false
      else if 0 <? blen h then LExit
      else if 0 <? x_indexid x then LDiscard s0
      else
        let hb := index_header (x_indexid x) (x_mode x) in
        let d1 := do_write (WrI (x_indexid x) 0 hb) d0 in
        index_load_body smode (set_dk d1 s0) (dec_ihdr hb) true
  end.

(* libzdb/index_loader.c:431-438, the files one by one from fid on *)
Fixpoint index_load_files (smode : N) (n : nat) (fid : N) (s : est) : lres :=
  match n with
  | O => LOk s
  | S n' =>
      match index_load_file smode (set_ix (index_set_id fid (ix s)) s) with
      | LOk s1 => index_load_files smode n' (fid + 1) s1
      | r => r
      end
  end.

(* libzdb/index_loader.c:387-470, index_internal_load.  index_availity_check
   counts the consecutive files (and leaves the dirty map sized for them);
   the legacy file name test is left out. *)
Definition index_internal_load (smode : N) (s : est) : lres :=
  let n := nlen (dk_i (dk s)) in
  let s0 := set_ix (index_dirty_resize n (ix s)) s in
  if 0 <? n then index_load_files smode (List.length (dk_i (dk s))) 0 s0
  else index_load_file smode (set_ix (index_set_id 0 (ix s0)) s0).

(* libzdb/index_loader.c:522-554, index_init_lazy *)
Definition index_init_lazy (smode ns : N) : index :=
  index_dirty_resize 1
    (mkIndex ns (if smode =? MODE_MIX then MODE_KV else smode) 0 0 0 0 false None 0 0 0 0 []).

(* libzdb/index_loader.c:590-612, index_init followed by data_init
   (libzdb/namespace.c:275-289): None when the process does not survive *)
Definition store_open (smode ns : N) (t : table) (d : disk) : option est :=
  let s := mkEst t (index_rehash (index_init_lazy smode ns)) (mkData 0 0) d in
  match index_internal_load smode s with
  | LExit | LUb => None
  | LDiscard s1 | LNew s1 | LOk s1 =>
      (* index_open_final (index.c:288-305): opens the current file for append *)
      let s2 := set_dk (do_write (MkI (x_indexid (ix s1))) (dk s1))
                  (set_ix (x_set_updated false (ix s1)) s1) in
      Some (data_init (x_indexid (ix s2)) s2)
  end.

(* an empty directory *)
Definition empty_disk : disk := mkDisk [] [] [] [].
Definition empty_table : table := fun _ => [].
