(* MODEL.  On-disk layouts (all structures are packed and little-endian). *)
From Coq Require Import List NArith Strings.Byte Strings.String.
From Verif Require Import Bytes.
Import ListNotations.
Open Scope N_scope.

(* C string literal *)
Definition str (s : string) : bytes := list_byte_of_string s.

(* read a k-byte little-endian field and go on after it *)
Definition rd (k : nat) (b : bytes) : N * bytes := (unle (firstn k b), skipn k b).

(* ---- index files ---- *)

(* libzdb/index.h:40-48, index_header_t, 29 bytes *)
Record ihdr := mkIhdr {
  ih_magic : bytes; ih_version : N; ih_created : N; ih_opened : N;
  ih_fileid : N; ih_mode : N
}.

Definition IHDR_LEN : N := 29.

Definition enc_ihdr (h : ihdr) : bytes :=
  ih_magic h ++ le 4 (ih_version h) ++ le 8 (ih_created h) ++ le 8 (ih_opened h)
  ++ le 4 (ih_fileid h) ++ le 1 (ih_mode h).

Definition dec_ihdr (b : bytes) : ihdr :=
  let magic := firstn 4 b in
  let '(v, b) := rd 4 (skipn 4 b) in
  let '(c, b) := rd 8 b in
  let '(o, b) := rd 8 b in
  let '(f, b) := rd 4 b in
  let '(m, b) := rd 1 b in
  mkIhdr magic v c o f m.

(* libzdb/index.h:52-70, index_item_t, 34 bytes followed by the id *)
Record item := mkItem {
  it_idlen : N; it_off : N; it_len : N; it_prev : N; it_flags : N;
  it_dataid : N; it_ts : N; it_crc : N; it_pid : N; it_poff : N;
  it_id : bytes
}.

Definition ITEM_LEN : N := 34.

Definition enc_item (i : item) : bytes :=
  le 1 (it_idlen i) ++ le 4 (it_off i) ++ le 4 (it_len i) ++ le 4 (it_prev i)
  ++ le 1 (it_flags i) ++ le 4 (it_dataid i) ++ le 4 (it_ts i) ++ le 4 (it_crc i)
  ++ le 4 (it_pid i) ++ le 4 (it_poff i) ++ it_id i.

(* the id is whatever follows the fixed part; the callers pass exactly the bytes
   they read, or cut the id at idlength *)
Definition dec_item (b : bytes) : item :=
  let '(idlen, b) := rd 1 b in
  let '(off, b) := rd 4 b in
  let '(len, b) := rd 4 b in
  let '(prev, b) := rd 4 b in
  let '(flags, b) := rd 1 b in
  let '(dataid, b) := rd 4 b in
  let '(ts, b) := rd 4 b in
  let '(crc, b) := rd 4 b in
  let '(pid, b) := rd 4 b in
  let '(poff, b) := rd 4 b in
  mkItem idlen off len prev flags dataid ts crc pid poff b.

(* libzdb/index.h:72-75 *)
Definition INDEX_ENTRY_DELETED : N := 1.
Definition is_deleted (flags : N) : bool := negb (N.land flags INDEX_ENTRY_DELETED =? 0).

(* libzdb/index.h:239-247, index_bkey_t, 17 bytes: SCAN cursor *)
Record bkey := mkBkey { bk_idlen : N; bk_fileid : N; bk_length : N; bk_idxoff : N; bk_crc : N }.

Definition BKEY_LEN : N := 17.

Definition enc_bkey (k : bkey) : bytes :=
  le 1 (bk_idlen k) ++ le 4 (bk_fileid k) ++ le 4 (bk_length k) ++ le 4 (bk_idxoff k)
  ++ le 4 (bk_crc k).

Definition dec_bkey (b : bytes) : bkey :=
  let '(l, b) := rd 1 b in
  let '(f, b) := rd 4 b in
  let '(n, b) := rd 4 b in
  let '(o, b) := rd 4 b in
  let '(c, b) := rd 4 b in
  mkBkey l f n o c.

(* libzdb/index.h:249-257, index_ekey_t, 8 bytes: HISTORY cursor *)
Record ekey := mkEkey { ek_indexid : N; ek_offset : N }.

Definition enc_ekey (k : ekey) : bytes := le 4 (ek_indexid k) ++ le 4 (ek_offset k).

Definition dec_ekey (b : bytes) : ekey :=
  let '(i, b) := rd 4 b in
  let '(o, b) := rd 4 b in
  mkEkey i o.

(* ---- data files ---- *)

(* libzdb/data.h:38-45, data_header_t, 28 bytes *)
Record dhdr := mkDhdr { dh_magic : bytes; dh_version : N; dh_created : N; dh_opened : N; dh_fileid : N }.

Definition DHDR_LEN : N := 28.

Definition enc_dhdr (h : dhdr) : bytes :=
  dh_magic h ++ le 4 (dh_version h) ++ le 8 (dh_created h) ++ le 8 (dh_opened h)
  ++ le 4 (dh_fileid h).

Definition dec_dhdr (b : bytes) : dhdr :=
  let magic := firstn 4 b in
  let '(v, b) := rd 4 (skipn 4 b) in
  let '(c, b) := rd 8 b in
  let '(o, b) := rd 8 b in
  let '(f, b) := rd 4 b in
  mkDhdr magic v c o f.

(* libzdb/data.h:56-65, data_entry_header_t, 18 bytes followed by the id; the
   payload follows the id *)
Record drec := mkDrec {
  dr_idlen : N; dr_datalen : N; dr_prev : N; dr_crc : N; dr_flags : N; dr_ts : N;
  dr_id : bytes
}.

Definition DREC_LEN : N := 18.

Definition enc_drec (d : drec) : bytes :=
  le 1 (dr_idlen d) ++ le 4 (dr_datalen d) ++ le 4 (dr_prev d) ++ le 4 (dr_crc d)
  ++ le 1 (dr_flags d) ++ le 4 (dr_ts d) ++ dr_id d.

Definition dec_drec (b : bytes) : drec :=
  let '(l, b) := rd 1 b in
  let '(n, b) := rd 4 b in
  let '(p, b) := rd 4 b in
  let '(c, b) := rd 4 b in
  let '(f, b) := rd 1 b in
  let '(t, b) := rd 4 b in
  mkDrec l n p c f t b.

(* libzdb/data.h:47-51 *)
Definition DATA_ENTRY_DELETED : N := 1.
Definition DATA_ENTRY_TRUNCATED : N := 2.

(* ---- namespace descriptor ---- *)

(* libzdb/namespace.h:30-37, ns_header_t, 15 bytes, then name, then password
   (libzdb/namespace.c:70-100) *)
Record nshdr := mkNshdr {
  nh_version : N; nh_namelen : N; nh_passlen : N; nh_maxsize : N; nh_flags : N
}.

Definition NSHDR_LEN : N := 15.

Definition enc_nshdr (h : nshdr) : bytes :=
  le 4 (nh_version h) ++ le 1 (nh_namelen h) ++ le 1 (nh_passlen h)
  ++ le 8 (nh_maxsize h) ++ le 1 (nh_flags h).

Definition dec_nshdr (b : bytes) : nshdr :=
  let '(v, b) := rd 4 b in
  let '(n, b) := rd 1 b in
  let '(p, b) := rd 1 b in
  let '(m, b) := rd 8 b in
  let '(f, b) := rd 1 b in
  mkNshdr v n p m f.
