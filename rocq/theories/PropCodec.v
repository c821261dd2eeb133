(* PROPERTIES C25 (library part), C26, C39.  Statements only. *)
From Coq Require Import List NArith Strings.Byte Strings.String.
From Verif Require Import Bytes Crc32 Layout Store.
From Verif Require BytesFacts Crc32Facts LayoutFacts CheckFacts.
Import ListNotations.
Open Scope N_scope.

(* ---- C26: all checksum engines give the same 32-bit result ---- *)
Theorem C26_engines_agree : forall data : bytes,
  crc32c_sse42 data = crc32c_software data /\
  crc32c_armv8 data = crc32c_software data /\
  crc32c_software data < 2 ^ 32.
Proof.
  exact (fun d => conj (Crc32Facts.engines_agree d)
                 (conj (Crc32Facts.engines_agree d) (Crc32Facts.zdb_crc32_W32 d))).
Qed.
Print Assumptions C26_engines_agree.

(* 19 bytes: two 8-byte steps and a tail *)
Example C26_case : crc32c_sse42 (str "The quick brown fox") = crc32c_software (str "The quick brown fox")
                   /\ crc32c_software (str "The quick brown fox") <> 0.
Proof. split; [vm_compute; reflexivity | vm_compute; discriminate]. Qed.

(* ---- C39: records read back from their bytes are what was written ---- *)

(* field widths, as declared in the C structures *)
Definition item_fits (i : item) : Prop :=
  it_idlen i = blen (it_id i) /\ it_idlen i < 256 /\ it_off i < 2^32 /\ it_len i < 2^32 /\
  it_prev i < 2^32 /\ it_flags i < 256 /\ it_dataid i < 2^32 /\ it_ts i < 2^32 /\
  it_crc i < 2^32 /\ it_pid i < 2^32 /\ it_poff i < 2^32.

Definition drec_fits (d : drec) : Prop :=
  dr_idlen d = blen (dr_id d) /\ dr_idlen d < 256 /\ dr_datalen d < 2^32 /\
  dr_prev d < 2^32 /\ dr_crc d < 2^32 /\ dr_flags d < 256 /\ dr_ts d < 2^32.

Theorem C39_index_item : forall i, item_fits i ->
  dec_item (enc_item i) = i /\ blen (enc_item i) = 34 + blen (it_id i).
Proof. exact (fun i H => conj (LayoutFacts.dec_enc_item i H) (LayoutFacts.blen_enc_item i)). Qed.
Print Assumptions C39_index_item.

Theorem C39_data_header : forall d, drec_fits d ->
  dec_drec (enc_drec d) = d /\ blen (enc_drec d) = 18 + blen (dr_id d).
Proof. exact (fun d H => conj (LayoutFacts.dec_enc_drec d H) (LayoutFacts.blen_enc_drec d)). Qed.
Print Assumptions C39_data_header.

Theorem C39_index_file_header : forall h, List.length (ih_magic h) = 4%nat -> ih_version h < 2^32 ->
  ih_created h < 2^64 -> ih_opened h < 2^64 -> ih_fileid h < 2^32 -> ih_mode h < 256 ->
  forall rest, dec_ihdr (enc_ihdr h ++ rest) = h /\ blen (enc_ihdr h) = 29.
Proof.
  exact (fun h a b c d e f rest => conj (LayoutFacts.dec_enc_ihdr h rest a b c d e f)
                                         (LayoutFacts.blen_enc_ihdr h a)).
Qed.
Print Assumptions C39_index_file_header.

Theorem C39_data_file_header : forall h, List.length (dh_magic h) = 4%nat -> dh_version h < 2^32 ->
  dh_created h < 2^64 -> dh_opened h < 2^64 -> dh_fileid h < 2^32 ->
  forall rest, dec_dhdr (enc_dhdr h ++ rest) = h /\ blen (enc_dhdr h) = 28.
Proof.
  exact (fun h a b c d e rest => conj (LayoutFacts.dec_enc_dhdr h rest a b c d e)
                                       (LayoutFacts.blen_enc_dhdr h a)).
Qed.
Print Assumptions C39_data_file_header.

Theorem C39_cursors :
  (forall k, bk_idlen k < 256 -> bk_fileid k < 2^32 -> bk_length k < 2^32 -> bk_idxoff k < 2^32 ->
     bk_crc k < 2^32 -> dec_bkey (enc_bkey k) = k /\ blen (enc_bkey k) = 17) /\
  (forall k, ek_indexid k < 2^32 -> ek_offset k < 2^32 ->
     dec_ekey (enc_ekey k) = k /\ blen (enc_ekey k) = 8).
Proof.
  exact (conj (fun k a b c d e => conj (LayoutFacts.dec_enc_bkey k a b c d e) (LayoutFacts.blen_enc_bkey k))
              (fun k a b => conj (LayoutFacts.dec_enc_ekey k a b) (LayoutFacts.blen_enc_ekey k))).
Qed.
Print Assumptions C39_cursors.

Theorem C39_namespace_header : forall h, nh_version h < 2^32 -> nh_namelen h < 256 ->
  nh_passlen h < 256 -> nh_maxsize h < 2^64 -> nh_flags h < 256 ->
  forall rest, dec_nshdr (enc_nshdr h ++ rest) = h /\ blen (enc_nshdr h) = 15.
Proof.
  exact (fun h a b c d e rest => conj (LayoutFacts.dec_enc_nshdr h rest a b c d e)
                                       (LayoutFacts.blen_enc_nshdr h)).
Qed.
Print Assumptions C39_namespace_header.

Example C39_case :
  item_fits (mkItem 3 28 1000 29 1 7 1600000000 3735928559 2 71 (str "key")) /\
  drec_fits (mkDrec 3 1000 28 3735928559 1 1600000000 (str "key")).
Proof. vm_compute. repeat split; reflexivity. Qed.

(* ---- C25: a stored record verifies; a corruption within four bytes does not ---- *)

(* A data file which holds, between arbitrary bytes, a record whose checksum field
   is the checksum of its value verifies; if then at most four consecutive bytes of
   the value are replaced by different ones, verification fails. *)
Theorem C25_stored_value_verifies : forall pre d value post,
  drec_fits d -> dr_datalen d = blen value -> dr_crc d = zdb_crc32 value ->
  data_check_real (pre ++ enc_drec d ++ value ++ post) (blen pre) = Some true.
Proof.
  exact (fun pre d v post W L C =>
    eq_trans (CheckFacts.data_check_stored pre d v post W L)
      (f_equal Some (eq_trans (f_equal (N.eqb (zdb_crc32 v)) C) (N.eqb_refl _)))).
Qed.
Print Assumptions C25_stored_value_verifies.

Theorem C25_corruption_detected : forall pre d v1 good bad v2 post,
  drec_fits d -> dr_datalen d = blen (v1 ++ good ++ v2) -> dr_crc d = zdb_crc32 (v1 ++ good ++ v2) ->
  List.length bad = List.length good -> (List.length good <= 4)%nat -> bad <> good ->
  data_check_real (pre ++ enc_drec d ++ (v1 ++ bad ++ v2) ++ post) (blen pre) = Some false.
Proof. exact CheckFacts.corruption_detected. Qed.
Print Assumptions C25_corruption_detected.

Example C25_case :
  let v := str "some stored value" in
  let d := mkDrec 3 (blen v) 0 (zdb_crc32 v) 0 5 (str "key") in
  drec_fits d /\
  data_check_real (data_header 0 ++ enc_drec d ++ v) 28 = Some true /\
  data_check_real (data_header 0 ++ enc_drec d ++ str "some ST@Red value") 28 = Some false.
Proof. vm_compute. repeat split; reflexivity. Qed.
