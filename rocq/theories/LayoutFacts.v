(* Round trips of the layouts *)
From Coq Require Import List NArith ZArith Bool Strings.Byte Lia ZifyBool ZifyN ZifyNat.
From Verif Require Import Bytes BytesFacts Layout.
Import ListNotations.
Open Scope N_scope.
Ltac Zify.zify_post_hook ::= Z.div_mod_to_equations.

Lemma rd_le k x b : rd k (le k x ++ b) = (unle (le k x), b).
Proof.
  unfold rd. f_equal.
  - f_equal. rewrite <- (le_length k x) at 1. rewrite firstn_app, firstn_all, Nat.sub_diag. apply app_nil_r.
  - rewrite <- (le_length k x) at 1. rewrite skipn_app, skipn_all, Nat.sub_diag. reflexivity.
Qed.

Definition item_norm (i : item) : item :=
  mkItem (u8 (it_idlen i)) (u32 (it_off i)) (u32 (it_len i)) (u32 (it_prev i)) (u8 (it_flags i))
    (u32 (it_dataid i)) (u32 (it_ts i)) (u32 (it_crc i)) (u32 (it_pid i)) (u32 (it_poff i)) (it_id i).

Lemma dec_enc_item_norm i rest :
  dec_item (enc_item i ++ rest) =
  let n := item_norm i in
  mkItem (it_idlen n) (it_off n) (it_len n) (it_prev n) (it_flags n) (it_dataid n) (it_ts n)
    (it_crc n) (it_pid n) (it_poff n) (it_id i ++ rest).
Proof.
  unfold dec_item, enc_item. rewrite <- !app_assoc.
  rewrite !rd_le, !unle_le1, !unle_le4. reflexivity.
Qed.

(* every field within its width *)
Definition item_wf (i : item) : Prop :=
  it_idlen i = blen (it_id i) /\ it_idlen i < 256 /\ it_off i < 4294967296 /\
  it_len i < 4294967296 /\ it_prev i < 4294967296 /\ it_flags i < 256 /\
  it_dataid i < 4294967296 /\ it_ts i < 4294967296 /\ it_crc i < 4294967296 /\
  it_pid i < 4294967296 /\ it_poff i < 4294967296.

Lemma item_norm_wf i : item_wf i -> item_norm i = i.
Proof.
  unfold item_wf, item_norm. destruct i as [a0 a1 a2 a3 a4 a5 a6 a7 a8 a9 a10]; cbn [it_idlen it_off it_len it_prev it_flags it_dataid it_ts it_crc it_pid it_poff it_id].
  intros. rewrite !u32_small, !u8_small by lia. reflexivity.
Qed.

Lemma dec_enc_item i : item_wf i -> dec_item (enc_item i) = i.
Proof.
  intros. rewrite <- (app_nil_r (enc_item i)), dec_enc_item_norm, item_norm_wf by auto.
  cbn zeta. rewrite app_nil_r. now destruct i.
Qed.

Lemma blen_enc_item i : blen (enc_item i) = 34 + blen (it_id i).
Proof. unfold enc_item. rewrite !blen_app, !blen_le. lia. Qed.

Lemma dec_enc_bkey k : bk_idlen k < 256 -> bk_fileid k < 4294967296 -> bk_length k < 4294967296 ->
  bk_idxoff k < 4294967296 -> bk_crc k < 4294967296 -> dec_bkey (enc_bkey k) = k.
Proof.
  intros. unfold dec_bkey, enc_bkey. rewrite <- (app_nil_r (le 4 (bk_crc k))).
  rewrite !rd_le, !unle_le1, !unle_le4. rewrite !u32_small, !u8_small by lia. now destruct k.
Qed.

Lemma blen_enc_bkey k : blen (enc_bkey k) = 17.
Proof. unfold enc_bkey. rewrite !blen_app, !blen_le. reflexivity. Qed.

Lemma dec_enc_ekey k : ek_indexid k < 4294967296 -> ek_offset k < 4294967296 -> dec_ekey (enc_ekey k) = k.
Proof.
  intros. unfold dec_ekey, enc_ekey. rewrite <- (app_nil_r (le 4 (ek_offset k))).
  rewrite !rd_le, !unle_le4. rewrite !u32_small by lia. now destruct k.
Qed.

Lemma blen_enc_ekey k : blen (enc_ekey k) = 8.
Proof. unfold enc_ekey. rewrite !blen_app, !blen_le. reflexivity. Qed.

Definition drec_wf (d : drec) : Prop :=
  dr_idlen d = blen (dr_id d) /\ dr_idlen d < 256 /\ dr_datalen d < 4294967296 /\
  dr_prev d < 4294967296 /\ dr_crc d < 4294967296 /\ dr_flags d < 256 /\ dr_ts d < 4294967296.

Lemma dec_enc_drec_rest d rest : drec_wf d ->
  dec_drec (enc_drec d ++ rest) =
  mkDrec (dr_idlen d) (dr_datalen d) (dr_prev d) (dr_crc d) (dr_flags d) (dr_ts d) (dr_id d ++ rest).
Proof.
  intros (H1 & H2 & H3 & H4 & H5 & H6 & H7).
  unfold dec_drec, enc_drec. rewrite <- !app_assoc.
  rewrite !rd_le, !unle_le1, !unle_le4. rewrite !u32_small, !u8_small by lia. reflexivity.
Qed.

Lemma dec_enc_drec d : drec_wf d -> dec_drec (enc_drec d) = d.
Proof.
  intros. rewrite <- (app_nil_r (enc_drec d)), dec_enc_drec_rest by auto.
  rewrite app_nil_r. now destruct d.
Qed.

Lemma blen_enc_drec d : blen (enc_drec d) = 18 + blen (dr_id d).
Proof. unfold enc_drec. rewrite !blen_app, !blen_le. lia. Qed.

Lemma dec_enc_ihdr h rest : length (ih_magic h) = 4%nat -> ih_version h < 4294967296 ->
  ih_created h < 18446744073709551616 -> ih_opened h < 18446744073709551616 ->
  ih_fileid h < 4294967296 -> ih_mode h < 256 ->
  dec_ihdr (enc_ihdr h ++ rest) = h.
Proof.
  intros. unfold dec_ihdr, enc_ihdr.
  destruct h as [m v c o f md]; cbn [ih_magic ih_version ih_created ih_opened ih_fileid ih_mode] in *.
  destruct m as [|m0 [|m1 [|m2 [|m3 [|]]]]]; try discriminate.
  rewrite <- !app_assoc. cbn [app firstn skipn].
  rewrite !rd_le, !unle_le1, !unle_le4, !unle_le8.
  rewrite !u32_small, !u8_small, !u64_small by lia. reflexivity.
Qed.

Lemma blen_enc_ihdr h : length (ih_magic h) = 4%nat -> blen (enc_ihdr h) = 29.
Proof. intros. unfold enc_ihdr. rewrite !blen_app, !blen_le, blen_length, H. reflexivity. Qed.

Lemma dec_enc_dhdr h rest : length (dh_magic h) = 4%nat -> dh_version h < 4294967296 ->
  dh_created h < 18446744073709551616 -> dh_opened h < 18446744073709551616 ->
  dh_fileid h < 4294967296 ->
  dec_dhdr (enc_dhdr h ++ rest) = h.
Proof.
  intros. unfold dec_dhdr, enc_dhdr.
  destruct h as [m v c o f]; cbn [dh_magic dh_version dh_created dh_opened dh_fileid] in *.
  destruct m as [|m0 [|m1 [|m2 [|m3 [|]]]]]; try discriminate.
  rewrite <- !app_assoc. cbn [app firstn skipn].
  rewrite !rd_le, !unle_le4, !unle_le8.
  rewrite !u32_small, !u64_small by lia. reflexivity.
Qed.

Lemma blen_enc_dhdr h : length (dh_magic h) = 4%nat -> blen (enc_dhdr h) = 28.
Proof. intros. unfold enc_dhdr. rewrite !blen_app, !blen_le, blen_length, H. reflexivity. Qed.

Lemma dec_enc_nshdr h rest : nh_version h < 4294967296 -> nh_namelen h < 256 -> nh_passlen h < 256 ->
  nh_maxsize h < 18446744073709551616 -> nh_flags h < 256 ->
  dec_nshdr (enc_nshdr h ++ rest) = h.
Proof.
  intros. unfold dec_nshdr, enc_nshdr. rewrite <- !app_assoc.
  rewrite !rd_le, !unle_le1, !unle_le4, !unle_le8.
  rewrite !u32_small, !u8_small, !u64_small by lia. now destruct h.
Qed.

Lemma blen_enc_nshdr h : blen (enc_nshdr h) = 15.
Proof. unfold enc_nshdr. rewrite !blen_app, !blen_le. reflexivity. Qed.

(* ---- a stored data record ---- *)

Lemma dec_drec_head d : drec_wf d -> dec_drec (nfirst 18 (enc_drec d)) =
  mkDrec (dr_idlen d) (dr_datalen d) (dr_prev d) (dr_crc d) (dr_flags d) (dr_ts d) [].
Proof.
  intros W. unfold drec_wf in W. destruct d as [a0 a1 a2 a3 a4 a5 a6].
  unfold enc_drec; cbn [dr_idlen dr_datalen dr_prev dr_crc dr_flags dr_ts dr_id] in *.
  rewrite !app_assoc, nfirst_app_exact'.
  2: rewrite !blen_app, !blen_le; reflexivity.
  rewrite <- !app_assoc. unfold dec_drec. rewrite <- (app_nil_r (le 4 a5)).
  rewrite !rd_le, !unle_le1, !unle_le4. rewrite !u32_small, !u8_small by lia. reflexivity.
Qed.
