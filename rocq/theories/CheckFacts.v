(* data_check on a record lying somewhere in a data file *)
From Coq Require Import List NArith ZArith Bool Strings.Byte Lia ZifyBool ZifyN ZifyNat.
From Verif Require Import Bytes BytesFacts Crc32 Crc32Facts Layout LayoutFacts Store.
Import ListNotations.
Open Scope N_scope.
Ltac Zify.zify_post_hook ::= Z.div_mod_to_equations.

Lemma nfirst_app_le (a b : bytes) n : n <= blen a -> nfirst n (a ++ b) = nfirst n a.
Proof.
  intros H. rewrite blen_length in H. rewrite !nfirst_firstn, firstn_app.
  replace (N.to_nat n - length a)%nat with O by lia. cbn [firstn]. apply app_nil_r.
Qed.

Lemma fread_prefix a b c n : n <= blen b -> fread (a ++ b ++ c) (blen a) n = nfirst n b.
Proof.
  intros H. unfold fread. rewrite nskip_app_exact' by reflexivity. now apply nfirst_app_le.
Qed.

Lemma blen_nfirst n (b : bytes) : blen (nfirst n b) = N.min n (blen b).
Proof. rewrite nfirst_firstn, !blen_length, firstn_length. lia. Qed.

Lemma dr_of_stored pre d payload post : drec_wf d ->
  dec_drec (fread (pre ++ enc_drec d ++ payload ++ post) (blen pre) 18) =
  mkDrec (dr_idlen d) (dr_datalen d) (dr_prev d) (dr_crc d) (dr_flags d) (dr_ts d) [].
Proof.
  intros W. rewrite fread_prefix by (rewrite blen_enc_drec; lia). now apply dec_drec_head.
Qed.

Lemma data_check_stored pre d payload post : drec_wf d -> dr_datalen d = blen payload ->
  data_check_real (pre ++ enc_drec d ++ payload ++ post) (blen pre)
  = Some (zdb_crc32 payload =? dr_crc d).
Proof.
  intros W Hl. unfold data_check_real.
  rewrite fread_prefix at 1 by (rewrite blen_enc_drec; lia).
  rewrite blen_nfirst, blen_enc_drec.
  destruct (N.eqb_spec (N.min 18 (18 + blen (dr_id d))) 18) as [_|n]; [|lia].
  rewrite dr_of_stored by auto. cbn [dr_idlen dr_datalen dr_crc].
  rewrite (app_assoc pre (enc_drec d)).
  replace (blen pre + 18 + dr_idlen d) with (blen (pre ++ enc_drec d))
    by (rewrite blen_app, blen_enc_drec; unfold drec_wf in W; lia).
  rewrite fread_app by (rewrite <- Hl; reflexivity).
  rewrite Hl, N.eqb_refl. reflexivity.
Qed.

Lemma corruption_detected pre d v1 good bad v2 post :
  drec_wf d -> dr_datalen d = blen (v1 ++ good ++ v2) -> dr_crc d = zdb_crc32 (v1 ++ good ++ v2) ->
  length bad = length good -> (length good <= 4)%nat -> bad <> good ->
  data_check_real (pre ++ enc_drec d ++ (v1 ++ bad ++ v2) ++ post) (blen pre) = Some false.
Proof.
  intros W L C Hl H4 Hne. rewrite data_check_stored; auto.
  - f_equal. apply N.eqb_neq. rewrite C. apply crc_detects_burst; auto. lia.
  - rewrite L, !blen_app, !(blen_length good), !(blen_length bad), Hl. reflexivity.
Qed.
