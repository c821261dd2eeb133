(* The tools: lemmas. *)
From Coq Require Import Strings.String Strings.Byte List NArith ZArith Bool Lia ZifyBool ZifyN ZifyNat.
From Verif Require Import Bytes BytesFacts Crc32 Crc32Facts Layout LayoutFacts Store Text TextFacts Commands System SpecKV Machine Reach CrashModel
  SpecFiles CheckFacts SpecCheck CheckCmd DataLog Rebuild RebuildFacts SpecSeq SeqReach Tools SpecTools.
Import ListNotations.
Open Scope N_scope.
Local Notation length := List.length.
Ltac Zify.zify_post_hook ::= Z.div_mod_to_equations.

Lemma front_enc p w : rec_front p w = enc_drec (w_drec p w).
Proof.
  unfold rec_front. rewrite rec_enc. apply nfirst_app_exact'. now rewrite blen_enc_drec.
Qed.

Lemma one_record fuel pre p w v post e : wrote_wf w -> blen v = blen (w_value w) ->
  integrity_pass (S fuel) (pre ++ (rec_front p w ++ v) ++ post) (blen pre) e =
  integrity_pass fuel (pre ++ (rec_front p w ++ v) ++ post) (blen (pre ++ rec_front p w ++ v))
    (if (blen v =? 0) || (zdb_crc32 v =? w_crc w) then e else e + 1).
Proof.
  intros W L. pose proof (w_drec_wf p w W) as WD. rewrite front_enc.
  set (file := pre ++ _ ++ post).
  assert (FE : file = pre ++ enc_drec (w_drec p w) ++ (v ++ post)) by (unfold file; now rewrite <- !app_assoc).
  assert (F1 : fread file (blen pre) 1 = [n2b (blen (w_key w))]).
  { rewrite FE, fread_prefix by (rewrite blen_enc_drec; lia). reflexivity. }
  assert (F2 : fread file (blen pre) (18 + blen (w_key w)) = enc_drec (w_drec p w)).
  { rewrite FE. apply fread_app. now rewrite blen_enc_drec. }
  assert (F3 : fread file (blen pre + 18 + blen (w_key w)) (blen v) = v).
  { rewrite FE, (app_assoc pre). replace (blen pre + 18 + blen (w_key w)) with (blen (pre ++ enc_drec (w_drec p w))).
    - now apply fread_app.
    - rewrite blen_app, blen_enc_drec. cbn [w_drec dr_id]. lia. }
  assert (IL : unle [n2b (blen (w_key w))] = blen (w_key w)).
  { change [n2b (blen (w_key w))] with (le 1 (blen (w_key w))). rewrite unle_le1. apply u8_small. destruct W. lia. }
  cbn [integrity_pass]. rewrite F1. cbn iota zeta. rewrite IL, F2, blen_enc_drec. change (dr_id (w_drec p w)) with (w_key w).
  rewrite N.eqb_refl, dec_enc_drec by exact WD.
  change (dr_datalen (w_drec p w)) with (blen (w_value w)). change (dr_crc (w_drec p w)) with (w_crc w). rewrite <- L.
  assert (NX : blen (pre ++ enc_drec (w_drec p w) ++ v) = blen pre + 18 + blen (w_key w) + blen v).
  { rewrite !blen_app, blen_enc_drec. cbn [w_drec dr_id]. lia. }
  rewrite NX. destruct (N.eqb_spec (blen v) 0) as [Z|Z]; cbn [orb].
  - rewrite Z, N.add_0_r. reflexivity.
  - rewrite F3, N.eqb_refl. reflexivity.
Qed.

Lemma own_crc w : wrote_wf w -> (blen (w_value w) =? 0) || (zdb_crc32 (w_value w) =? w_crc w) = true.
Proof.
  intros (_ & _ & _ & G). unfold w_crc. destruct (w_gone w).
  - rewrite (G eq_refl). reflexivity.
  - rewrite N.eqb_refl. apply orb_true_r.
Qed.

Lemma hit_crc w v : wrote_wf w -> burst (w_value w) v -> (blen v =? 0) || (zdb_crc32 v =? w_crc w) = false.
Proof.
  intros (_ & _ & _ & G) B. pose proof B as (a & x & y & b & E1 & E2 & L & L4 & D).
  assert (X : x <> []). { intros ->. destruct y; [congruence|discriminate]. }
  unfold w_crc. destruct (w_gone w) eqn:GG.
  - rewrite (G eq_refl) in E1. symmetry in E1. apply app_eq_nil in E1 as [_ E1]. apply app_eq_nil in E1 as [E1 _]. congruence.
  - rewrite (burst_crc _ _ B), orb_false_r, (burst_length _ _ B), E1. apply N.eqb_neq. rewrite !blen_app, (blen_length x).
    destruct x; [congruence|]. cbn [length]. lia.
Qed.

Lemma value_split p w : rec_bytes p w = rec_front p w ++ w_value w.
Proof. now rewrite front_enc, rec_enc. Qed.

Lemma damage_pass rows b k : damage rows b k -> Forall (fun x : row => wrote_wf (snd x)) rows -> forall fuel pre e, (length rows < fuel)%nat ->
  integrity_pass fuel (pre ++ b) (blen pre) e = KReturn (e + k).
Proof.
  induction 1 as [|p w t b k D IH|p w v t b k B D IH]; intros F fuel pre e Hf; (destruct fuel as [|fuel]; [cbn [length] in Hf; lia|]).
  - cbn [integrity_pass]. rewrite fread_eof by (rewrite app_nil_r; lia). now rewrite N.add_0_r.
  - inversion F as [|? ? W F']; subst. cbn [snd] in W. rewrite value_split, one_record, own_crc by auto.
    rewrite app_assoc. apply IH; auto. cbn [length] in Hf. lia.
  - inversion F as [|? ? W F']; subst. cbn [snd] in W. rewrite one_record, hit_crc by (auto using burst_length).
    rewrite app_assoc. rewrite IH; auto; [f_equal; lia|]. cbn [length] in Hf. lia.
Qed.

Lemma damage_length rows b k : damage rows b k -> (length rows <= length b)%nat.
Proof.
  induction 1 as [|p w t b k D IH|p w v t b k B D IH]; cbn [length]; rewrite ?app_length; [lia| |].
  - pose proof (blen_rec p w) as X. rewrite blen_length in X. unfold rec_size in X. lia.
  - assert (X : blen (rec_front p w) = 18 + blen (w_key w)) by (rewrite front_enc, blen_enc_drec; reflexivity).
    rewrite blen_length in X. lia.
Qed.

Lemma header_valid f b : data_file_valid (file_header f ++ b) = true.
Proof.
  unfold data_file_valid.
  assert (H : fread (file_header f ++ b) 0 28 = file_header f) by (unfold fread; rewrite nskip_0; apply nfirst_app_exact'; reflexivity).
  rewrite H. reflexivity.
Qed.

Lemma damage_counted f rows : Forall (fun x : row => wrote_wf (snd x)) rows -> counts_damage f rows.
Proof.
  intros F b k D. unfold data_integrity. rewrite header_valid.
  change 28 with (blen (file_header f)). apply (damage_pass _ _ _ D F _ (file_header f) 0).
  apply damage_length in D. rewrite app_length. lia.
Qed.

Lemma dl_counts s fs l : DL s fs l -> forall f rows, nth_error (fs ++ [l]) f = Some rows -> counts_damage (N.of_nat f) rows.
Proof.
  intros D f rows E. apply damage_counted. pose proof (dl_wf _ _ _ D) as W. rewrite Forall_forall in W. apply W. now apply nth_error_In in E.
Qed.

Lemma counts_user g n c0 es o c s : reached g n c0 es o c s ->
  exists files, log_of (dk_d (dk s)) files (written_by es o) /\
    forall f rows, nth_error files f = Some rows -> counts_damage (N.of_nat f) rows.
Proof.
  intros R. destruct (log_reached _ _ _ _ _ _ _ R) as (_ & _ & fs & l & _ & _ & _ & D & <-).
  exists (fs ++ [l]). split; [now apply dl_log|]. exact (dl_counts _ _ _ D).
Qed.

Lemma counts_seq g n c0 es o c s : sreached g n c0 (plain es) o c s ->
  exists files, log_of (dk_d (dk s)) files (written_by es o) /\
    forall f rows, nth_error files f = Some rows -> counts_damage (N.of_nat f) rows.
Proof.
  intros R. destruct (slog_reached _ _ _ _ _ _ _ R) as (fs & l & D & <-).
  exists (fs ++ [l]). split; [now apply dl_log|]. exact (dl_counts _ _ _ D).
Qed.

(* ---- the program ---- *)
Lemma tool_status d f rows b k : f < 2 ^ 32 ->
  dget (str "zdb-data-" ++ dec f) d <> None -> dget (data_name f) d = Some (file_header f ++ b) ->
  counts_damage f rows -> damage rows b k ->
  integrity_check d (str "zdb-data-" ++ dec f) = Some (k mod 256).
Proof.
  intros Hf E1 E2 C D. unfold integrity_check. destruct (dget (str "zdb-data-" ++ dec f) d); [|congruence].
  rewrite nfirst_app_exact' by reflexivity. rewrite bseqb_refl. cbn [negb].
  rewrite nskip_app_exact' by reflexivity.
  assert (A : z_u32 (atoll (dec f)) = f).
  { rewrite atoll_digits by (auto using dec_nonempty, dec_all). rewrite parse_dec. unfold z_u32. lia. }
  rewrite A, E2, (C _ _ D). reflexivity.
Qed.

Lemma named_first ds name : forall i, hd_error name <> hd_error (str "d") -> dget name (named data_name i ds) = None.
Proof.
  induction ds as [|x ds IH]; intros i A; cbn [named dget]; auto.
  destruct (bseqb (data_name i) name) eqn:E; [|now apply IH].
  apply bseqb_eq in E. subst. now elim A.
Qed.

Lemma named_none ds name : bseqb (nfirst 9 name) (str "zdb-data-") = true -> dget name (server_data ds) = None.
Proof.
  intros E. apply bseqb_eq in E. apply named_first. intros X. destruct name as [|a name]; [discriminate|].
  rewrite nfirst_firstn in E. apply (f_equal (@hd_error _)) in E.
  change (hd_error (firstn (N.to_nat 9) (a :: name))) with (Some a) in E.
  change (hd_error (a :: name)) with (Some a) in X. rewrite X in E. vm_compute in E. discriminate E.
Qed.

Lemma refused_all ds name : integrity_check (server_data ds) name = Some 1.
Proof.
  unfold integrity_check. destruct (bseqb (nfirst 9 name) (str "zdb-data-")) eqn:E.
  - now rewrite named_none.
  - destruct (dget name _); reflexivity.
Qed.

(* a file which is not a data file of this version *)
Lemma foreign_file d f file : f < 2 ^ 32 ->
  dget (str "zdb-data-" ++ dec f) d <> None -> dget (data_name f) d = Some file ->
  (blen file < 28 \/ nfirst 8 file <> str "DAT0" ++ le 4 3) ->
  integrity_check d (str "zdb-data-" ++ dec f) = Some 1.
Proof.
  intros Hf E1 E2 B. unfold integrity_check. destruct (dget (str "zdb-data-" ++ dec f) d); [|congruence].
  rewrite nfirst_app_exact' by reflexivity. rewrite bseqb_refl. cbn [negb].
  rewrite nskip_app_exact' by reflexivity.
  assert (A : z_u32 (atoll (dec f)) = f).
  { rewrite atoll_digits by (auto using dec_nonempty, dec_all). rewrite parse_dec. unfold z_u32. lia. }
  rewrite A, E2. unfold data_integrity. destruct (data_file_valid file) eqn:V; [|reflexivity]. exfalso.
  unfold data_file_valid in V. rewrite !andb_true_iff in V. destruct V as ((V1 & V2) & V3).
  assert (L : blen (fread file 0 28) = 28) by lia. unfold fread in L, V2, V3. rewrite nskip_0 in *. clear V1.
  destruct B as [B|B].
  - rewrite blen_nfirst in L. lia.
  - apply B. clear B. apply bseqb_eq in V2. apply N.eqb_eq in V3. change ZDB_DATAFILE_VERSION with 3 in V3.
    rewrite blen_nfirst in L.
    assert (X : nfirst 8 file = nfirst 4 (nfirst 28 file) ++ nfirst 4 (nskip 4 (nfirst 28 file))).
    { rewrite !nfirst_firstn, !nskip_skipn. change (N.to_nat 8) with 8%nat. change (N.to_nat 4) with 4%nat. change (N.to_nat 28) with 28%nat.
      rewrite blen_length in L. do 9 (destruct file as [|? file]; [cbn [List.length] in L; lia|]). reflexivity. }
    rewrite X, V2. f_equal. rewrite <- V3. change 4%nat with (N.to_nat 4).
    rewrite <- (le_unle (nfirst 4 (nskip 4 (nfirst 28 file)))) at 1. f_equal.
    rewrite nfirst_firstn, nskip_skipn, firstn_length, skipn_length, nfirst_firstn, firstn_length. rewrite blen_length in L. lia.
Qed.
