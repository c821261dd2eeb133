(* Locations of records in sequential mode. *)
From Coq Require Import Strings.String Strings.Byte List NArith ZArith Bool Lia ZifyBool ZifyN ZifyNat.
From Verif Require Import Bytes BytesFacts Crc32 Layout LayoutFacts Store Text TextFacts Commands SpecKV SpecSeq Machine Reach
  CrashModel SeqReach Ghost DataFacts TableFacts UserInv UserSteps UserReq KvFacts SeqMap SeqInv SeqSteps SeqReq SeqRun SeqFacts CheckCmd FaultFacts FaultSeq.
Import ListNotations.
Open Scope N_scope.
Local Notation length := List.length.

Lemma jump_sizes s : nlen (dk_d (dk s)) = u32 (x_indexid (ix s) + 1) -> nlen (dk_i (dk s)) = u32 (x_indexid (ix s) + 1) ->
  dsize (dk (jump_next s)) (d_dataid (dt (jump_next s))) = 28 /\ isize (dk (jump_next s)) (x_indexid (ix (jump_next s))) = 29.
Proof.
  intros E Ei. unfold jump_next, data_jump_next. set (s1 := index_jump_next s).
  assert (X1 : x_indexid (ix s1) = u32 (x_indexid (ix s) + 1)).
  { unfold s1, index_jump_next, index_seqid_push, index_set_id. cbn [set_dk set_ix ix].
    destruct (dirty_resize_shape (u32 (x_indexid (ix s) + 1)) (x_set_indexid (u32 (x_indexid (ix s) + 1)) (x_set_next (x_nextentry (ix s)) 0 (ix s)))) as (a & b & ->).
    cbn [x_set_updated x_set_dirty x_set_indexid x_set_next x_seq]. destruct (x_seq (ix s)); reflexivity. }
  assert (X2 : dk_d (dk s1) = dk_d (dk s)) by reflexivity.
  assert (X3 : isize (dk s1) (x_indexid (ix s1)) = 29).
  { rewrite X1. unfold isize, ifile, s1, index_jump_next, do_write. cbn [set_dk set_ix dk apply_write dk_i dk_d fst snd]. rewrite <- Ei.
    unfold mkfile. rewrite N.eqb_refl. unfold wrfile. rewrite nget_app_r, nget_nset_same by (rewrite nlen_app; cbn [nlen]; lia).
    unfold isize, ifile. cbn [dk_i]. rewrite nget_app_r. cbn [blen].
    rewrite (fwrite_end [] (index_header _ _) : fwrite [] 0 (index_header _ _) = _). apply blen_index_header. }
  split; [|exact X3]. clear X3. rewrite X1, <- E, <- X2. clearbody s1. clear.
  unfold dsize, dfile.
  cbn [set_dt set_dk dt dk]. unfold data_open_final. destruct (dfile _ _); cbn [d_dataid];
    unfold data_initialize, do_write; cbn [apply_write dk_d fst snd]; unfold mkfile; rewrite N.eqb_refl; unfold wrfile;
    rewrite nget_app_r, nget_nset_same by (rewrite nlen_app; cbn [nlen]; lia);
    change (fwrite [] 0 (data_header (nlen (dk_d (dk s1))))) with (fwrite [] (blen []) (data_header (nlen (dk_d (dk s1))))); rewrite fwrite_end; cbn [app]; apply blen_data_header.
Qed.

Lemma soffsets_fit g n c0 es o c s v : sreached g n c0 es o c s -> blen v <= 8388608 -> nlen (dk_i (dk s)) < 2 ^ 32 ->
  let s1 := if g_datasize g <? dsize (dk s) (d_dataid (dt s)) + blen v then jump_next s else s in
  dsize (dk s1) (d_dataid (dt s1)) < 2 ^ 32 /\ isize (dk s1) (x_indexid (ix s1)) < 2 ^ 32.
Proof.
  intros R Hv FL s1. destruct (sreached_inv _ _ _ _ _ _ _ R) as (_ & gi & H & (m & U & _) & _ & _).
  destruct R as [[_ Hg] _]. change (2 ^ 31) with 2147483648 in Hg. change (2 ^ 32) with 4294967296 in *.
  pose proof (nlen_sfiles _ _ _ _ _ U) as NF.
  unfold s1. destruct (N.ltb_spec (g_datasize g) (dsize (dk s) (d_dataid (dt s)) + blen v)) as [Hj|Hj].
  - destruct (jump_sizes s) as (-> & ->); [rewrite (si_dn _ _ _ _ _ U)|rewrite NF|]; try lia;
      rewrite (si_id _ _ _ _ _ U); symmetry; apply u32_small; lia.
  - split; [lia|]. clear s1.
    destruct (cur_split gi (x_indexid (ix s)) (si_id _ _ _ _ _ U)) as (g1 & l & Eg & Hl).
    pose proof (si_f _ _ _ _ _ U) as F. pose proof (sf_room _ _ _ _ F g1 l Eg) as RO.
    assert (RD : room (dk_d (dk s)) (nlen g1) <= dsize (dk s) (d_dataid (dt s))).
    { unfold room, dsize, dfile. rewrite (si_did _ _ _ _ _ U), <- Hl. destruct (nget _ _); lia. }
    assert (IS : isize (dk s) (x_indexid (ix s)) = 29 + isz l).
    { unfold isize, ifile. rewrite (sf_files _ _ _ _ F), Eg, <- Hl, nget_enc_ifs. apply blen_enc_if. }
    pose proof (sf_wf _ _ _ _ F) as W. rewrite Eg in W. apply file_wf in W. rewrite (isz_42 _ _ _ W) in IS. lia.
Qed.

Lemma slocated g n c0 es o c s k v p now : sreached g n c0 es o c s -> key_asked (x_nextentry (ix s)) k ->
  fst (run_req g p now (QGet k) c s) = bulk v ->
  exists e file, index_get s k = Some e /\ dfile (dk s) (e_dataid e) = Some file /\
    fread file (e_off e + 18) (blen k) = k /\ fread file (e_off e + 18 + blen k) (e_len e) = v /\
    e_off e < 2 ^ 32 /\ e_idxoff e < 2 ^ 32.
Proof.
  intros R Ka G. destruct (sreached_inv _ _ _ _ _ _ _ R) as (rr & gi & H & U0 & E & FL).
  destruct U0 as (m & U & _).
  assert (Ka' : key_asked (tot gi) k) by (rewrite <- (si_next _ _ _ _ _ U); exact Ka).
  pose proof G as G0. cbn [run_req fst argv_of] in G0. unfold command_get in G0.
  destruct (read_bulk _ _ _ _ G0) as (G1 & _).
  pose proof (sget_single_ok n s m gi H k U Ka') as GS. rewrite G1 in GS. symmetry in GS.
  destruct (bulk_of_reply _ _ GS) as (t & K).
  pose proof (seq_ex n s m gi H k U Ka') as L. destruct (index_get s k) as [e|] eqn:I; [|congruence].
  destruct L as (g1 & l1 & it & l2 & g2 & A' & B & HA & w & HB & At & ->).
  pose proof (as_get _ _ _ _ _ _ _ _ _ _ _ _ _ _ At) as L7. pose proof (as_id _ _ _ _ _ _ _ _ _ _ _ _ _ _ At) as Id.
  pose proof (as_wf _ _ _ _ _ _ _ _ _ _ _ _ _ _ At) as (W1 & W2 & W3).
  destruct (as_ver _ _ _ _ _ _ _ _ _ _ _ _ _ _ At) as (V1 & V2 & V3 & V4 & r & R1 & R2 & R3 & R4 & R5 & R6 & (pre & post & P1 & P2)).
  rewrite K in L7. injection L7 as L7. destruct w as [k' [v0 t0]]. cbn [fst snd l_it l_off l_id] in *. injection L7 as <- <-.
  exists (seq_entry n (nlen g1, 29 + isz l1, it)), (pre ++ enc_drec r ++ v ++ post). cbn [seq_entry e_dataid e_off e_len e_idxoff l_it l_off fst snd].
  split; [reflexivity|]. split; [exact P1|].
  assert (RK : dr_id r = k) by (unfold l_id in V1; cbn [snd] in V1; congruence).
  split; [|split; [|split]].
  - rewrite (enc_drec_split r), <- app_assoc, <- P2, app_assoc, RK.
    replace (blen pre + 18) with (blen (pre ++ le 1 (dr_idlen r) ++ le 4 (dr_datalen r) ++ le 4 (dr_prev r) ++ le 4 (dr_crc r)
      ++ le 1 (dr_flags r) ++ le 4 (dr_ts r))) by (rewrite !blen_app, !blen_le; lia).
    now apply fread_app.
  - rewrite V2. rewrite app_assoc. replace (it_off it + 18 + blen k) with (blen (pre ++ enc_drec r))
      by (rewrite blen_app, blen_enc_drec, RK; lia).
    now apply fread_app.
  - apply W1.
  - unfold l_off in W3. cbn [fst snd] in W3. change (2 ^ 32) with 4294967296. lia.
Qed.
