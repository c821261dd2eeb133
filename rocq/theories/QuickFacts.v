(* quick-compaction: lemmas. *)
From Coq Require Import Strings.String Strings.Byte List NArith ZArith Bool Lia ZifyBool ZifyN ZifyNat.
From Verif Require Import Bytes BytesFacts Crc32 Crc32Facts Layout LayoutFacts Store Text TextFacts Commands System SpecKV Machine Reach CrashModel
  SpecFiles Ghost DataFacts TableFacts CheckFacts UserInv UserSteps UserLoad CrashPre UserReq UserRun UserMove KvFacts ScanMix SyncFacts HistFacts DataLog RebuildFacts
  Rebuild Tools SpecTools ToolFacts DumpFacts.
Import ListNotations.
Open Scope N_scope.
Local Notation length := List.length.
Ltac Zify.zify_post_hook ::= Z.div_mod_to_equations.

(* ---- the server refuses what the tool writes ---- *)

Lemma quick_names fuel idir ddir : forall f prev oi od oi' od', quick_files fuel idir ddir f prev oi od = QDone (oi', od') ->
  exists a, oi' = oi ++ a /\ (a <> [] -> exists b t, a = (legacy_index_name f, b) :: t).
Proof.
  induction fuel as [|fuel IH]; intros f prev oi od oi' od' E; cbn [quick_files] in E; [discriminate|].
  assert (Stop : QDone (oi, od) = QDone (oi', od') -> exists a, oi' = oi ++ a /\ (a <> [] -> exists b t, a = (legacy_index_name f, b) :: t)).
  { intros [= <- _]. exists []. rewrite app_nil_r. split; [reflexivity|congruence]. }
  destruct (dget (index_name f) idir) as [fi|]; [|auto]. destruct (dget (data_name f) ddir) as [fd|]; [|auto].
  destruct (data_file_valid fd); [|auto]. destruct (negb _); [discriminate|].
  destruct (quick_pass _ _ _ _ _ _ _ _ _ _) as [[[prev' i] d]| |]; try discriminate.
  destruct (IH _ _ _ _ _ _ E) as (a & -> & _). exists ((legacy_index_name f, i) :: a). rewrite <- app_assoc. split; [reflexivity|eauto].
Qed.

Lemma quick_refused idir ddir oi od smode ns t : quick_compact idir ddir = QDone (oi, od) -> oi <> [] -> start_on smode ns t oi od = None.
Proof.
  intros E N. destruct (quick_names _ _ _ _ _ _ _ _ _ E) as (a & Ea & Na). cbn [app] in Ea. subst a.
  destruct (Na N) as (b & r & ->). reflexivity.
Qed.

(* ---- the numbers of the data files in the index files ---- *)

Definition dataid_ok (x : loc) : Prop := it_dataid (l_it x) = 0 \/ it_dataid (l_it x) = l_f x.

Lemma gmoved_dataid w G H G' H' : gmoved w G H G' H' -> Forall dataid_ok G -> Forall dataid_ok G'.
Proof.
  intros [[-> _]|(k & _ & M)] F; auto.
  destruct (gmove_inv _ _ _ _ _ M) as [(A & x & B & _ & _ & EA & EC & _)|[(y & v & _ & _ & _ & _ & _ & _ & P3 & EC & _)|
    (A & x & B & y & v & _ & _ & _ & _ & _ & _ & _ & P3 & _ & EA & EC & _)]]; subst.
  - apply Forall_app in F. destruct F as [F1 F2]. inversion F2; subst. apply Forall_app. split; auto.
  - apply Forall_app. split; auto. constructor; [now left|constructor].
  - apply Forall_app in F. destruct F as [F1 F2]. inversion F2; subst. apply Forall_app. split; auto. constructor; auto.
    apply Forall_app. split; auto. constructor; [now right|constructor].
Qed.

Lemma run_dataid g n es : settings_ok g -> Forall event_wf es -> forall c s gi H, UInv n s gi H -> files_fit g es (c, s) ->
  Forall dataid_ok (flat 0 gi) -> forall o c' s', run_events g es (c, s) = Some (o, (c', s')) ->
  exists gi' H', UInv n s' gi' H' /\ Forall dataid_ok (flat 0 gi') /\ snd (kv_run es (c, livem (flat 0 gi) H)) = (c', livem (flat 0 gi') H').
Proof.
  intros Hg. induction es as [|e es IH]; intros Wes c s gi H U FF D o c' s' R.
  - cbn [run_events] in R. injection R as <- <- <-. exists gi, H. auto.
  - inversion Wes as [|e0 es0 We Wes' Eq]; subst. pose proof (files_fit_now _ _ _ _ FF) as FL.
    destruct (event_moved g n e c s gi H Hg We U FL) as (o1 & c1 & s1 & gi1 & H1 & E1 & U1 & M & E4).
    cbn [run_events] in R. rewrite E1 in R. destruct (run_events g es (c1, s1)) as [[o2 [c2 s2]]|] eqn:R2; [|discriminate].
    injection R as <- <- <-.
    destruct (IH Wes' c1 s1 gi1 H1 U1 (files_fit_step _ _ _ _ _ _ FF E1) (gmoved_dataid _ _ _ _ _ M D) _ _ _ R2) as (gi2 & H2 & U2 & D2 & K2).
    exists gi2, H2. split; [exact U2|]. split; [exact D2|]. cbn [kv_run].
    destruct (kv_event e (c, livem (flat 0 gi) H)) as [oe st]. cbn [snd] in E4. subst st.
    destruct (kv_run es (c1, livem (flat 0 gi1) H1)) as [o9 st9]. exact K2.
Qed.

(* the index files of a state are the same for any two descriptions *)
Lemma enc_items_inj a b : Forall item_wf a -> Forall item_wf b -> enc_items a = enc_items b -> a = b.
Proof.
  intros Wa. revert b. induction Wa as [|x a Wx Wa IH]; intros b Wb E.
  - destruct b as [|y b]; [reflexivity|]. exfalso. rewrite enc_items_cons in E. apply (f_equal blen) in E. rewrite blen_app, blen_enc_item in E. change (blen (enc_items [])) with 0 in E. lia.
  - destruct Wb as [|y b Wy Wb]; [exfalso; rewrite enc_items_cons in E; apply (f_equal blen) in E; rewrite blen_app, blen_enc_item in E; change (blen (enc_items [])) with 0 in E; lia|].
    rewrite !enc_items_cons in E.
    assert (L : it_idlen x = it_idlen y).
    { pose proof (f_equal (fun z => fread z 0 1) E) as E1. cbn beta in E1. unfold fread in E1. rewrite !nskip_0 in E1.
      rewrite !nfirst_app_le in E1 by (rewrite blen_enc_item; lia).
      change (nfirst 1 (enc_item x)) with [n2b (it_idlen x)] in E1. change (nfirst 1 (enc_item y)) with [n2b (it_idlen y)] in E1.
      apply (f_equal unle) in E1. change [n2b (it_idlen x)] with (le 1 (it_idlen x)) in E1. change [n2b (it_idlen y)] with (le 1 (it_idlen y)) in E1.
      rewrite !unle_le1, !u8_small in E1 by (destruct Wx as (? & ? & _), Wy as (? & ? & _); lia). exact E1. }
    assert (B : blen (enc_item x) = blen (enc_item y)) by (rewrite !blen_enc_item; destruct Wx as (? & _), Wy as (? & _); lia).
    assert (X : enc_item x = enc_item y /\ enc_items a = enc_items b).
    { split.
      - rewrite <- (nfirst_app_exact' (enc_item x) (enc_items a) _ eq_refl), E, B. now apply nfirst_app_exact'.
      - rewrite <- (nskip_app_exact' (enc_item x) (enc_items a) _ eq_refl), E, B. now apply nskip_app_exact'. }
    destruct X as [X1 X2]. apply (f_equal dec_item) in X1. rewrite !dec_enc_item in X1 by auto. f_equal; auto.
Qed.

(* ---- the data that is written ---- *)

Fixpoint marked (G : list loc) (H : list ver) : list (bool * ver) :=
  match G, H with
  | x :: G', v :: H' => (live x, v) :: marked G' H'
  | _, _ => []
  end.

Lemma marked_all G H : length G = length H -> map snd (marked G H) = H.
Proof. revert H. induction G as [|x G IH]; intros [|v H] L; cbn in *; try discriminate; auto. f_equal. apply IH. lia. Qed.

Lemma marked_live G : forall H, map snd (filter fst (marked G H)) = livem G H.
Proof. induction G as [|x G IH]; intros [|v H]; cbn [marked livem filter map]; auto. cbn [fst]. destruct (live x); cbn [map snd]; now rewrite IH. Qed.

Lemma squeezed1_u32 p row : squeezed1 (u32 p) row = squeezed1 p row.
Proof.
  destruct row as [b [k [v t]]]. unfold squeezed1. destruct (b && (0 <? blen v)); unfold rec_bytes, emptied_bytes; now rewrite le4_u32.
Qed.

Lemma squeezed_u32 p o rows : squeezed (u32 p) o rows = squeezed p o rows.
Proof. destruct rows; cbn [squeezed]; auto. cbn zeta. now rewrite squeezed1_u32. Qed.

Lemma squeeze_one prev x v r : l_id x = fst v -> it_idlen (l_it x) = blen (l_id x) -> it_len (l_it x) = blen (fst (snd v)) ->
  drec_wf r -> dr_id r = fst v -> dr_datalen r = blen (fst (snd v)) -> dr_crc r = zdb_crc32 (fst (snd v)) -> dr_flags r = 0 -> dr_ts r = snd (snd v) ->
  let newlen := if is_deleted (it_flags (l_it x)) then 0 else it_len (l_it x) in
  let b := enc_drec r ++ fst (snd v) in
  let r0 := dec_drec (nfirst 18 b) in
  let r' := if newlen =? 0
    then mkDrec (dr_idlen r0) 0 prev 0 (N.lor (dr_flags r0) DATA_ENTRY_TRUNCATED) (dr_ts r0) []
    else mkDrec (dr_idlen r0) (dr_datalen r0) prev (dr_crc r0) (dr_flags r0) (dr_ts r0) [] in
  nfirst (18 + it_idlen (l_it x) + newlen) (enc_drec r' ++ nskip 18 b) = squeezed1 prev (live x, v).
Proof.
  destruct v as [k [w t]]. cbn [fst snd]. intros E1 E2 E3 W D1 D2 D3 D4 D5. cbn zeta.
  assert (B : enc_drec r ++ w = enc_drec (mkDrec (dr_idlen r) (dr_datalen r) (dr_prev r) (dr_crc r) (dr_flags r) (dr_ts r) []) ++ (k ++ w)).
  { unfold enc_drec. cbn [dr_idlen dr_datalen dr_prev dr_crc dr_flags dr_ts dr_id]. rewrite D1, <- !app_assoc. reflexivity. }
  assert (L : forall a b c d e f, blen (enc_drec (mkDrec a b c d e f [])) = 18) by (intros; rewrite blen_enc_drec; reflexivity).
  rewrite B, (nfirst_app_exact' (enc_drec (mkDrec _ _ _ _ _ _ [])) (k ++ w) 18), (nskip_app_exact' (enc_drec (mkDrec _ _ _ _ _ _ [])) (k ++ w) 18) by now rewrite L.
  destruct W as (W1 & W2 & W3 & W4 & W5 & W6 & W7).
  assert (DD : dec_drec (enc_drec (mkDrec (dr_idlen r) (dr_datalen r) (dr_prev r) (dr_crc r) (dr_flags r) (dr_ts r) [])) =
    mkDrec (dr_idlen r) (dr_datalen r) (dr_prev r) (dr_crc r) (dr_flags r) (dr_ts r) []).
  { unfold dec_drec, enc_drec. cbn [dr_idlen dr_datalen dr_prev dr_crc dr_flags dr_ts dr_id]. 
    rewrite !rd_le, !unle_le1, !unle_le4. rewrite !u32_small, !u8_small by lia. reflexivity. }
  rewrite DD. cbn [dr_idlen dr_datalen dr_prev dr_crc dr_flags dr_ts dr_id].
  rewrite W1, D1, D2, D3, D4, D5. rewrite E2, E1, E3. unfold squeezed1, live.
  destruct (is_deleted (it_flags (l_it x))); cbn [negb andb].
  - cbn [N.eqb]. match goal with |- nfirst _ (?a ++ ?b ++ ?c) = _ => rewrite (app_assoc a b c), (nfirst_app_exact' (a ++ b) c) end; [|rewrite blen_app, L; lia].
    unfold enc_drec, emptied_bytes. cbn [dr_idlen dr_datalen dr_prev dr_crc dr_flags dr_ts dr_id]. rewrite <- !app_assoc. reflexivity.
  - destruct (N.eqb_spec (blen w) 0) as [Z|Z].
    + replace (0 <? blen w) with false by lia. match goal with |- nfirst _ (?a ++ ?b ++ ?c) = _ => rewrite (app_assoc a b c), (nfirst_app_exact' (a ++ b) c) end; [|rewrite blen_app, L; lia].
      unfold enc_drec, emptied_bytes. cbn [dr_idlen dr_datalen dr_prev dr_crc dr_flags dr_ts dr_id]. rewrite <- !app_assoc. reflexivity.
    + replace (0 <? blen w) with true by lia. match goal with |- nfirst _ (?a ++ ?b ++ ?c) = _ => rewrite <- (app_nil_r (a ++ b ++ c)), (nfirst_app_exact' (a ++ b ++ c) []) end; [|rewrite !blen_app, L; lia].
      unfold enc_drec, rec_bytes. cbn [dr_idlen dr_datalen dr_prev dr_crc dr_flags dr_ts dr_id w_key w_value w_ts w_gone]. rewrite <- !app_assoc. reflexivity.
Qed.

Lemma item_parts it : item_wf it -> exists h, enc_item it = h ++ it_id it /\ blen h = 34 /\
  dec_item h = mkItem (it_idlen it) (it_off it) (it_len it) (it_prev it) (it_flags it) (it_dataid it) (it_ts it) (it_crc it) (it_pid it) (it_poff it) [].
Proof.
  intros (W1 & W2 & W3 & W4 & W5 & W6 & W7 & W8 & W9 & W10 & W11).
  exists (enc_item (mkItem (it_idlen it) (it_off it) (it_len it) (it_prev it) (it_flags it) (it_dataid it) (it_ts it) (it_crc it) (it_pid it) (it_poff it) [])).
  split; [|split].
  - unfold enc_item. cbn [it_idlen it_off it_len it_prev it_flags it_dataid it_ts it_crc it_pid it_poff it_id]. rewrite <- !app_assoc. reflexivity.
  - rewrite blen_enc_item. reflexivity.
  - unfold dec_item, enc_item. cbn [it_idlen it_off it_len it_prev it_flags it_dataid it_ts it_crc it_pid it_poff it_id].
    rewrite !rd_le, !unle_le1, !unle_le4. rewrite !u32_small, !u8_small by lia. reflexivity.
Qed.

(* ---- several data files ---- *)

Lemma at_read_f ds f fd off r v : nget f ds = Some fd -> data_at ds f off r v -> fread fd off (18 + blen (dr_id r) + blen v) = enc_drec r ++ v.
Proof.
  intros G (pre & post & E & <-). rewrite G in E. assert (X : fd = pre ++ enc_drec r ++ v ++ post) by congruence. rewrite X. clear X E.
  unfold fread. rewrite nskip_app_exact' by reflexivity. rewrite (app_assoc (enc_drec r) v post). apply nfirst_app_exact'. rewrite blen_app, blen_enc_drec. lia.
Qed.

(* the item is one of a key which was new in a later file *)
Definition lost (x : loc) : Prop := l_f x <> 0 /\ it_dataid (l_it x) = 0.

Lemma squeezed1_len p q row : blen (squeezed1 p row) = blen (squeezed1 q row).
Proof.
  destruct row as [b [k [v t]]]. unfold squeezed1. destruct (b && (0 <? blen v)); unfold rec_bytes, emptied_bytes; rewrite !blen_app, !blen_le; reflexivity.
Qed.
Lemma last_at_prev p q o row rows : last_at p o (row :: rows) = last_at q o (row :: rows).
Proof. cbn [last_at]. now rewrite (squeezed1_len p q). Qed.
Lemma squeezed_files_u32 fs : forall f p, squeezed_files f (u32 p) fs = squeezed_files f p fs.
Proof.
  induction fs as [|rows fs IH]; intros f p; cbn [squeezed_files]; [reflexivity|]. rewrite squeezed_u32. f_equal.
  destruct rows as [|row rows]; [apply IH|]. now rewrite (last_at_prev (u32 p) p).
Qed.

Lemma u32_twice x : u32 (u32 x) = u32 x.
Proof. unfold u32. apply N.mod_mod. discriminate. Qed.

Lemma pass_f ds ddir f fd l : nget f ds = Some fd -> (forall i, dget (legacy_data_name i) ddir = None) ->
  forall pre off fuel H doff prev oi od, (length l < fuel)%nat ->
  Forall loc_wf (place f off l) -> Forall dataid_ok (place f off l) -> Forall2 (ver_ok ds) (place f off l) H ->
  (quick_pass fuel ddir f (pre ++ enc_items l) fd (blen pre) doff prev oi od = QExit /\ Exists lost (place f off l)) \/
  (Forall (fun x => ~ lost x) (place f off l) /\
   exists oi' prev', quick_pass fuel ddir f (pre ++ enc_items l) fd (blen pre) doff prev oi od =
    QDone (prev', oi', od ++ squeezed prev (blen od) (marked (place f off l) H)) /\
    u32 prev' = u32 (last_at prev (blen od) (marked (place f off l) H))).
Proof.
  intros Gf No. induction l as [|it l IH]; intros pre off fuel H doff prev oi od Hf W D V; (destruct fuel as [|fuel]; [cbn in Hf; lia|]); cbn [place] in *.
  - right. split; [constructor|]. inversion V; subst. exists oi, prev. cbn [quick_pass marked squeezed last_at].
    change (enc_items []) with (@nil byte). rewrite fread_eof by (rewrite app_nil_r; lia). cbn [blen N.eqb negb]. rewrite app_nil_r. auto.
  - inversion V as [|x v G H' X V' E1 E2]; subst. clear V. inversion W as [|y G0 Wy W' E1]; subst. clear W.
    inversion D as [|y G0 Dy D' E1]; subst. clear D.
    destruct Wy as (Wi & _ & _). cbn [l_it l_id l_off fst snd] in *.
    destruct X as (X1 & X2 & X3 & X4 & r & R1 & R2 & R3 & R4 & R5 & R6 & R7).
    pose proof Wi as (I1 & I2 & _).
    rewrite enc_items_cons. cbn [quick_pass].
    assert (A1 : fread (pre ++ enc_item it ++ enc_items l) (blen pre) 34 = nfirst 34 (enc_item it)).
    { unfold fread. rewrite nskip_app_exact' by reflexivity. rewrite nfirst_app_le; [reflexivity|]. rewrite blen_enc_item. lia. }
    rewrite A1.
    destruct (item_parts it Wi) as (h & Eh & Lh & Dh).
    assert (A2 : nfirst 34 (enc_item it) = h) by (rewrite Eh; now apply nfirst_app_exact').
    rewrite A2, Lh, N.eqb_refl. cbn [negb]. rewrite Dh. cbn [it_idlen it_off it_len it_prev it_flags it_dataid it_ts it_crc it_pid it_poff it_id].
    assert (A3 : fread (pre ++ enc_item it ++ enc_items l) (blen pre + 34) (it_idlen it) = it_id it).
    { rewrite Eh. rewrite <- (app_assoc h), (app_assoc pre h). replace (blen pre + 34) with (blen (pre ++ h)) by (rewrite blen_app; lia).
      unfold fread. rewrite nskip_app_exact' by reflexivity. now apply nfirst_app_exact'. }
    rewrite A3, I1, N.eqb_refl. cbn [negb].
    change (l_id (f, off, it)) with (it_id it) in X1. change (l_it (f, off, it)) with it in *. change (l_f (f, off, it)) with f in *.
    destruct (N.eqb_spec (it_dataid it) f) as [Z|Z].
    2:{ rewrite No. left. split; [reflexivity|]. apply Exists_cons_hd. destruct Dy as [Q|Q]; [|contradiction]. split; [change (f <> 0); change (it_dataid it = 0) in Q; lia|exact Q]. }
    assert (Nl : ~ lost (f, off, it)) by (intros (Q1 & Q2); change (f <> 0) in Q1; change (it_dataid it = 0) in Q2; lia).
    assert (A4 : fread fd (it_off it) (18 + blen (it_id it) + it_len it) = enc_drec r ++ fst (snd v)).
    { rewrite X1, X2, <- R2. exact (at_read_f ds f fd _ r _ Gf R7). }
    rewrite A4. rewrite blen_app, blen_enc_drec, R2, X1, X2, N.eqb_refl. cbn [negb].
    pose proof (squeeze_one prev (f, off, it) v r X1 I1 X2 R1 R2 R3 R4 R5 R6) as Q. cbn zeta in Q.
    change (l_it (f, off, it)) with it in Q. rewrite I1, X1, X2 in Q. rewrite Q.
    replace (pre ++ enc_item it ++ enc_items l) with ((pre ++ enc_item it) ++ enc_items l) by now rewrite <- app_assoc.
    replace (blen pre + 34 + blen (fst v)) with (blen (pre ++ enc_item it)) by (rewrite blen_app, blen_enc_item, X1; lia).
    match goal with |- context [quick_pass fuel ddir f _ fd _ ?a ?b ?c ?d] =>
      destruct (IH (pre ++ enc_item it) (off + itsz it) fuel H' a b c d) as [(E & Ex)|(Al & oi' & prev' & E & Ep)]; [cbn in Hf; lia|exact W'|exact D'|exact V'| |] end.
    + left. split; [exact E|]. now apply Exists_cons_tl.
    + right. split; [now constructor|]. rewrite E. exists oi', prev'. cbn [marked squeezed last_at]. cbn zeta. split.
      * rewrite squeezed_u32, <- app_assoc, blen_app. reflexivity.
      * rewrite Ep, blen_app. destruct (marked (place f (off + itsz it) l) H') as [|row rows]; [cbn [last_at]; apply u32_twice|].
        now rewrite (last_at_prev (u32 (blen od)) (blen od)).
Qed.

Lemma enc_ifs_inj a : forall b f, Forall (Forall item_wf) a -> Forall (Forall item_wf) b -> enc_ifs MODE_KV f a = enc_ifs MODE_KV f b -> a = b.
Proof.
  induction a as [|x a IH]; intros [|y b] f Wa Wb E; cbn [enc_ifs] in E; try discriminate; [reflexivity|].
  inversion Wa; subst. inversion Wb; subst. pose proof (f_equal (hd []) E) as E1. pose proof (f_equal (@tl _) E) as E2. cbn [hd tl] in E1, E2.
  unfold enc_if in E1. apply app_inv_head in E1.
  f_equal; [now apply enc_items_inj|]. eapply IH; eauto.
Qed.

Lemma flat_nget_place gi : forall f x, In x (flat f gi) -> f <= l_f x /\ l_f x < f + nlen gi.
Proof.
  induction gi as [|l gi IH]; intros f x I; cbn [flat nlen] in *; [contradiction|]. apply in_app_or in I. destruct I as [I|I].
  - assert (E : l_f x = f); [|lia]. clear IH. revert I. generalize 29. induction l as [|it l IH]; intros off I; cbn [place] in I; [contradiction|].
    destruct I as [<-|I]; [reflexivity|eauto].
  - specialize (IH _ _ I). lia.
Qed.

Lemma files_f ds idir ddir : (forall i, dget (legacy_data_name i) ddir = None) -> (forall i, dget (data_name i) ddir = nget i ds) -> dhdr_ok ds ->
  forall gi f fuel H prev oi od, (length gi < fuel)%nat ->
  (forall k, dget (index_name (f + k)) idir = nget k (enc_ifs MODE_KV f gi)) ->
  f + nlen gi = nlen ds ->
  Forall loc_wf (flat f gi) -> Forall dataid_ok (flat f gi) -> Forall2 (ver_ok ds) (flat f gi) H ->
  (quick_files fuel idir ddir f prev oi od = QExit /\ Exists lost (flat f gi)) \/
  (Forall (fun x => ~ lost x) (flat f gi) /\
   exists idx files, quick_files fuel idir ddir f prev oi od = QDone (oi ++ named legacy_index_name f idx, od ++ squeezed_files f prev files) /\
     nlen idx = nlen gi /\ nlen files = nlen gi /\ concat files = marked (flat f gi) H).
Proof.
  intros No Dn Dh. induction gi as [|l gi IH]; intros f fuel H prev oi od Hf In Nd W D V; (destruct fuel as [|fuel]; [cbn in Hf; lia|]); cbn [quick_files].
  - right. split; [constructor|]. pose proof (In 0) as I0. rewrite N.add_0_r in I0. rewrite I0. cbn [enc_ifs nget].
    exists [], []. cbn [squeezed_files concat flat nlen named]. rewrite !app_nil_r. inversion V; subst. auto.
  - pose proof (In 0) as I0. rewrite N.add_0_r in I0. rewrite I0, Dn. cbn [enc_ifs nget flat nlen] in *. clear I0.
    destruct (nget_Some f ds) as (fd & Gd); [lia|]. rewrite Gd.
    destruct (Dh f fd Gd) as (rest & Efd). change (data_header f) with (file_header f) in Efd.
    apply Forall_app in W. destruct W as [W1 W2]. apply Forall_app in D. destruct D as [D1 D2].
    apply Forall2_app_inv_l in V. destruct V as (H1 & H2 & V1 & V2 & EH). subst H.
    assert (HV : data_file_valid fd = true) by (rewrite Efd; apply header_valid). rewrite HV.
    assert (HI : fread (enc_if MODE_KV f l) 0 29 = index_header f MODE_KV).
    { unfold fread, enc_if. rewrite nskip_0. apply nfirst_app_exact'. apply (blen_index_header f MODE_KV). }
    assert (HD : fread fd 0 28 = file_header f).
    { rewrite Efd. unfold fread. rewrite nskip_0. apply nfirst_app_exact'. reflexivity. }
    change (0 =? 0) with true. cbv iota. rewrite HI, HD, blen_index_header. cbn [N.eqb Pos.eqb negb].
    assert (L : (length l < S (length (enc_if MODE_KV f l)))%nat).
    { unfold enc_if. rewrite app_length. assert (L : (length l <= length (enc_items l))%nat).
      { clear. induction l as [|it l IH]; cbn [length]; [lia|]. rewrite enc_items_cons, app_length. pose proof (blen_enc_item it) as B. rewrite blen_length in B. lia. }
      lia. }
    pose proof (pass_f ds ddir f fd l Gd No (index_header f MODE_KV) 29 (S (length (enc_if MODE_KV f l))) H1 28 prev (index_header f MODE_KV) (file_header f) L W1 D1 V1) as P.
    rewrite blen_index_header in P. fold (enc_if MODE_KV f l) in P. change (blen (file_header f)) with 28 in P.
    destruct P as [(E & Ex)|(Al & oi' & prev' & E & Ep)]; rewrite E.
    + left. split; [reflexivity|]. apply Exists_app. now left.
    + assert (In' : forall k, dget (index_name (f + 1 + k)) idir = nget k (enc_ifs MODE_KV (f + 1) gi)).
      { intros k. replace (f + 1 + k) with (f + N.succ k) by lia. rewrite In. destruct (N.eqb_spec (N.succ k) 0) as [Q|_]; [lia|]. now rewrite N.pred_succ. }
      destruct (IH (f + 1) fuel H2 prev' (oi ++ [(legacy_index_name f, oi')]) (od ++ [(legacy_data_name f, file_header f ++ squeezed prev 28 (marked (place f 29 l) H1))]))
        as [(E' & Ex)|(Al' & idx & files & E' & Ni & Nf & Cf)]; auto; [cbn in Hf; lia|lia| |].
      * left. split; [exact E'|]. apply Exists_app. now right.
      * right. split; [apply Forall_app; now split|]. exists (oi' :: idx), (marked (place f 29 l) H1 :: files).
        cbn [squeezed_files concat nlen named]. split; [|split; [lia|split; [lia|]]].
        -- refine (eq_trans E' _). rewrite <- !app_assoc. cbn [app]. do 4 f_equal. rewrite <- (squeezed_files_u32 _ _ prev'), Ep. apply squeezed_files_u32.
        -- rewrite Cf. clear - V1. induction V1; cbn [marked app]; [reflexivity|]. now rewrite IHV1.
Qed.

(* ---- why the tool exits ---- *)

Definition same_wf a : Forall loc_wf (flat 0 a) -> Forall (Forall item_wf) a := wf_items loc_wf a (fun x P => proj1 P) 0.

Lemma uinv_same n m s gi H gi' H' : UInv n s gi H -> UInv m s gi' H' -> gi = gi'.
Proof.
  intros U U'. pose proof (ui_f _ _ _ _ U) as F. pose proof (ui_f _ _ _ _ U') as F'.
  apply (enc_ifs_inj gi gi' 0); [apply same_wf, (fi_wf _ _ _ _ F)|apply same_wf, (fi_wf _ _ _ _ F')|].
  rewrite <- (fi_files _ _ _ _ F). apply (fi_files _ _ _ _ F').
Qed.

Lemma del_none p now c m k t : kget k m = None -> kget k (snd (kv_step p now c (QDel k t) m)) = None.
Proof.
  intros K. cbn [kv_step]. unfold kv_del. rewrite K.
  repeat match goal with |- context [match ?b with _ => _ end] => destruct b; try (exact K) end.
Qed.

Lemma lost_flag x : lost (mflag x) -> lost x.
Proof. destruct x as [[f o] it]. exact (fun X => X). Qed.

Lemma moved_lost n s gi H n' s' gi' H' w : UInv n s gi H -> UInv n' s' gi' H' -> gmoved w (flat 0 gi) H (flat 0 gi') H' ->
  Exists lost (flat 0 gi') -> ~ Exists lost (flat 0 gi) ->
  exists k, w = Some k /\ kget k (livem (flat 0 gi) H) = None /\ kget k (livem (flat 0 gi') H') <> None /\ 1 < nlen gi'.
Proof.
  intros U U' M Ex No. pose proof (ui_f _ _ _ _ U) as F. pose proof (ui_f _ _ _ _ U') as F'.
  assert (S1 : Forall2 same_id (flat 0 gi) H) by (eapply ver_same; apply U).
  assert (S2 : Forall2 same_id (flat 0 gi') H') by (eapply ver_same; apply U').
  assert (Mid : forall A x B C, A ++ x :: B = flat 0 gi -> (Exists lost (A ++ mflag x :: B ++ C) -> Exists lost C)).
  { intros A x B C E X. apply Exists_app in X. destruct X as [X|X]; [exfalso; apply No; rewrite <- E; apply Exists_app; now left|].
    apply Exists_cons in X. destruct X as [X|X]; [exfalso; apply No; rewrite <- E; apply Exists_app; right; apply Exists_cons_hd; now apply lost_flag|].
    apply Exists_app in X. destruct X as [X|X]; [|exact X]. exfalso; apply No; rewrite <- E; apply Exists_app; right. now apply Exists_cons_tl. }
  pose proof (move_cases _ _ _ _ _ S1 (fi_last _ _ _ _ F) S2 (fi_last _ _ _ _ F') M) as MC.
  destruct M as [[E _]|(k & -> & M)]; [rewrite E in Ex; contradiction|].
  destruct (gmove_inv _ _ _ _ _ M) as [(A & x & B & Lx & Kx & EA & EC & ED)|[(y & v & Ly & Ky & Kv & Fr & P1 & P2 & P3 & EC & ED)|
    (A & x & B & y & v & Lx & Kx & Ly & Ky & Kv & P1 & P2 & P3 & Df & EA & EC & ED)]].
  - exfalso. rewrite <- EC in Ex. specialize (Mid A x B [] EA). rewrite app_nil_r in Mid. specialize (Mid Ex). inversion Mid.
  - exists k. split; [reflexivity|].
    assert (K : kget k (livem (flat 0 gi) H) = None).
    { apply kget_none. rewrite livem_keys by auto. intros I. apply in_map_iff in I. destruct I as (z & Kz & I). apply filter_In in I.
      rewrite Forall_forall in Fr. apply (Fr z); tauto. }
    split; [exact K|]. split.
    + destruct MC as [[E _]|(k' & [= <-] & [(_ & X & _)|(v' & _ & X & _)])]; [|contradiction|congruence].
      exfalso. apply No. now rewrite <- E.
    + rewrite <- EC in Ex. apply Exists_app in Ex. destruct Ex as [Ex|Ex]; [contradiction|].
      assert (Ly' : lost y) by (apply Exists_cons in Ex; destruct Ex as [X|X]; [exact X|inversion X]).
      assert (I : In y (flat 0 gi')) by (rewrite <- EC; apply in_or_app; right; now left).
      pose proof (flat_nget_place _ _ _ I). destruct Ly' as [Q _]. lia.
  - exfalso. rewrite <- EC in Ex. specialize (Mid A x B [y] EA Ex). apply Exists_cons in Mid.
    destruct Mid as [(Q1 & Q2)|X]; [congruence|inversion X].
Qed.

Lemma run_lost g n c0 es : forall o c s gi H, reached g n c0 es o c s -> UInv n s gi H -> Exists lost (flat 0 gi) -> new_later g n c0 es.
Proof.
  induction es as [|e es IH] using rev_ind; intros o c s gi H R U Ex.
  - exfalso. destruct R as (Hg & _ & s0 & C & _ & R). cbn [run_events] in R. injection R as <- <- <-.
    pose proof (uinv_same _ _ _ _ _ _ _ U (created_inv _ _ _ Hg C)) as ->. inversion Ex.
  - pose proof R as (Hg & W & s0 & C & FF & RR). pose proof W as W0. apply Forall_app in W0. destruct W0 as [W1 W2].
    destruct (reached_total g n c0 es s0 Hg W1 C (files_fit_left _ _ _ _ FF)) as (o1 & c1 & s1 & R1 & RR1).
    destruct (reached_inv _ _ _ _ _ _ _ R1) as (_ & Ec & gi1 & H1 & U1 & K1 & FL1).
    assert (We : event_wf e) by (now inversion W2).
    destruct (event_moved g n e c1 s1 gi1 H1 Hg We U1 FL1) as (o2 & c2 & s2 & gi2 & H2 & E2 & U2 & M & E4).
    assert (RR2 : run_events g (es ++ [e]) (c0, s0) = Some (o1 ++ o2 ++ [], (c2, s2))).
    { eapply run_events_app; [exact RR1|]. cbn [run_events]. rewrite E2. reflexivity. }
    rewrite RR2 in RR. injection RR as <- <- <-.
    pose proof (uinv_same _ _ _ _ _ _ _ U U2) as <-.
    destruct (Exists_dec lost (flat 0 gi1)) as [X|X].
    { intros x. unfold lost. destruct (N.eq_dec (l_f x) 0) as [Q|Q]; [right; tauto|]. destruct (N.eq_dec (it_dataid (l_it x)) 0); [left; tauto|right; tauto]. }
    + destruct (IH _ _ _ _ _ R1 U1 X) as (es1 & p & now & k & v & t & es2 & o3 & c3 & s3 & -> & Y).
      exists es1, p, now, k, v, t, (es2 ++ [e]), o3, c3, s3. split; [now rewrite <- app_assoc|exact Y].
    + destruct (moved_lost _ _ _ _ _ _ _ _ _ U1 U2 M Ex X) as (k & Ew & Ka & Kb & Nf).
      assert (K2 : kv_of c0 (es ++ [e]) = livem (flat 0 gi) H2).
      { unfold kv_of. rewrite kv_run_app. cbn [snd kv_run]. unfold kv_of in K1. rewrite K1, Ec in E4.
        destruct (kv_run es (c0, [])) as [o9 [c9 m9]]. cbn [fst snd] in *. destruct (kv_event e (c9, m9)) as [o8 st8]. cbn [snd] in *. now subst st8. }
      destruct e as [p now q|c9|]; [|discriminate|discriminate]. destruct q; try discriminate; cbn [ekey] in Ew; injection Ew as ->.
      * match goal with |- new_later _ _ _ (_ ++ [EReq p now (QSet k ?v ?t)]) => exists es, p, now, k, v, t, [], (o1 ++ o2 ++ []), c2, s2 end.
        split; [reflexivity|]. split; [now rewrite <- K1|]. split; [now rewrite K2|]. split; [exact R|].
        now rewrite (ui_dn _ _ _ _ U2).
      * exfalso. apply Kb. cbn [kv_event] in E4. pose proof (del_none p now c1 (livem (flat 0 gi1) H1) k) as Dn.
        match goal with |- _ => specialize (Dn ts Ka) || (match type of E4 with context [QDel k ?t] => specialize (Dn t Ka) end) end.
        destruct (kv_step p now c1 _ _) as [r m]. cbn [snd] in *. injection E4 as <-. now subst.
Qed.

Lemma quick_many g n c0 es o c s : reached g n c0 es o c s ->
  (quick_compact (server_index (dk_i (dk s))) (server_data (dk_d (dk s))) = QExit /\ 1 < nlen (dk_d (dk s)) /\ new_later g n c0 es) \/
  (exists i files,
    quick_compact (server_index (dk_i (dk s))) (server_data (dk_d (dk s))) = QDone (named legacy_index_name 0 i, squeezed_files 0 0 files) /\
    nlen i = nlen (dk_i (dk s)) /\ nlen files = nlen (dk_d (dk s)) /\
    map snd (concat files) = values_of (written_by es o) /\ map snd (filter fst (concat files)) = kv_of c0 es).
Proof.
  intros R. destruct (reached_versions _ _ _ _ _ _ _ R) as (gi & H & U & _ & K & V).
  assert (D : Forall dataid_ok (flat 0 gi)).
  { pose proof R as (Hg & W & s0 & C & FF & RR).
    destruct (run_dataid g n es Hg W c0 s0 [[]] [] (created_inv _ _ _ Hg C) FF (Forall_nil _) _ _ _ RR) as (gi' & H' & U' & D' & _).
    now rewrite (uinv_same _ _ _ _ _ _ _ U U'). }
  pose proof (ui_f _ _ _ _ U) as F. pose proof (ui_dn _ _ _ _ U) as N2. pose proof (fi_ver _ _ _ _ F) as FV.
  destruct (files_f (dk_d (dk s)) (server_index (dk_i (dk s))) (server_data (dk_d (dk s)))) with (gi := gi) (f := 0) (fuel := S (length (server_index (dk_i (dk s)))))
    (H := H) (prev := 0) (oi := @nil (bytes * bytes)) (od := @nil (bytes * bytes)) as [(E & Ex)|(Al & idx & files & E & Ni & Nf & Cf)].
  - intros i. apply named_first. discriminate.
  - intros i. exact (named_get data_name _ data_name_inj 0 i).
  - exact (ui_dhdr _ _ _ _ U).
  - rewrite (fi_files _ _ _ _ F). unfold server_index. generalize 0. clear. induction gi as [|l gi IH]; intros f; cbn [enc_ifs named length]; [lia|].
    specialize (IH (f + 1)). lia.
  - intros k. rewrite (fi_files _ _ _ _ F). exact (named_get index_name _ index_name_inj 0 k).
  - lia.
  - exact (fi_wf _ _ _ _ F).
  - exact D.
  - exact FV.
  - left. split; [exact E|]. split; [|eapply run_lost; eauto].
    apply Exists_exists in Ex. destruct Ex as (x & I & Q & _). pose proof (flat_nget_place _ _ _ I). lia.
  - right. exists idx, files. split; [exact E|]. split; [rewrite (fi_files _ _ _ _ F), nlen_enc_ifs; exact Ni|]. split; [congruence|]. rewrite Cf. split.
    + rewrite marked_all by (eapply forall2_length; exact FV). exact V.
    + rewrite marked_live. exact K.
Qed.

Lemma quick_single g n c0 es o c s : reached g n c0 es o c s -> nlen (dk_d (dk s)) = 1 ->
  exists i rows,
    quick_compact (server_index (dk_i (dk s))) (server_data (dk_d (dk s))) =
      QDone ([(legacy_index_name 0, i)], [(legacy_data_name 0, file_header 0 ++ squeezed 0 28 rows)]) /\
    map snd rows = values_of (written_by es o) /\ map snd (filter fst rows) = kv_of c0 es.
Proof.
  intros R N1. destruct (quick_many _ _ _ _ _ _ _ R) as [(_ & Q & _)|(i & files & E & Ni & Nf & V & K)]; [lia|].
  assert (N2 : nlen (dk_i (dk s)) = 1).
  { destruct (reached_versions _ _ _ _ _ _ _ R) as (gi & H & U & _). rewrite (fi_files _ _ _ _ (ui_f _ _ _ _ U)), nlen_enc_ifs, <- (ui_dn _ _ _ _ U). exact N1. }
  destruct files as [|rows [|? ?]]; cbn [nlen] in Nf; try lia. destruct i as [|i [|? ?]]; cbn [nlen] in Ni; try lia.
  exists i, rows. cbn [squeezed_files concat named] in *. rewrite app_nil_r in *. auto.
Qed.
