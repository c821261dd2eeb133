(* DATA RAW at the place of a record of the log *)
From Coq Require Import Strings.String Strings.Byte List NArith ZArith Bool Lia ZifyBool ZifyN ZifyNat.
From Verif Require Import Bytes BytesFacts Crc32 Crc32Facts Layout LayoutFacts Store DataFacts CheckFacts Text TextFacts Sha1 Commands System SpecKV Machine Reach
  SeqReach SeqRun UserReq CrashModel SpecFiles FileFacts DataLog.
Import ListNotations.
Open Scope N_scope.
Ltac Zify.zify_post_hook ::= Z.div_mod_to_equations.
Local Notation length := List.length.

Lemma hexdigit_eq n : n < 16 -> hexdigit n = hex_digit n.
Proof.
  intros H. assert (X : forall i, (i < 16)%nat -> hexdigit (N.of_nat i) = hex_digit (N.of_nat i)).
  { intros i Hi. do 16 (destruct i as [|i]; [reflexivity|]). lia. }
  rewrite <- (N2Nat.id n). apply X. lia.
Qed.

Lemma hex_byte x i : hex_digit (N.land (N.shiftr x (i + 4)) 15) = hexdigit (b2n (n2b (x / 2 ^ i)) / 16) /\
  hex_digit (N.land (N.shiftr x i) 15) = hexdigit (b2n (n2b (x / 2 ^ i)) mod 16).
Proof.
  rewrite b2n_n2b. change 15 with (N.ones 4). rewrite !N.land_ones, !N.shiftr_div_pow2, N.pow_add_r.
  rewrite <- N.div_div by (try apply N.pow_nonzero; lia). generalize (x / 2 ^ i). intros y.
  change (2 ^ 4) with 16. unfold u8. rewrite !hexdigit_eq by lia. split; f_equal; lia.
Qed.

Lemma hex8_word n : hex8 n = hex_word n.
Proof.
  unfold hex8, hex_word, be4. f_equal. cbn [le rev app flat_map hexstr map].
  change 28 with (24 + 4). change 20 with (16 + 4). change 12 with (8 + 4). change 4 with (0 + 4) at 4.
  destruct (hex_byte n 24) as [-> ->]. destruct (hex_byte n 16) as [-> ->]. destruct (hex_byte n 8) as [-> ->].
  destruct (hex_byte n 0) as [-> ->].
  rewrite !N.div_div by lia. change (2 ^ 24) with (256 * 256 * 256). change (2 ^ 16) with (256 * 256). change (2 ^ 8) with 256.
  change (2 ^ 0) with 1. rewrite N.div_1_r. reflexivity.
Qed.

Lemma ask_eq s f off : f < 4294967296 -> off < 9223372036854775808 ->
  ask_raw s f off = Some (match data_raw_get (dk s) f off with
      | None => hardsend "-Invalid Request"
      | Some RawEof => hardsend "-EOF"
      | Some RawUnexpected => hardsend "-Unexpected Internal Error"
      | Some (RawOk h payload) =>
          if dr_datalen h =? 0 then hardsend "-Invalid Request"
          else str "*6" ++ CRLF ++ bulk (dr_id h) ++ intreply (dr_prev h) ++ bulk (hex8 (dr_crc h))
               ++ intreply (dr_flags h) ++ intreply (dr_ts h) ++ bulk payload
      end).
Proof.
  intros Hf Ho. unfold ask_raw, command_data.
  assert (Z : forall n, (blen (dec n) =? 0) = false).
  { intros n. apply N.eqb_neq. rewrite blen_length. pose proof (dec_nonempty n). destruct (dec n); [congruence|]. cbn [List.length]. lia. }
  assert (V : forall m, m <= 4 -> args_validate_min [str "DATA"; str "RAW"; dec f; dec off] m = None).
  { intros m Hm. unfold args_validate_min, argc. cbn [nlen]. destruct (N.ltb_spec (N.succ (N.succ (N.succ (N.succ 0)))) m); [lia|].
    cbn [existsb]. rewrite !Z. reflexivity. }
  rewrite V by lia. change (admin_authorized (mkPerm true true)) with (@None bytes). cbn iota.
  change (args_overflow [str "DATA"; str "RAW"; dec f; dec off] 1 COMMAND_MAXLEN) with (@None bytes). cbn iota.
  change (sprint_max (arg 1 [str "DATA"; str "RAW"; dec f; dec off])) with (Some (str "RAW")). cbn iota.
  change (case_eq (str "RAW") (str "RAW")) with true. cbn iota. f_equal.
  unfold command_data_raw. rewrite V by lia. cbn zeta.
  change (arg 2 [str "DATA"; str "RAW"; dec f; dec off]) with (dec f).
  change (arg 3 [str "DATA"; str "RAW"; dec f; dec off]) with (dec off).
  rewrite !atoll_dec by lia. rewrite z_u32_of_N, N.mod_small by lia.
  destruct (Z.ltb_spec (Z.of_N off) 0); [lia|]. now rewrite N2Z.id.
Qed.

Lemma raw_at s fs l f l1 p w l2 : DL s fs l -> nlen (dk_d (dk s)) < 4294967296 ->
  nth_error (fs ++ [l]) f = Some (l1 ++ (p, w) :: l2) -> (w_gone w = true -> 28 + recs_size l1 < 2 ^ 63) ->
  ask_raw s (N.of_nat f) (28 + recs_size l1) =
     Some (if w_gone w then hardsend "-Unexpected Internal Error"
           else match w_value w with [] => hardsend "-Invalid Request" | _ => raw_reply p w end).
Proof.
  intros D Hn Hf Hg. destruct (nth_error_split _ _ Hf) as (g1 & g2 & E & L).
  pose proof (dl_d _ _ _ D) as Ed. rewrite E in Ed.
  assert (FN : N.of_nat f = nlen g1) by (rewrite nlen_length; lia).
  assert (W : wrote_wf w).
  { pose proof (dl_wf _ _ _ D) as X. rewrite E in X. apply Forall_app in X. destruct X as [_ X]. apply Forall_inv in X.
    apply Forall_app in X. destruct X as [_ X]. apply Forall_inv in X. exact X. }
  assert (Sm : w_gone w = false -> 28 + recs_size l1 <= 2147483648).
  { pose proof (dl_small _ _ _ D) as X. rewrite E in X. apply Forall_app in X. destruct X as [_ X]. apply Forall_inv in X.
    revert X. generalize 28. clear. induction l1 as [|[p1 w1] l1 IH]; intros o; cbn [app small recs_size].
    - intros [X _] G. specialize (X G). lia.
    - intros [_ X] G. specialize (IH _ X G). lia. }
  assert (Hlt : nlen g1 < 4294967296).
  { rewrite Ed, nlen_files_bytes, nlen_app in Hn. cbn [nlen] in Hn. unfold row in *. lia. }
  assert (Off : 28 + recs_size l1 < 9223372036854775808).
  { destruct (w_gone w) eqn:GW; [now apply Hg|]. specialize (Sm eq_refl). lia. }
  rewrite FN, ask_eq by assumption. f_equal.
  unfold data_raw_get, dfile. rewrite Ed, nget_files.
  rewrite recs_app. cbn [recs_bytes]. rewrite rec_enc, <- !app_assoc, app_assoc.
  unfold row in *. set (pre := file_header (nlen g1) ++ recs_bytes l1).
  assert (Lp : blen pre = 28 + recs_size l1).
  { unfold pre. rewrite blen_app, blen_recs, header_eq, blen_data_header. reflexivity. }
  rewrite <- Lp. unfold data_raw_get_real.
  pose proof (w_drec_wf p w W) as WD. pose proof (blen_enc_drec (w_drec p w)) as BE.
  change (dr_id (w_drec p w)) with (w_key w) in BE.
  destruct (N.leb_spec (blen (pre ++ enc_drec (w_drec p w) ++ w_value w ++ recs_bytes l2)) (blen pre)) as [X|_]; [rewrite !blen_app in X; lia|].
  cbn zeta. rewrite fread_blen, !blen_app, BE.
  replace (N.min 18 _) with 18 by lia. change (18 =? 18) with true. cbn [negb].
  rewrite (dr_of_stored pre (w_drec p w) (w_value w) (recs_bytes l2) WD).
  cbn [dr_idlen dr_datalen dr_prev dr_crc dr_flags dr_ts dr_id w_drec]. destruct W as (W1 & W2 & W3 & W4).
  destruct (N.ltb_spec ZDB_DATA_MAX_PAYLOAD (blen (w_value w))) as [X|_]; [unfold ZDB_DATA_MAX_PAYLOAD in X; lia|].
  set (hd := le 1 (blen (w_key w)) ++ le 4 (blen (w_value w)) ++ le 4 (u32 p) ++ le 4 (w_crc w) ++ le 1 (w_flags w) ++ le 4 (w_ts w)).
  assert (EH : enc_drec (w_drec p w) = hd ++ w_key w).
  { unfold enc_drec, hd, w_drec. cbn [dr_idlen dr_datalen dr_prev dr_crc dr_flags dr_ts dr_id]. now rewrite <- !app_assoc. }
  assert (LH : blen hd = 18) by (unfold hd; rewrite !blen_app, !blen_le; reflexivity).
  rewrite EH.
  assert (ID : fread (pre ++ (hd ++ w_key w) ++ w_value w ++ recs_bytes l2) (blen pre + 18) (blen (w_key w)) = w_key w).
  { rewrite <- LH, <- blen_app, <- app_assoc, app_assoc. now apply fread_app. }
  assert (PL : fread (pre ++ (hd ++ w_key w) ++ w_value w ++ recs_bytes l2) (blen pre + 18 + blen (w_key w)) (blen (w_value w)) = w_value w).
  { rewrite <- LH, <- !blen_app, !app_assoc, <- app_assoc. now apply fread_app. }
  rewrite ID, PL, !N.eqb_refl. cbn [negb].
  unfold w_flags, w_crc. destruct (w_gone w); [reflexivity|].
  change (negb (N.land 0 DATA_ENTRY_DELETED =? 0)) with false. cbn iota.
  cbn [dr_idlen dr_datalen dr_prev dr_crc dr_flags dr_ts dr_id].
  unfold raw_reply. rewrite hex8_word. change (u32 p) with (p mod 2 ^ 32).
  destruct (w_value w) as [|b v] eqn:EV; [reflexivity|].
  destruct (N.eqb_spec (blen (b :: v)) 0) as [X|_]; [rewrite blen_length in X; cbn [List.length] in X; lia|].
  reflexivity.
Qed.

Lemma raw_eof s fs l f rows off : DL s fs l -> nlen (dk_d (dk s)) < 4294967296 ->
  nth_error (fs ++ [l]) f = Some rows -> 28 + recs_size rows <= off -> off < 2 ^ 63 ->
  ask_raw s (N.of_nat f) off = Some (hardsend "-EOF").
Proof.
  intros D Hn Hf Ho Hlt. destruct (nth_error_split _ _ Hf) as (g1 & g2 & E & L).
  pose proof (dl_d _ _ _ D) as Ed. rewrite E in Ed.
  assert (FN : N.of_nat f = nlen g1) by (rewrite nlen_length; lia).
  rewrite Ed, nlen_files_bytes, nlen_app in Hn. cbn [nlen] in Hn. unfold row in *.
  rewrite FN, ask_eq by (try lia; exact Hlt). f_equal.
  unfold data_raw_get, dfile. rewrite Ed, nget_files. unfold data_raw_get_real.
  rewrite blen_app, blen_recs, header_eq, blen_data_header.
  destruct (N.leb_spec (28 + recs_size rows) off); [reflexivity|lia].
Qed.

Lemma kv_raw g n c0 es o c s : reached g n c0 es o c s ->
  exists files, log_of (dk_d (dk s)) files (written_by es o) /\ raw_answers s files.
Proof.
  intros R. destruct (log_reached _ _ _ _ _ _ _ R) as (gi & H & fs & l & U & _ & FL & D & <-).
  destruct (uinv_ready _ _ _ _ U FL) as (_ & _ & HN).
  exists (fs ++ [l]). split; [now apply dl_log|]. split.
  - intros f l1 p w l2. now apply raw_at.
  - intros f rows off. now apply raw_eof.
Qed.

Lemma slog_files g n c0 es o c s : sreached g n c0 es o c s -> nlen (dk_i (dk s)) < 2 ^ 32 -> nlen (dk_d (dk s)) < 4294967296.
Proof.
  intros R F. destruct (sreached_inv _ _ _ _ _ _ _ R) as (r & gi & H & (m & U & _) & _).
  destruct (sinv_ready _ _ _ _ _ U F) as (_ & _ & HN). exact HN.
Qed.

Lemma sq_raw g n c0 es o c s : sreached g n c0 (plain es) o c s -> nlen (dk_i (dk s)) < 2 ^ 32 ->
  exists files, log_of (dk_d (dk s)) files (written_by es o) /\ raw_answers s files.
Proof.
  intros R F. pose proof (slog_files _ _ _ _ _ _ _ R F) as HN.
  destruct (slog_reached _ _ _ _ _ _ _ R) as (fs & l & D & <-).
  exists (fs ++ [l]). split; [now apply dl_log|]. split.
  - intros f l1 p w l2. now apply raw_at.
  - intros f rows off. now apply raw_eof.
Qed.

(* the same for any record, in any life of the namespace *)
Lemma raw_of_file s f pre p w post : nget f (dk_d (dk s)) = Some (pre ++ enc_drec (w_drec p w) ++ w_value w ++ post) ->
  wrote_wf w -> w_gone w = false -> w_value w <> [] -> f < 2 ^ 32 -> blen pre < 2 ^ 63 ->
  ask_raw s f (blen pre) = Some (raw_reply p w).
Proof.
  intros Hf W G NE F O. rewrite ask_eq by assumption. f_equal.
  unfold data_raw_get, dfile. rewrite Hf. unfold data_raw_get_real.
  pose proof (w_drec_wf p w W) as WD. pose proof (blen_enc_drec (w_drec p w)) as BE.
  change (dr_id (w_drec p w)) with (w_key w) in BE.
  destruct (N.leb_spec (blen (pre ++ enc_drec (w_drec p w) ++ w_value w ++ post)) (blen pre)) as [X|_]; [rewrite !blen_app in X; lia|].
  cbn zeta. rewrite fread_blen, !blen_app, BE.
  replace (N.min 18 _) with 18 by lia. change (18 =? 18) with true. cbn [negb].
  rewrite (dr_of_stored pre (w_drec p w) (w_value w) post WD).
  cbn [dr_idlen dr_datalen dr_prev dr_crc dr_flags dr_ts dr_id w_drec]. destruct W as (W1 & W2 & W3 & W4).
  destruct (N.ltb_spec ZDB_DATA_MAX_PAYLOAD (blen (w_value w))) as [X|_]; [unfold ZDB_DATA_MAX_PAYLOAD in X; lia|].
  set (hd := le 1 (blen (w_key w)) ++ le 4 (blen (w_value w)) ++ le 4 (u32 p) ++ le 4 (w_crc w) ++ le 1 (w_flags w) ++ le 4 (w_ts w)).
  assert (EH : enc_drec (w_drec p w) = hd ++ w_key w).
  { unfold enc_drec, hd, w_drec. cbn [dr_idlen dr_datalen dr_prev dr_crc dr_flags dr_ts dr_id]. now rewrite <- !app_assoc. }
  assert (LH : blen hd = 18) by (unfold hd; rewrite !blen_app, !blen_le; reflexivity).
  rewrite EH.
  assert (ID : fread (pre ++ (hd ++ w_key w) ++ w_value w ++ post) (blen pre + 18) (blen (w_key w)) = w_key w).
  { rewrite <- LH, <- blen_app, <- app_assoc, app_assoc. now apply fread_app. }
  assert (PL : fread (pre ++ (hd ++ w_key w) ++ w_value w ++ post) (blen pre + 18 + blen (w_key w)) (blen (w_value w)) = w_value w).
  { rewrite <- LH, <- !blen_app, !app_assoc, <- app_assoc. now apply fread_app. }
  rewrite ID, PL, !N.eqb_refl. cbn [negb].
  unfold w_flags, w_crc. rewrite G.
  change (negb (N.land 0 DATA_ENTRY_DELETED =? 0)) with false. cbn iota.
  cbn [dr_idlen dr_datalen dr_prev dr_crc dr_flags dr_ts dr_id].
  unfold raw_reply. rewrite hex8_word. change (u32 p) with (p mod 2 ^ 32).
  destruct (N.eqb_spec (blen (w_value w)) 0) as [X|_]; [|reflexivity].
  destruct (w_value w); [congruence|rewrite blen_length in X; cbn [List.length] in X; lia].
Qed.

Lemma try_end f b d d' file : try_write (WrD f (dsize d f) b) d = (true, d') -> nget f (dk_d d) = Some file ->
  nget f (dk_d d') = Some (file ++ b).
Proof.
  unfold try_write. intros E F. assert (X : dk_d d' = wrfile f (blen file) b (dk_d d)).
  { unfold dsize, dfile in E. rewrite F in E. destruct (dk_io d) as [|[|n] io]; try discriminate; injection E as <-; reflexivity. }
  rewrite X, wrfile_end by exact F. apply nget_nset_same. now apply nget_lt in F.
Qed.

Lemma insert_any s w off s1 : data_insert s (w_req w) = (off, s1) -> off <> 0 ->
  exists file, nget (d_dataid (dt s)) (dk_d (dk s)) = Some file /\ off = blen file /\
    nget (d_dataid (dt s)) (dk_d (dk s1)) = Some (file ++ enc_drec (w_drec (d_prev (dt s)) w) ++ w_value w).
Proof.
  unfold data_insert. cbn zeta. destruct (try_write (WrD _ (dsize (dk s) _) _) _) as [k1 d1] eqn:E1. destruct k1; [|intros X; injection X as <- _; congruence].
  destruct (try_write (WrD _ (dsize d1 _) _) _) as [k2 d2] eqn:E2. destruct k2; intros X NZ; injection X as <- <-; [|congruence].
  destruct (nget (d_dataid (dt s)) (dk_d (dk s))) as [file|] eqn:F.
  2:{ unfold dsize, dfile in NZ. rewrite F in NZ. congruence. }
  exists file. split; [reflexivity|]. split; [unfold dsize, dfile; now rewrite F|].
  pose proof (try_end _ _ _ _ _ E1 F) as F1. pose proof (try_end _ _ _ _ _ E2 F1) as F2.
  cbn [dk set_dt set_dk]. rewrite F2. rewrite <- app_assoc. cbn [q_data w_req].
  do 3 f_equal. unfold enc_drec, w_drec, w_req.
  cbn [dr_idlen dr_datalen dr_prev dr_crc dr_flags dr_ts dr_id q_data q_id q_crc q_flags q_ts]. now rewrite le4_u32.
Qed.

Definition stored_at (f off prev : N) (w : wrote) (s : est) : Prop :=
  exists pre post, off = blen pre /\ nget f (dk_d (dk s)) = Some (pre ++ enc_drec (w_drec prev w) ++ w_value w ++ post).

Lemma stored_grown f off prev w s s' : stored_at f off prev w s -> grown (dk_d (dk s)) (dk_d (dk s')) -> stored_at f off prev w s'.
Proof.
  intros (pre & post & O & F) G. rewrite nget_nth in F. destruct (G _ _ F) as (x & X). exists pre, (post ++ x).
  split; [exact O|]. rewrite nget_nth, X. now rewrite <- !app_assoc.
Qed.

Lemma write_any id v ts did ex s r s' :
  (let '(off, s1) := data_insert s (mkDreq v id 0 (zdb_crc32 v) ts) in
     if off =? 0 then (hardsend "-Cannot write data right now", s1)
     else match index_set s1 id (idxreq off (blen v) (zdb_crc32 v) (did s1) ts) ex with
          | (None, s2) => (hardsend "-Cannot write index right now", s2)
          | (Some _, s2) => (bulk id, s2)
          end) = (r, s') -> match r with x24 :: _ => True | _ => False end ->
  r = bulk id /\ exists f off prev, stored_at f off prev (mkWrote id v ts false) s'.
Proof.
  change (mkDreq v id 0 (zdb_crc32 v) ts) with (w_req (mkWrote id v ts false)).
  destruct (data_insert _ _) as [off s1] eqn:E. destruct (N.eqb_spec off 0) as [Z|Z].
  { intros X; injection X as <- _. easy. }
  destruct (index_set _ _ _ _) as [[x|] s2] eqn:E2; intros X; injection X as <- <-; [|easy]. intros _. split; [reflexivity|].
  destruct (insert_any _ _ _ _ E Z) as (file & F1 & F2 & F3).
  exists (d_dataid (dt s)), off, (d_prev (dt s)), file, []. split; [exact F2|]. rewrite app_nil_r.
  destruct (iop_set _ _ _ _ _ _ E2) as (_ & -> & _). exact F3.
Qed.

Lemma accepted_dollar k v ts r : accepted (QSet k v ts) r = true -> match r with x24 :: _ => True | _ => False end /\ r <> NIL.
Proof.
  unfold accepted. destruct r as [|b r]; [discriminate|]. destruct b; try discriminate. intros H. split; [exact I|].
  intros E. rewrite E in H. vm_compute in H. discriminate.
Qed.

Lemma set_any g p now k v ts c s r s' : run_req g p now (QSet k v ts) c s = (r, s') -> ots_ok ts -> accepted (QSet k v ts) r = true ->
  exists id, r = bulk id /\ blen id <= 255 /\ exists f off prev, stored_at f off prev (mkWrote id v (stamp ts now) false) s'.
Proof.
  intros E Hts HA. destruct (accepted_dollar _ _ _ _ HA) as [HD HN]. clear HA. cbn [run_req] in E. revert E.
  assert (A : forall i, arg i (argv_of (QSet k v ts)) =
     match i with 0 => str "SET" | 1 => k | 2 => v | 3 => match ts with Some t => dec t | None => [] end | _ => [] end%nat).
  { intros i. destruct ts, i as [|[|[|[|[|i]]]]]; try reflexivity; destruct i; reflexivity. }
  assert (ST : timestamp_from_set (argv_of (QSet k v ts)) 3 now = stamp ts now).
  { rewrite <- (stamp_set k v ts now (str "SET") Hts). destruct ts; reflexivity. }
  assert (NO : forall (x : bytes) (y : est), (x, y) = (r, s') -> match x with x24 :: _ => False | _ => True end -> False).
  { intros x y Q X. injection Q as <- <-. destruct x as [|b x]; [easy|]. destruct b; easy. }
  unfold command_set. rewrite !A.
  match goal with |- context [match ?o with Some _ => _ | None => _ end] => assert (OE : forall err, o = Some err -> match err with x24 :: _ => False | _ => True end) end.
  { intros err. unfold admin_authorized, args_validate_null, args_validate, real_args_validate.
    repeat match goal with |- context [if ?b then _ else _] => destruct b end; intros X; inversion X; exact I. }
  match type of OE with forall err, ?o = _ -> _ => destruct o as [err|] end; [intros Q; destruct (NO _ _ Q (OE _ eq_refl))|].
  destruct (MAX_KEY_LENGTH <? blen k) eqn:HK; [intros Q; destruct (NO _ _ Q I)|].
  destruct (negb (p_writable p)); [intros Q; destruct (NO _ _ Q I)|].
  destruct (is_frozen c); [intros Q; destruct (NO _ _ Q I)|]. destruct (is_locked c); [intros Q; destruct (NO _ _ Q I)|].
  cbn zeta. generalize (if blen k =? 0 then None else index_get s k). intros ex.
  destruct (match ex with Some _ => n_worm c | None => false end); [intros Q; destruct (NO _ _ Q I)|].
  destruct (negb (n_maxsize c =? 0) && _); [intros Q; destruct (NO _ _ Q I)|].
  set (s1 := if g_datasize g <? _ then _ else _). clearbody s1.
  change MAX_KEY_LENGTH with 255 in HK. apply N.ltb_ge in HK.
  assert (NQ : (NIL, s1) = (r, s') -> False) by (intros Q; injection Q as <- <-; congruence).
  assert (WR : forall id did, blen id <= 255 ->
    (let '(off, s2) := data_insert s1 (mkDreq v id 0 (zdb_crc32 v) (stamp ts now)) in
     if off =? 0 then (hardsend "-Cannot write data right now", s2)
     else match index_set s2 id (idxreq off (blen v) (zdb_crc32 v) (did s2) (stamp ts now)) ex with
          | (None, s3) => (hardsend "-Cannot write index right now", s3)
          | (Some _, s3) => (bulk id, s3)
          end) = (r, s') -> exists id, r = bulk id /\ blen id <= 255 /\ exists f off prev, stored_at f off prev (mkWrote id v (stamp ts now) false) s').
  { intros id did Hid Q. destruct (write_any _ _ _ _ _ _ _ _ Q HD) as [Q1 Q2]. exists id. auto. }
  destruct (N.eqb_spec (x_mode (ix s)) MODE_KV) as [MK|MK].
  - unfold set_handler_userkey. rewrite !A, ST. cbn zeta. destruct (N.eqb_spec (blen k) 0) as [K0|K0]; [intros Q; destruct (NO _ _ Q I)|].
    destruct (unchanged _ _ _); [intros Q; destruct (NQ Q)|]. now apply (WR k (fun _ => 0)).
  - unfold set_handler_sequential. rewrite !A, ST. destruct ex as [e|]; cbn zeta.
    + destruct (unchanged _ _ _); [intros Q; destruct (NQ Q)|]. apply (WR _ (fun s => d_dataid (dt s))).
      rewrite blen_app. rewrite (blen_length (nskip _ _)), nskip_skipn, skipn_length, le_length, blen_nfirst. lia.
    + destruct (N.eqb_spec (blen k) 0) as [K0|K0]; cbn [negb]; [|intros Q; destruct (NO _ _ Q I)].
      apply (WR _ (fun s => d_dataid (dt s))). rewrite blen_le. lia.
Qed.

Lemma raw_forever m n t s0 s1 g p now k v ts c r s2 :
  store_open m n t empty_disk = Some s0 -> life s0 s1 -> req_wf (QSet k v ts) ->
  run_req g p now (QSet k v ts) c s1 = (r, s2) -> accepted (QSet k v ts) r = true -> v <> [] ->
  exists id f off prev, r = bulk id /\
    forall s3, life s2 s3 -> f < 2 ^ 32 -> off < 2 ^ 63 -> ask_raw s3 f off = Some (raw_reply prev (mkWrote id v (stamp ts now) false)).
Proof.
  intros O L [Wv Wt] R HA NE. destruct (set_any _ _ _ _ _ _ _ _ _ _ R Wt HA) as (id & E & Hid & f & off & prev & S).
  exists id, f, off, prev. split; [exact E|]. intros s3 L3 Hf Ho.
  assert (L2 : life s1 s3). { apply (l_request g p now (QSet k v ts) c). rewrite R. exact L3. }
  assert (L02 : life s0 s2).
  { assert (T : forall a b c, life a b -> life b c -> life a c).
    { induction 1; intros Q; auto; [econstructor; eauto | eapply l_reload; eauto | eapply l_died; eauto | eapply l_outcomes; eauto]. }
    apply (T _ _ _ L). apply (l_request g p now (QSet k v ts) c). rewrite R. apply l_here. }
  apply (stored_grown _ _ _ _ _ s3) in S; [|exact (only_grow _ _ _ _ _ _ O L02 L3)].
  destruct S as (pre & post & -> & F). apply (raw_of_file _ _ _ _ _ post); auto.
  split; [cbn [w_key]; lia|]. split; [exact Wv|]. split; [apply stamp_lt|discriminate].
Qed.
