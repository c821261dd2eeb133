(* PROOFS for C66: the walks of the index end whatever the cursor. *)
From Coq Require Import Strings.String Strings.Byte List NArith ZArith Bool Lia ZifyBool ZifyN ZifyNat.
From Verif Require Import Bytes BytesFacts Layout LayoutFacts Store Text Commands SpecKV SpecSeq Ghost UserInv Machine Reach
  KvFacts CrashModel SeqReach SeqFacts SeqRun SeqMap SeqInv SeqSteps Scan SpecScan ScanFacts ScanRun ScanTop ScanTotal Crc32Facts SpecCursor.
Import ListNotations.
Open Scope N_scope.
Local Notation length := List.length.

(* an answer does not depend on the number of passes allowed *)
Lemma loop_more real d : forall fuel s r, scan_loop fuel real d s = Some r ->
  forall k, scan_loop (fuel + k) real d s = Some r.
Proof.
  induction fuel as [|fuel IH]; intros s r H k; [discriminate|]. cbn [scan_loop Nat.add] in *.
  destruct (ifile d (sc_fid s)) as [f|]; [|exact H]. destruct (sc_st (real f s)); auto.
Qed.

Lemma skipn_add {A} a b (l : list A) : skipn a (skipn b l) = skipn (b + a) l.
Proof. revert l. induction b as [|b IH]; intros l; [reflexivity|]. destruct l; [now rewrite !skipn_nil|]. apply IH. Qed.

Lemma some_of {A} (x : option A) : x <> None -> exists r, x = Some r.
Proof. destruct x as [a|]; [eauto|congruence]. Qed.

Lemma scan_any n argv c s : nlen (dk_i (dk s)) < 2 ^ 32 -> exists r, command_scan n argv c s = Some r.
Proof.
  intros L. apply some_of. apply body_total; [now apply first_total|]. intros f o. now apply next_total.
Qed.

Lemma rscan_any n argv c s : nlen (dk_i (dk s)) < 2 ^ 32 ->
  (forall f, In f (dk_i (dk s)) -> 63 <= blen f -> let p := unle (nfirst 4 (nskip (29 + 9) f)) in p = 0 \/ 29 <= p) ->
  exists r, command_rscan n argv c s = Some r.
Proof.
  intros L P. apply some_of. apply body_total; [now apply last_total|]. intros f o. apply previous_total; [exact L|].
  intros i b it E R. pose proof (read_head_in _ _ _ R) as B. unfold read_head in R.
  destruct (blen (fread b 29 34) =? 34) eqn:E34; [|discriminate]. injection R as <-.
  assert (I : In b (dk_i (dk s))).
  { unfold ifile in E. apply nget_split in E. destruct E as (g1 & g2 & -> & _). apply in_or_app. right. now left. }
  specialize (P b I ltac:(lia)). cbv zeta in P.
  enough (X : it_prev (dec_item (fread b 29 34)) = unle (nfirst 4 (nskip (29 + 9) b))) by now rewrite X.
  unfold dec_item, rd, fread. cbv beta iota zeta. cbn [it_prev]. rewrite !nfirst_firstn, !nskip_skipn. f_equal.
  change (N.to_nat 34) with 34%nat. change (N.to_nat 29) with 29%nat. change (N.to_nat 4) with 4%nat. change (N.to_nat (29 + 9)) with 38%nat.
  rewrite !skipn_firstn_comm, firstn_firstn, !skipn_add. reflexivity.
Qed.

Lemma rscan_user_any g n c0 es o c s k argv : reached g n c0 es o c s -> exists r, command_rscan k argv c s = Some r.
Proof.
  intros R. apply some_of. destruct (reached_inv _ _ _ _ _ _ _ R) as (_ & _ & gi & H & U & E & FL).
  pose proof (uinv_iok _ _ _ _ U FL) as I. eapply rscan_total; [exact I|apply U].
Qed.

Lemma rscan_seq_any g n c0 es o c s k argv : sreached g n c0 es o c s -> nlen (dk_i (dk s)) < 2 ^ 32 ->
  exists r, command_rscan k argv c s = Some r.
Proof.
  intros R FL. apply some_of. destruct (sreached_inv _ _ _ _ _ _ _ R) as (_ & gi & H & (m & U & _) & _).
  pose proof (sinv_iok _ _ _ _ _ U FL) as I. eapply rscan_total; [exact I|apply U].
Qed.

(* a walk which comes back to where it was *)
Lemma loop_never real d s f : ifile d (sc_fid s) = Some f -> real f s = s -> sc_st s = SDeleted ->
  forall fuel, scan_loop fuel real d s = None.
Proof.
  intros F R S. induction fuel as [|fuel IH]; [reflexivity|]. cbn [scan_loop]. rewrite F, R, S. exact IH.
Qed.

Lemma loop_falls real d s0 s f : ifile d (sc_fid s0) = Some f -> real f s0 = s ->
  sc_st s = SDeleted -> (forall fuel, scan_loop fuel real d s = None) ->
  forall fuel, scan_loop fuel real d s0 = None.
Proof.
  intros F R S N [|fuel]; [reflexivity|]. cbn [scan_loop]. rewrite F, R, S. apply N.
Qed.

(* ---- the check of a cursor ---- *)
Lemma part_len a n (b : bytes) : (a + n <= length b)%nat -> length (part a n b) = n.
Proof. intros H. unfold part. rewrite firstn_length, skipn_length. lia. Qed.

Lemma skip_first {A} a n (l : list A) : skipn a (firstn n l) = firstn (n - a) (skipn a l).
Proof. apply skipn_firstn_comm. Qed.

Lemma bkey_parts cur : dec_bkey cur =
  mkBkey (unle (part 0 1 cur)) (unle (part 1 4 cur)) (unle (part 5 4 cur)) (unle (part 9 4 cur)) (unle (part 13 4 cur)).
Proof. unfold dec_bkey, rd, part. cbv beta iota zeta. rewrite !skipn_add. reflexivity. Qed.

Lemma item_parts f o l : (34 <= l)%nat ->
  it_len (dec_item (firstn l (skipn o f))) = unle (part (o + 5) 4 f) /\
  it_crc (dec_item (firstn l (skipn o f))) = unle (part (o + 22) 4 f).
Proof.
  intros L. unfold dec_item, rd, part. cbv beta iota zeta. cbn [it_len it_crc].
  rewrite !skipn_add. cbn [Nat.add]. rewrite !skip_first, !firstn_firstn, !skipn_add.
  replace (Nat.min 4 (l - 5)) with 4%nat by lia. replace (Nat.min 4 (l - 22)) with 4%nat by lia. auto.
Qed.

Lemma some_same {A} (x y : A) : Some x = Some y -> x = y.
Proof. congruence. Qed.

Lemma cursor_check d cur : fits (dk_i d) cur <-> scan_initial_get d cur <> None.
Proof.
  unfold scan_initial_get. rewrite blen_length. split.
  - intros (L & f & E & B & P1 & P2). rewrite L. cbn [N.of_nat N.eqb Pos.eqb negb].
    change (N.of_nat 17 =? 17) with true. cbn [negb].
    unfold index_entry_deserialize, index_item_get_disk, ifile. rewrite bkey_parts.
    cbn [bk_idlen bk_fileid bk_length bk_idxoff bk_crc]. rewrite nget_nth, E. rewrite fread_blen, blen_length.
    replace (N.min _ _ =? _) with true by lia. unfold fread. rewrite nfirst_firstn, nskip_skipn.
    destruct (item_parts f (N.to_nat (unle (part 9 4 cur))) (N.to_nat (34 + unle (part 0 1 cur))) ltac:(lia)) as [-> ->].
    rewrite P1, P2, !N.eqb_refl. discriminate.
  - destruct (N.eqb_spec (N.of_nat (length cur)) 17) as [L|L]; cbn [negb]; [|congruence]. intros H.
    assert (L' : length cur = 17%nat) by lia. split; [exact L'|]. revert H.
    unfold index_entry_deserialize, index_item_get_disk, ifile. rewrite bkey_parts.
    cbn [bk_idlen bk_fileid bk_length bk_idxoff bk_crc]. rewrite nget_nth.
    destruct (nth_error (dk_i d) (N.to_nat (unle (part 1 4 cur)))) as [f|]; [|congruence].
    rewrite fread_blen, blen_length. destruct (N.eqb_spec (N.min (34 + unle (part 0 1 cur)) (N.of_nat (length f) - unle (part 9 4 cur))) (34 + unle (part 0 1 cur))) as [B|B]; [|congruence].
    unfold fread. rewrite nfirst_firstn, nskip_skipn.
    destruct (item_parts f (N.to_nat (unle (part 9 4 cur))) (N.to_nat (34 + unle (part 0 1 cur))) ltac:(lia)) as [-> ->].
    destruct (N.eqb_spec (unle (part (N.to_nat (unle (part 9 4 cur)) + 5) 4 f)) (unle (part 5 4 cur))) as [P1|]; [|cbn [andb]; congruence].
    destruct (N.eqb_spec (unle (part (N.to_nat (unle (part 9 4 cur)) + 22) 4 f)) (unle (part 13 4 cur))) as [P2|]; [|cbn [andb]; congruence].
    intros _. exists f. split; [reflexivity|]. cbv zeta. split; [lia|].
    split; apply unle_inj; try assumption; rewrite !part_len by lia; reflexivity.
Qed.

Lemma list_not_invalid l : command_scan_send_scanlist l <> hardsend "-Invalid key format".
Proof.
  unfold command_scan_send_scanlist. destruct (rev l) as [|[[f o] it] r]; [discriminate|].
  intros X. apply (f_equal (hd x00)) in X. discriminate X.
Qed.

Lemma body_refuses n first next cmd cur more c s : is_frozen c = false ->
  fits (dk_i (dk s)) cur <-> scan_body n first next (cmd :: cur :: more) c s <> Some (hardsend "-Invalid key format").
Proof.
  intros Fz. rewrite (cursor_check (dk s)). unfold scan_body. rewrite Fz.
  replace (argc (cmd :: cur :: more) =? 1) with false by (unfold argc; rewrite nlen_length; cbn [length]; lia).
  change (arg 1 (cmd :: cur :: more)) with cur.
  destruct (scan_initial_get (dk s) cur) as [[f o]|]; [|split; congruence]. split; [|congruence]. intros _.
  destruct (scan_walk n next f o) as [l|]; cbn [option_map]; [|congruence].
  intros X. apply some_same in X. now apply list_not_invalid in X.
Qed.

Lemma both_refuse n cmd cur more c s : is_frozen c = false ->
  (fits (dk_i (dk s)) cur <-> command_scan n (cmd :: cur :: more) c s <> Some (hardsend "-Invalid key format")) /\
  (fits (dk_i (dk s)) cur <-> command_rscan n (cmd :: cur :: more) c s <> Some (hardsend "-Invalid key format")).
Proof. intros Fz. split; now apply body_refuses. Qed.

(* ---- a cursor on a record ---- *)
Lemma enc_item_first it b : part 0 1 (enc_item it ++ b) = le 1 (it_idlen it).
Proof. reflexivity. Qed.

Lemma record_split m k l o : Forall item_wf l -> record_at (enc_if m k l) o ->
  exists l1 l2, l = l1 ++ l2 /\ N.of_nat o = 29 + isz l1.
Proof.
  intros W R. pose proof (blen_enc_if m k l) as B. rewrite blen_length in B. induction R as [|o R IH L].
  - exists [], l. auto.
  - destruct IH as (l1 & l2 & -> & Ho). destruct l2 as [|it l2]; [rewrite app_nil_r in *; lia|].
    exists (l1 ++ [it]), l2. split; [now rewrite <- app_assoc|]. rewrite isz_app. cbn [isz].
    destruct (file_shape m k l1 it l2) as (a & b & E & Ha). rewrite E.
    assert (P : part o 1 (a ++ enc_item it ++ b) = le 1 (it_idlen it)).
    { rewrite <- (enc_item_first it b). unfold part. rewrite blen_length in Ha. rewrite skipn_app.
      replace (o - length a)%nat with 0%nat by lia. rewrite skipn_all2 by lia. reflexivity. }
    rewrite P, unle_le1. apply Forall_app in W. destruct W as [_ W]. apply Forall_inv in W.
    destruct W as (W1 & W2 & _). unfold itsz. rewrite W1 in *. unfold u8. rewrite N.mod_small by lia. lia.
Qed.

Lemma initial_place d cur p : scan_initial_get d cur = Some p -> p = (unle (part 1 4 cur), unle (part 9 4 cur)).
Proof.
  unfold scan_initial_get, index_entry_deserialize. destruct (negb (blen cur =? 17)); [discriminate|]. rewrite bkey_parts.
  cbn [bk_idlen bk_fileid bk_length bk_idxoff bk_crc]. destruct (index_item_get_disk _ _ _ _) as [it|]; [|discriminate].
  destruct ((_ =? _) && (_ =? _)); [|discriminate]. intros H. apply some_same in H. congruence.
Qed.

Lemma on_loc m d gi cur : IOk m d gi -> on_record (dk_i d) cur ->
  exists A x B, flat 0 gi = A ++ x :: B /\ scan_initial_get d cur = Some (l_f x, l_off x).
Proof.
  intros I (F & S). pose proof F as G. apply cursor_check in G. apply some_of in G. destruct G as (p & G).
  pose proof (initial_place _ _ _ G) as P. destruct F as (_ & f & E & Bd & _). cbv zeta in Bd. specialize (S f E).
  set (fi := unle (part 1 4 cur)) in *. set (o := unle (part 9 4 cur)) in *.
  assert (E' : ifile d fi = Some f) by (unfold ifile; rewrite nget_nth; exact E).
  assert (L : fi < nlen gi).
  { destruct (N.lt_ge_cases fi (nlen gi)) as [L|L]; [exact L|]. rewrite (ifile_out m d gi fi I L) in E'. discriminate. }
  destruct (nget fi gi) as [l|] eqn:Q; [|apply nget_None in Q; lia]. apply nget_split in Q. destruct Q as (g1 & g2 & Q & Hf).
  rewrite <- Hf, (ifile_at m d gi g1 l g2 I Q) in E'. apply some_same in E'. subst f.
  assert (W : Forall item_wf l).
  { apply Forall_forall. intros it Hi. apply in_split in Hi. destruct Hi as (l1 & l2 & ->). eapply wf_at; eauto. }
  destruct (record_split _ _ _ _ W S) as (l1 & l2 & El & Ho). rewrite <- blen_length, blen_enc_if in Bd.
  destruct l2 as [|it l2]; [rewrite app_nil_r in El; subst l1; lia|]. subst l. rewrite Q.
  eexists _, _, _. split; [apply flat_split|]. unfold l_f, l_off. cbn [fst snd]. rewrite G, P, Hf. do 2 f_equal. lia.
Qed.

Lemma walk_from next L x n : (forall L1 y L2, L = L1 ++ y :: L2 -> lands (next (l_f y) (l_off y)) L2) ->
  forall L1 L2, L = L1 ++ L2 -> lands (next (l_f x) (l_off x)) L2 -> scan_walk n next (l_f x) (l_off x) = Some (firstn n L2).
Proof.
  intros W. revert x. induction n as [|n IH]; intros x L1 L2 E Hx; cbn [scan_walk firstn]; auto.
  destruct Hx as (s & -> & Hs). destruct L2 as [|y L2].
  - destruct Hs as [_ ->]. reflexivity.
  - rewrite Hs. assert (E2 : L = (L1 ++ [y]) ++ L2) by (rewrite E, <- app_assoc; reflexivity).
    pose proof (IH y _ _ E2 (W _ _ _ E)) as Q. destruct y as [[f o] it]. unfold l_f, l_off in Q. cbn [fst snd] in Q.
    unfold srow in *. rewrite Q. reflexivity.
Qed.

Lemma reply_of L R : Forall2 rowm L R -> scan_reply R (command_scan_send_scanlist L).
Proof.
  intros F. destruct L as [|x L _] using rev_ind.
  - inversion F. reflexivity.
  - now apply scan_reply_send.
Qed.

Lemma sound m gi kvs n cmd cur c s : IOk m (dk s) gi -> is_frozen c = false ->
  Forall2 rowm (filter live (flat 0 gi)) kvs -> on_record (dk_i (dk s)) cur ->
  exists before after r, kvs = before ++ after /\ command_scan n [cmd; cur] c s = Some r /\ scan_reply (firstn n after) r.
Proof.
  intros I Fz F C. destruct (on_loc _ _ _ _ I C) as (A & x & B & E & G).
  assert (E3 : filter live (flat 0 gi) = filter live (A ++ [x]) ++ filter live B).
  { rewrite <- filter_app, <- app_assoc. cbn [app]. now rewrite E. }
  rewrite E3 in F. apply Forall2_app_inv_l in F. destruct F as (R1 & R2 & F1 & F2 & ->).
  assert (W : forall L1 y L2, filter live (flat 0 gi) = L1 ++ y :: L2 -> lands (index_next_header (dk s) (l_f y) (l_off y)) L2).
  { intros L1 y L2 E1. apply filter_split in E1. destruct E1 as (A1 & B1 & E1 & <- & _). now apply (next_ok m (dk s) gi A1). }
  pose proof (walk_from _ _ x n W _ _ E3 (next_ok _ _ _ _ _ _ I E)) as Wk.
  exists R1, R2, (command_scan_send_scanlist (firstn n (filter live B))). split; [reflexivity|]. split.
  - unfold command_scan, scan_body. rewrite Fz. change (argc [cmd; cur] =? 1) with false. change (arg 1 [cmd; cur]) with cur.
    cbn iota. rewrite G, Wk. reflexivity.
  - apply reply_of. now apply forall2_firstn.
Qed.

Lemma sound_user g k c0 es o c s n cmd cur : reached g k c0 es o c s -> is_frozen c = false ->
  on_record (dk_i (dk s)) cur ->
  exists before after r, kv_of c0 es = before ++ after /\ command_scan n [cmd; cur] c s = Some r /\ scan_reply (firstn n after) r.
Proof.
  intros R Fz C. destruct (reached_inv _ _ _ _ _ _ _ R) as (_ & _ & gi & H & U & E & FL).
  pose proof (uinv_iok _ _ _ _ U FL) as I. eapply sound; eauto. rewrite <- E.
  eapply rows_user; try apply U. rewrite E. apply small_kv_of. apply R.
Qed.

Lemma sound_seq g k c0 es o c s n cmd cur : sreached g k c0 (plain es) o c s -> is_frozen c = false ->
  nlen (dk_i (dk s)) < 2 ^ 32 -> on_record (dk_i (dk s)) cur ->
  exists before after r, sq_map (sq_of_history c0 es) = before ++ after /\
    command_scan n [cmd; cur] c s = Some r /\ scan_reply (firstn n after) r.
Proof.
  intros R Fz FL C. destruct (splain_inv _ _ _ _ _ _ _ R) as (_ & _ & gi & H & (m & U & _) & E & _).
  pose proof (sinv_iok _ _ _ _ _ U FL) as I. eapply sound; eauto. rewrite <- E.
  eapply rows_seq; try apply U. change (livem (flat 0 gi) H) with (sq_map (sq_of gi H)). rewrite E. apply small_sq_of.
  eapply sreached_wf; eauto.
Qed.

Lemma rsound m gi kvs n cmd cur c s : IOk m (dk s) gi -> noempty gi \/ gi = [[]] -> chain 0 (flat 0 gi) -> is_frozen c = false ->
  Forall2 rowm (filter live (flat 0 gi)) kvs -> on_record (dk_i (dk s)) cur ->
  exists before after r, kvs = before ++ after /\ command_rscan n [cmd; cur] c s = Some r /\ scan_reply (firstn n (rev before)) r.
Proof.
  intros I NE Ch Fz F C. destruct (on_loc _ _ _ _ I C) as (A & x & B & E & G).
  destruct NE as [NE | ->]; [|destruct A; discriminate].
  assert (E3 : filter live (flat 0 gi) = filter live A ++ filter live (x :: B)) by (now rewrite <- filter_app, E).
  rewrite E3 in F. apply Forall2_app_inv_l in F. destruct F as (R1 & R2 & F1 & F2 & ->).
  assert (E4 : filter live (rev (flat 0 gi)) = rev (filter live (x :: B)) ++ filter live (rev A)).
  { now rewrite filter_rev, E3, rev_app_distr, <- (filter_rev live A). }
  assert (W : forall L1 y L2, filter live (rev (flat 0 gi)) = L1 ++ y :: L2 -> lands (index_previous_header (dk s) (l_f y) (l_off y)) L2).
  { intros L1 y L2 E1. apply filter_split in E1. destruct E1 as (A1 & B1 & E1 & <- & _).
    rewrite <- (rev_involutive B1). apply (previous_ok m (dk s) gi (rev B1) y (rev A1)); auto.
    rewrite <- (rev_involutive (flat 0 gi)), E1, rev_app_distr. cbn [rev]. now rewrite <- app_assoc. }
  pose proof (walk_from _ _ x n W _ _ E4 (previous_ok _ _ _ _ _ _ I NE Ch E)) as Wk.
  exists R1, R2, (command_scan_send_scanlist (firstn n (filter live (rev A)))). split; [reflexivity|]. split.
  - unfold command_rscan, scan_body. rewrite Fz. change (argc [cmd; cur] =? 1) with false. change (arg 1 [cmd; cur]) with cur.
    cbn iota. rewrite G, Wk. reflexivity.
  - apply reply_of. apply forall2_firstn. rewrite filter_rev. now apply forall2_rev.
Qed.

Lemma rsound_user g k c0 es o c s n cmd cur : reached g k c0 es o c s -> is_frozen c = false -> all_used (dk_i (dk s)) ->
  on_record (dk_i (dk s)) cur ->
  exists before after r, kv_of c0 es = before ++ after /\ command_rscan n [cmd; cur] c s = Some r /\ scan_reply (firstn n (rev before)) r.
Proof.
  intros R Fz AU C. destruct (reached_inv _ _ _ _ _ _ _ R) as (_ & _ & gi & H & U & E & FL).
  pose proof (uinv_iok _ _ _ _ U FL) as I. eapply rsound; eauto; [eapply all_used_spec; eauto; apply U|apply U|]. rewrite <- E.
  eapply rows_user; try apply U. rewrite E. apply small_kv_of. apply R.
Qed.

Lemma rsound_seq g k c0 es o c s n cmd cur : sreached g k c0 (plain es) o c s -> is_frozen c = false ->
  nlen (dk_i (dk s)) < 2 ^ 32 -> all_used (dk_i (dk s)) -> on_record (dk_i (dk s)) cur ->
  exists before after r, sq_map (sq_of_history c0 es) = before ++ after /\
    command_rscan n [cmd; cur] c s = Some r /\ scan_reply (firstn n (rev before)) r.
Proof.
  intros R Fz FL AU C. destruct (splain_inv _ _ _ _ _ _ _ R) as (_ & _ & gi & H & (m & U & _) & E & _).
  pose proof (sinv_iok _ _ _ _ _ U FL) as I. eapply rsound; eauto; [eapply all_used_spec; eauto; apply U|apply U|]. rewrite <- E.
  eapply rows_seq; try apply U. change (livem (flat 0 gi) H) with (sq_map (sq_of gi H)). rewrite E. apply small_sq_of.
  eapply sreached_wf; eauto.
Qed.
