(* PROOFS for C67: HISTORY with a position given by the client. *)
From Coq Require Import Strings.String Strings.Byte List NArith ZArith Bool Lia ZifyBool ZifyN ZifyNat.
From Verif Require Import Bytes BytesFacts Layout LayoutFacts Store Text Commands Scan History SpecHist Crc32Facts
  SpecCursor SpecPosition CursorFacts.
Import ListNotations.
Open Scope N_scope.
Local Notation length := List.length.

Lemma ekey_parts pos : dec_ekey pos = mkEkey (unle (part 0 4 pos)) (unle (part 4 4 pos)).
Proof. reflexivity. Qed.

Lemma parts8 pos : length pos = 8%nat -> pos = part 0 4 pos ++ part 4 4 pos.
Proof.
  intros L. unfold part. rewrite (firstn_all2 (skipn 4 pos)) by (rewrite skipn_length; lia). cbn [skipn]. now rewrite firstn_skipn.
Qed.

Lemma unle_zero4 b : length b = 4%nat -> unle b = 0 -> b = repeat x00 4.
Proof. intros L U. apply unle_inj; [rewrite repeat_length; lia|]. rewrite U. reflexivity. Qed.

Lemma pos_zero pos : length pos = 8%nat ->
  (unle (part 0 4 pos) =? 0) && (unle (part 4 4 pos) =? 0) = true <-> pos = repeat x00 8.
Proof.
  intros L. split.
  - intros H. apply andb_true_iff in H. destruct H as [H1 H2]. apply N.eqb_eq in H1, H2. rewrite (parts8 pos L).
    apply unle_zero4 in H1; [|apply part_len; lia]. apply unle_zero4 in H2; [|apply part_len; lia].
    rewrite H1, H2. reflexivity.
  - intros ->. reflexivity.
Qed.

Lemma u8_same key : (length key <= 255)%nat -> u8_key key = key.
Proof.
  intros L. unfold u8_key. rewrite blen_length, N.mod_small by lia. rewrite Nat2N.id. apply firstn_all.
Qed.

Lemma item_key f o l : (34 <= l)%nat -> it_id (dec_item (firstn l (skipn o f))) = part (o + 34) (l - 34) f.
Proof.
  intros L. unfold dec_item, rd, part. cbv beta iota zeta. cbn [it_id]. rewrite !skipn_add. cbn [Nat.add].
  rewrite skip_first, skipn_add. reflexivity.
Qed.

Lemma unle4_lt b : (length b <= 4)%nat -> unle b < 2 ^ 32.
Proof.
  intros L. pose proof (unle_bound b) as H. rewrite blen_length in H. eapply N.lt_le_trans; [exact H|].
  change (2 ^ 32) with (256 ^ 4). apply N.pow_le_mono_r; lia.
Qed.

Lemma item_ts b : it_ts (dec_item b) < 2 ^ 32.
Proof. unfold dec_item, rd. cbv beta iota zeta. cbn [it_ts]. apply unle4_lt. apply firstn_le_length. Qed.

Lemma enc_ekey_len k : length (enc_ekey k) = 8%nat.
Proof. reflexivity. Qed.

Lemma send_array k ts v : history_send_array k ts v =
  hist_reply (if negb (ek_indexid k =? 0) || negb (ek_offset k =? 0) then Some (enc_ekey k) else None) (v, ts).
Proof.
  unfold history_send_array, hist_reply, bulk, arrayhdr. cbn [fst snd].
  destruct (negb (ek_indexid k =? 0) || negb (ek_offset k =? 0)); rewrite <- ?app_assoc; reflexivity.
Qed.

Lemma send_tells d it k : it_ts it < 2 ^ 32 -> tells (dk_d d) (history_send d it k).
Proof.
  intros T. unfold history_send, data_get, dfile. destruct (nget (it_dataid it) (dk_d d)) as [f|] eqn:E; [|now left].
  assert (I : In f (dk_d d)) by (rewrite nget_nth in E; eapply nth_error_In; eauto).
  unfold data_get_real. set (len := if it_len it =? 0 then data_length_from_offset f (it_off it) else it_len it).
  assert (G : forall v a, v = part a (length v) f -> tells (dk_d d) (history_send_array k (it_ts it) v)).
  { intros v a Hv. right. rewrite send_array. eexists _, v, (it_ts it), f, a. split; [reflexivity|]. split; [|auto].
    intros e. destruct (negb (ek_indexid k =? 0) || negb (ek_offset k =? 0)); [|discriminate]. intros H.
    apply some_same in H. subst e. apply enc_ekey_len. }
  destruct (len =? 0); [apply (G [] 0%nat); reflexivity|].
  destruct (blen (fread f (it_off it + 18 + it_idlen it) len) =? len) eqn:B; [|now left].
  apply (G _ (N.to_nat (it_off it + 18 + it_idlen it))). unfold fread, part. rewrite nfirst_firstn, nskip_skipn.
  rewrite firstn_length, <- firstn_firstn, firstn_all2 with (n := length _); [|].
  all: try reflexivity. all: rewrite ?skipn_length, ?firstn_length; lia.
Qed.

Lemma position_reply cmd key pos c s : is_frozen c = false -> (length key <= 255)%nat ->
  exists r, command_history [cmd; key; pos] c s = Some r /\
    (names (dk_i (dk s)) key pos -> tells (dk_d (dk s)) r) /\ (~ names (dk_i (dk s)) key pos -> In r refusals).
Proof.
  intros Fz Lk. unfold command_history. change (argc [cmd; key; pos]) with 3. cbn [N.eqb Pos.eqb negb andb].
  change (arg 1 [cmd; key; pos]) with key. change (arg 2 [cmd; key; pos]) with pos. rewrite Fz, (u8_same key Lk), !blen_length.
  destruct (N.eqb_spec (N.of_nat (length pos)) 8) as [L|L]; cbn [negb].
  2: { eexists. split; [reflexivity|]. split; [intros (X & _); lia|]. intros _. now left. }
  assert (L8 : length pos = 8%nat) by lia. rewrite ekey_parts. cbn [ek_indexid ek_offset].
  pose proof (pos_zero pos L8) as Z. destruct ((unle (part 0 4 pos) =? 0) && (unle (part 4 4 pos) =? 0)) eqn:E0.
  { eexists. split; [reflexivity|]. split; [intros (_ & X & _); exfalso; apply X; now apply Z|]. intros _. right. now left. }
  assert (Nz : pos <> repeat x00 8) by (intros X; apply Z in X; discriminate).
  unfold index_item_get_disk, ifile. rewrite nget_nth.
  destruct (nth_error (dk_i (dk s)) (N.to_nat (unle (part 0 4 pos)))) as [f|] eqn:E.
  2: { eexists. split; [reflexivity|]. split; [intros (_ & _ & f & X & _); congruence|]. intros _. right. right. now left. }
  rewrite fread_blen, blen_length. set (o := unle (part 4 4 pos)) in *.
  destruct (N.eqb_spec (N.min (34 + N.of_nat (length key)) (N.of_nat (length f) - o)) (34 + N.of_nat (length key))) as [B|B].
  2: { eexists. split; [reflexivity|]. split; [|intros _; right; right; now left].
       intros (_ & _ & f' & X & Y & _). rewrite E in X. apply some_same in X. subst f'. fold o in Y. lia. }
  assert (D : fread f o (34 + N.of_nat (length key)) = firstn (34 + length key) (skipn (N.to_nat o) f)).
  { unfold fread. rewrite nfirst_firstn, nskip_skipn. f_equal. lia. }
  rewrite D. set (it := dec_item (firstn (34 + length key) (skipn (N.to_nat o) f))).
  assert (K : it_id it = part (N.to_nat o + 34) (length key) f).
  { unfold it. rewrite item_key by lia. f_equal. lia. }
  assert (W : nfirst (N.of_nat (length key)) (it_id it) = it_id it).
  { apply nfirst_all. rewrite K, nlen_length, part_len by lia. lia. }
  rewrite W, K. destruct (bseqb (part (N.to_nat o + 34) (length key) f) key) eqn:Q.
  - eexists. split; [reflexivity|]. split; [intros _; apply send_tells; apply item_ts|].
    intros X. exfalso. apply X. split; [exact L8|]. split; [exact Nz|]. exists f. split; [exact E|]. cbv zeta. fold o.
    split; [lia|]. now apply bseqb_eq in Q.
  - eexists. split; [reflexivity|]. split; [|intros _; right; right; right; now left].
    intros (_ & _ & f' & X & _ & Y). rewrite E in X. apply some_same in X. subst f'. fold o in Y. rewrite Y in Q.
    assert (Q' : bseqb key key = true) by now apply bseqb_eq. congruence.
Qed.

Lemma refusal_is_not_told d r : tells d r -> ~ In r refusals.
Proof.
  intros [->|(next & v & ts & f & a & -> & _)] H; cbn [In refusals] in H.
  - destruct H as [H|[H|[H|[H|[]]]]]; vm_compute in H; discriminate.
  - destruct H as [H|[H|[H|[H|[]]]]]; apply (f_equal (hd x00)) in H; vm_compute in H; discriminate.
Qed.

Lemma position_told cmd key pos c s : is_frozen c = false -> (length key <= 255)%nat ->
  exists r, command_history [cmd; key; pos] c s = Some r /\
    (names (dk_i (dk s)) key pos <-> tells (dk_d (dk s)) r) /\ (tells (dk_d (dk s)) r \/ In r refusals).
Proof.
  intros Fz Lk. destruct (position_reply cmd key pos c s Fz Lk) as (r & E & T & N). exists r. split; [exact E|].
  assert (D : names (dk_i (dk s)) key pos \/ ~ names (dk_i (dk s)) key pos -> (names (dk_i (dk s)) key pos <-> tells (dk_d (dk s)) r) /\ (tells (dk_d (dk s)) r \/ In r refusals)).
  { intros [H|H]; (split; [split|]); auto; try contradiction. intros X. exfalso. exact (refusal_is_not_told _ _ X (N H)). }
  apply D. clear D T N E r. destruct (Nat.eq_dec (length pos) 8) as [L|L]; [|right; intros (X & _); congruence].
  destruct (list_eq_dec Byte.byte_eq_dec pos (repeat x00 8)) as [Z|Z]; [right; intros (_ & X & _); congruence|].
  destruct (nth_error (dk_i (dk s)) (N.to_nat (unle (part 0 4 pos)))) as [f|] eqn:F; [|right; intros (_ & _ & f & X & _); congruence].
  destruct (le_dec (N.to_nat (unle (part 4 4 pos)) + 34 + length key) (length f)) as [B|B].
  2: { right. intros (_ & _ & f' & X & Y & _). rewrite F in X. apply some_same in X. subst f'. now apply B. }
  destruct (list_eq_dec Byte.byte_eq_dec (part (N.to_nat (unle (part 4 4 pos)) + 34) (length key) f) key) as [Q|Q].
  - left. split; [exact L|]. split; [exact Z|]. exists f. auto.
  - right. intros (_ & _ & f' & X & _ & Y). rewrite F in X. apply some_same in X. subst f'. now apply Q.
Qed.

(* ---- the version told ---- *)
Lemma fields f o l : (34 <= l)%nat -> (o + 34 <= length f)%nat -> let it := dec_item (firstn l (skipn o f)) in
  it_idlen it = unle (part (o + 0) 1 f) /\ it_off it = unle (part (o + 1) 4 f) /\ it_len it = unle (part (o + 5) 4 f) /\
  it_dataid it = unle (part (o + 14) 4 f) /\ it_ts it = unle (part (o + 18) 4 f) /\
  it_pid it = unle (part (o + 26) 4 f) /\ it_poff it = unle (part (o + 30) 4 f).
Proof.
  intros L B. unfold dec_item, rd, part. cbv beta iota zeta. cbn [it_idlen it_off it_len it_dataid it_ts it_pid it_poff].
  rewrite !skipn_add. cbn [Nat.add]. rewrite !skip_first, !firstn_firstn, !skipn_add, Nat.add_0_r.
  replace (Nat.min 1 l) with 1%nat by lia.
  replace (Nat.min 4 (l - 1)) with 4%nat by lia. replace (Nat.min 4 (l - 5)) with 4%nat by lia.
  replace (Nat.min 4 (l - 14)) with 4%nat by lia. replace (Nat.min 4 (l - 18)) with 4%nat by lia.
  replace (Nat.min 4 (l - 26)) with 4%nat by lia. replace (Nat.min 4 (l - 30)) with 4%nat by lia. repeat split.
Qed.

Lemma le4_unle b : length b = 4%nat -> le 4 (unle b) = b.
Proof. intros L. pose proof (le_unle b) as H. now rewrite L in H. Qed.

Lemma next_bytes f o : (o + 34 <= length f)%nat ->
  enc_ekey (mkEkey (unle (part (o + 26) 4 f)) (unle (part (o + 30) 4 f))) = part (o + 26) 8 f.
Proof.
  intros B. unfold enc_ekey. cbn [ek_indexid ek_offset].
  rewrite (le4_unle (part (o + 26) 4 f)) by (apply part_len; lia). rewrite (le4_unle (part (o + 30) 4 f)) by (apply part_len; lia).
  rewrite (parts8 (part (o + 26) 8 f)) by (apply part_len; lia). unfold part. rewrite !skip_first, !firstn_firstn, !skipn_add.
  cbn [skipn Nat.min Nat.sub]. replace (o + 26 + 4)%nat with (o + 30)%nat by lia. rewrite Nat.add_0_r. reflexivity.
Qed.

Lemma header_length g a : data_length_from_offset g a =
  if Nat.leb (N.to_nat a + 18) (length g) then unle (part (N.to_nat a + 1) 4 g) else 0.
Proof.
  unfold data_length_from_offset. rewrite fread_blen, blen_length. destruct (Nat.leb_spec (N.to_nat a + 18) (length g)) as [Q|Q].
  - replace (N.min 18 (N.of_nat (length g) - a) =? 18) with true by lia. unfold fread. rewrite nfirst_firstn, nskip_skipn.
    change (N.to_nat 18) with 18%nat. unfold dec_drec, rd, part. cbv beta iota zeta. cbn [dr_datalen].
    rewrite !skip_first, !firstn_firstn, !skipn_add. reflexivity.
  - replace (N.min 18 (N.of_nat (length g) - a) =? 18) with false by lia. reflexivity.
Qed.

Lemma value_there g a n i : data_get_real g a n i =
  match length_of g (N.to_nat a) (N.to_nat n) with
  | O => Some []
  | S m => if Nat.leb (N.to_nat a + 18 + N.to_nat i + S m) (length g)
           then Some (part (N.to_nat a + 18 + N.to_nat i) (S m) g) else None
  end.
Proof.
  unfold data_get_real.
  assert (L : N.to_nat (if n =? 0 then data_length_from_offset g a else n) = length_of g (N.to_nat a) (N.to_nat n)).
  { unfold length_of. destruct (N.eqb_spec n 0) as [->|Q].
    - rewrite header_length. change (N.to_nat 0) with O. cbv iota. unfold said. now destruct (Nat.leb _ _).
    - destruct (N.to_nat n) eqn:W; [lia|reflexivity]. }
  rewrite <- L. cbv zeta. set (m := if n =? 0 then data_length_from_offset g a else n). clearbody m. clear L.
  destruct (N.eqb_spec m 0) as [->|Q]; [reflexivity|]. destruct (N.to_nat m) as [|k] eqn:W; [lia|].
  rewrite fread_blen, blen_length. destruct (Nat.leb_spec (N.to_nat a + 18 + N.to_nat i + S k) (length g)) as [B|B].
  - replace (N.min m (N.of_nat (length g) - (a + 18 + i)) =? m) with true by lia. f_equal.
    unfold fread, part. rewrite nfirst_firstn, nskip_skipn, W. do 2 f_equal. lia.
  - replace (N.min m (N.of_nat (length g) - (a + 18 + i)) =? m) with false by lia. reflexivity.
Qed.

Lemma position_value cmd key pos c s f : is_frozen c = false -> (length key <= 255)%nat ->
  names (dk_i (dk s)) key pos -> nth_error (dk_i (dk s)) (N.to_nat (unle (part 0 4 pos))) = Some f ->
  let o := N.to_nat (unle (part 4 4 pos)) in
  command_history [cmd; key; pos] c s = Some (told_there (dk_d (dk s)) f o).
Proof.
  intros Fz Lk (L8 & Nz & f' & E & B & K) E' o. rewrite E' in E. apply some_same in E. subst f'. fold o in B, K.
  unfold command_history. change (argc [cmd; key; pos]) with 3. cbn [N.eqb Pos.eqb negb andb].
  change (arg 1 [cmd; key; pos]) with key. change (arg 2 [cmd; key; pos]) with pos. rewrite Fz, (u8_same key Lk), !blen_length, L8.
  change (N.of_nat 8 =? 8) with true. cbn [negb]. rewrite ekey_parts. cbn [ek_indexid ek_offset].
  pose proof (pos_zero pos L8) as Z. destruct ((unle (part 0 4 pos) =? 0) && (unle (part 4 4 pos) =? 0)); [exfalso; apply Nz; now apply Z|].
  unfold index_item_get_disk, ifile. rewrite nget_nth, E'. rewrite fread_blen, blen_length.
  replace (N.min _ _ =? _) with true by lia.
  assert (D : fread f (unle (part 4 4 pos)) (34 + N.of_nat (length key)) = firstn (34 + length key) (skipn o f)).
  { unfold fread. rewrite nfirst_firstn, nskip_skipn. f_equal. lia. }
  rewrite D. set (it := dec_item (firstn (34 + length key) (skipn o f))).
  assert (K' : it_id it = key) by (unfold it; rewrite item_key by lia; rewrite <- K at 2; f_equal; lia).
  assert (W : nfirst (N.of_nat (length key)) (it_id it) = it_id it) by (apply nfirst_all; rewrite K', nlen_length; lia).
  rewrite W, K', bseqb_refl. f_equal.
  destruct (fields f o (34 + length key) ltac:(lia) ltac:(lia)) as (F1 & F2 & F3 & F4 & F5 & F6 & F7). fold it in F1, F2, F3, F4, F5, F6, F7.
  unfold history_send, told_there, value_of, data_get, dfile. rewrite nget_nth.
  unfold said at 1. rewrite F1, F2, F3, F4, F5, F6, F7.
  destruct (nth_error (dk_d (dk s)) (N.to_nat (unle (part (o + 14) 4 f)))) as [g|]; [|reflexivity].
  rewrite value_there. change (N.to_nat (unle (part (o + 1) 4 f))) with (said f o 1 4).
  change (N.to_nat (unle (part (o + 5) 4 f))) with (said f o 5 4). change (N.to_nat (unle (part (o + 0) 1 f))) with (said f o 0 1).
  match goal with |- match ?x with _ => _ end = _ => destruct x as [v|] end; [|reflexivity].
  rewrite send_array. cbn [ek_indexid ek_offset].
  rewrite next_bytes by lia. f_equal.
  assert (L26 : length (part (o + 26) 8 f) = 8%nat) by (apply part_len; lia).
  pose proof (pos_zero (part (o + 26) 8 f) L26) as Z2.
  assert (X1 : part 0 4 (part (o + 26) 8 f) = part (o + 26) 4 f).
  { unfold part. rewrite skip_first, firstn_firstn. reflexivity. }
  assert (X2 : part 4 4 (part (o + 26) 8 f) = part (o + 30) 4 f).
  { unfold part. rewrite skip_first, firstn_firstn, skipn_add. cbn [Nat.min Nat.sub].
    replace (o + 26 + 4)%nat with (o + 30)%nat by lia. reflexivity. }
  rewrite X1, X2 in Z2. rewrite <- negb_andb. destruct (bseqb (part (o + 26) 8 f) (repeat x00 8)) eqn:Y.
  - apply bseqb_eq in Y. apply Z2 in Y. now rewrite Y.
  - destruct ((unle (part (o + 26) 4 f) =? 0) && (unle (part (o + 30) 4 f) =? 0)); [|reflexivity].
    exfalso. assert (Y2 : part (o + 26) 8 f = repeat x00 8) by now apply Z2. apply bseqb_eq in Y2. congruence.
Qed.
