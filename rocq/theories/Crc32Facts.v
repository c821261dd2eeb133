(* Lemmas on Crc32.v: agreement of the engines and error detection *)
From Coq Require Import List NArith ZArith Bool Strings.Byte Lia ZifyBool ZifyN ZifyNat.
From Verif Require Import Bytes BytesFacts Crc32.
Import ListNotations.
Open Scope N_scope.
Ltac Zify.zify_post_hook ::= Z.div_mod_to_equations.
#[local] Arguments N.mul : simpl never.
#[local] Arguments N.add : simpl never.

Definition W32 := 4294967296.

Lemma lt_W32_bits x : x < W32 <-> (forall i, 32 <= i -> N.testbit x i = false).
Proof.
  split.
  - intros H i Hi. destruct (N.eq_dec x 0) as [->|Hx]. apply N.bits_0.
    apply N.bits_above_log2.
    assert (N.log2 x < 32). { apply N.log2_lt_pow2; try lia. exact H. } lia.
  - intros H. destruct (N.eq_dec x 0) as [->|Hx]; [reflexivity|].
    destruct (N.lt_ge_cases x W32); auto.
    assert (32 <= N.log2 x). { apply N.log2_le_pow2; try lia. exact H0. }
    pose proof (N.bit_log2 x Hx) as B. rewrite H in B by auto. discriminate.
Qed.

Lemma lxor_W32 x y : x < W32 -> y < W32 -> N.lxor x y < W32.
Proof.
  rewrite !lt_W32_bits. intros. rewrite N.lxor_spec, H, H0; auto.
Qed.

Lemma shiftr_W32 x k : x < W32 -> N.shiftr x k < W32.
Proof.
  rewrite !lt_W32_bits. intros. rewrite N.shiftr_spec by lia. apply H. lia.
Qed.

Lemma crc_poly_W32 : crc_poly < W32.
Proof. reflexivity. Qed.

Lemma crc_bit_W32 x : x < W32 -> crc_bit x < W32.
Proof.
  intros. unfold crc_bit. destruct (N.odd x).
  - apply lxor_W32; auto using shiftr_W32, crc_poly_W32.
  - auto using shiftr_W32.
Qed.

Lemma crc_bits_W32 k x : x < W32 -> crc_bits k x < W32.
Proof. revert x; induction k; cbn [crc_bits]; intros; auto using crc_bit_W32. Qed.

Lemma odd_lxor x y : N.odd (N.lxor x y) = xorb (N.odd x) (N.odd y).
Proof. rewrite <- !N.bit0_odd. apply N.lxor_spec. Qed.

Lemma crc_bit_lxor x y : crc_bit (N.lxor x y) = N.lxor (crc_bit x) (crc_bit y).
Proof.
  unfold crc_bit. rewrite odd_lxor, N.shiftr_lxor.
  destruct (N.odd x), (N.odd y); cbn [xorb].
  - rewrite (N.lxor_comm (N.shiftr y 1) crc_poly).
    rewrite <- N.lxor_assoc, (N.lxor_assoc (N.shiftr x 1) crc_poly crc_poly).
    now rewrite N.lxor_nilpotent, N.lxor_0_r.
  - rewrite !N.lxor_assoc. f_equal. apply N.lxor_comm.
  - now rewrite N.lxor_assoc.
  - reflexivity.
Qed.

Lemma crc_bits_lxor k x y : crc_bits k (N.lxor x y) = N.lxor (crc_bits k x) (crc_bits k y).
Proof. revert x y; induction k; cbn [crc_bits]; intros; auto. now rewrite crc_bit_lxor, IHk. Qed.

Lemma crc_bits_add a b x : crc_bits (a + b) x = crc_bits b (crc_bits a x).
Proof. revert x; induction a; cbn [crc_bits Nat.add]; intros; auto. Qed.

(* dividing a multiple of 2^k by k steps only shifts *)
Lemma crc_bit_shiftl x k : 0 < k -> crc_bit (N.shiftl x k) = N.shiftl x (k - 1).
Proof.
  intros. unfold crc_bit.
  replace (N.odd (N.shiftl x k)) with false.
  - rewrite N.shiftr_shiftl_l by lia. reflexivity.
  - rewrite <- N.bit0_odd. rewrite N.shiftl_spec_low; auto.
Qed.

Lemma crc_bits_shiftl x k : crc_bits k (N.shiftl x (N.of_nat k)) = x.
Proof.
  induction k; cbn [crc_bits].
  - apply N.shiftl_0_r.
  - rewrite crc_bit_shiftl by lia.
    replace (N.of_nat (S k) - 1) with (N.of_nat k) by lia. exact IHk.
Qed.

(* injectivity on 32-bit values: the polynomial has its top bit set *)
Lemma half_odd_eq x y : N.odd x = N.odd y -> N.shiftr x 1 = N.shiftr y 1 -> x = y.
Proof.
  intros H1 H2. rewrite <- !N.div2_spec in H2.
  rewrite (N.div2_odd x), (N.div2_odd y). now rewrite H1, H2.
Qed.

Lemma top_bit x : x < W32 -> N.testbit (N.shiftr x 1) 31 = false.
Proof. intros. rewrite N.shiftr_spec by lia. apply lt_W32_bits; auto. cbn. lia. Qed.

Lemma crc_bit_inj x y : x < W32 -> y < W32 -> crc_bit x = crc_bit y -> x = y.
Proof.
  intros Hx Hy. unfold crc_bit.
  destruct (N.odd x) eqn:Ox, (N.odd y) eqn:Oy; intros E.
  - apply half_odd_eq; [congruence|].
    assert (E' : N.lxor (N.lxor (N.shiftr x 1) crc_poly) crc_poly = N.lxor (N.lxor (N.shiftr y 1) crc_poly) crc_poly) by congruence.
    rewrite !N.lxor_assoc, N.lxor_nilpotent, !N.lxor_0_r in E'. exact E'.
  - exfalso. assert (B : N.testbit (N.lxor (N.shiftr x 1) crc_poly) 31 = N.testbit (N.shiftr y 1) 31) by congruence.
    rewrite N.lxor_spec, !top_bit in B by auto. discriminate.
  - exfalso. assert (B : N.testbit (N.shiftr x 1) 31 = N.testbit (N.lxor (N.shiftr y 1) crc_poly) 31) by congruence.
    rewrite N.lxor_spec, !top_bit in B by auto. discriminate.
  - apply half_odd_eq; congruence.
Qed.

Lemma crc_bits_inj k x y : x < W32 -> y < W32 -> crc_bits k x = crc_bits k y -> x = y.
Proof.
  revert x y; induction k; cbn [crc_bits]; intros; auto.
  apply crc_bit_inj; auto. apply IHk; auto using crc_bit_W32.
Qed.

(* the table holds the 8-step division of every byte value *)
Lemma crc_table_ok : forall i, i < 256 -> nth (N.to_nat i) crc32c_table 0 = crc_bits 8 i.
Proof.
  assert (H : forallb (fun i => nth i crc32c_table 0 =? crc_bits 8 (N.of_nat i)) (seq 0 256) = true)
    by (vm_compute; reflexivity).
  rewrite forallb_forall in H. intros i Hi.
  specialize (H (N.to_nat i)). rewrite in_seq in H.
  rewrite Nnat.N2Nat.id in H. apply N.eqb_eq. apply H. lia.
Qed.

Lemma land255_lt x : N.land x 255 < 256.
Proof. replace (N.land x 255) with (x mod 2^8) by (rewrite <- N.land_ones; reflexivity). apply N.mod_lt. discriminate. Qed.

Lemma split_byte x : x = N.lxor (N.land x 255) (N.shiftl (N.shiftr x 8) 8).
Proof.
  apply N.bits_inj. intro i. rewrite N.lxor_spec, N.land_spec.
  destruct (N.lt_ge_cases i 8).
  - rewrite N.shiftl_spec_low by auto. rewrite xorb_false_r.
    replace (N.testbit 255 i) with true. now rewrite andb_true_r.
    change 255 with (N.ones 8). now rewrite N.ones_spec_low.
  - rewrite N.shiftl_spec_high' by auto.
    change 255 with (N.ones 8). rewrite N.ones_spec_high by auto. rewrite andb_false_r.
    rewrite N.shiftr_spec by lia. rewrite xorb_false_l. now replace (i - 8 + 8) with i by lia.
Qed.

(* one software step is one hardware byte step *)
Lemma step_hw crc b : crc32c_step crc b = hw_crc32_u8 crc b.
Proof.
  unfold crc32c_step, hw_crc32_u8. change 0xff with 255.
  rewrite crc_table_ok by apply land255_lt.
  set (x := N.lxor crc (b2n b)).
  rewrite (split_byte x) at 2. rewrite crc_bits_lxor. f_equal.
  change 8 with (N.of_nat 8) at 3. rewrite (crc_bits_shiftl _ 8).
  unfold x. rewrite N.shiftr_lxor.
  replace (N.shiftr (b2n b) 8) with 0. now rewrite N.lxor_0_r.
  symmetry. rewrite N.shiftr_div_pow2. apply N.div_small. apply b2n_lt.
Qed.

Lemma add_lxor_shift (b r : N) : b < 256 -> b + 256 * r = N.lxor b (N.shiftl r 8).
Proof.
  intros. rewrite N.shiftl_mul_pow2. change (2 ^ 8) with 256.
  rewrite <- N.add_nocarry_lxor. lia.
  apply N.bits_inj. intro i. rewrite N.land_spec, N.bits_0.
  replace (r * 256) with (N.shiftl r 8) by (rewrite N.shiftl_mul_pow2; reflexivity).
  destruct (N.lt_ge_cases i 8).
  - rewrite N.shiftl_spec_low by auto. apply andb_false_r.
  - replace (N.testbit b i) with false; auto. symmetry.
    destruct (N.eq_dec b 0) as [->|Hb]. apply N.bits_0.
    apply N.bits_above_log2. assert (N.log2 b < 8) by (apply N.log2_lt_pow2; [lia|assumption]). lia.
Qed.

(* processing a byte string equals one division of its little-endian value *)
Lemma fold_hw_bits l h :
  fold_left hw_crc32_u8 l h = crc_bits (8 * length l) (N.lxor h (unle l)).
Proof.
  revert h; induction l; intros; cbn [fold_left length unle].
  - change (8 * 0)%nat with 0%nat. cbn [crc_bits]. now rewrite N.lxor_0_r.
  - rewrite IHl. replace (8 * S (length l))%nat with (8 + 8 * length l)%nat by lia.
    rewrite crc_bits_add. f_equal. unfold hw_crc32_u8.
    rewrite add_lxor_shift by apply b2n_lt.
    rewrite <- (N.lxor_assoc h). rewrite (crc_bits_lxor 8 (N.lxor h (b2n a))).
    f_equal. change 8 with (N.of_nat 8) at 1. now rewrite (crc_bits_shiftl _ 8).
Qed.

Lemma software_bits l : crc32c_software l = crc_bits (8 * length l) (unle l).
Proof.
  unfold crc32c_software.
  replace (fold_left crc32c_step l 0) with (fold_left hw_crc32_u8 l 0).
  - rewrite fold_hw_bits. reflexivity.
  - generalize 0. induction l; cbn [fold_left]; intros; auto. rewrite IHl. now rewrite step_hw.
Qed.

Lemma fold_step_hw l h : fold_left crc32c_step l h = fold_left hw_crc32_u8 l h.
Proof. revert h; induction l; cbn [fold_left]; intros; auto. now rewrite IHl, step_hw. Qed.

Lemma hw_u64_bytes h c : length c = 8%nat -> hw_crc32_u64 h c = fold_left hw_crc32_u8 c h.
Proof. intros. rewrite fold_hw_bits, H. reflexivity. Qed.

Lemma hw_loop_fold : forall n l h, hw_loop n h l = fold_left hw_crc32_u8 l h.
Proof.
  induction n; intros l h; cbn [hw_loop]; auto.
  destruct (8 <? blen l) eqn:E; auto.
  rewrite IHn, hw_u64_bytes.
  - rewrite <- fold_left_app, nfirst_nskip. reflexivity.
  - rewrite nfirst_firstn, firstn_length. rewrite blen_length in E. lia.
Qed.

Lemma engines_agree l : crc32c_sse42 l = crc32c_software l.
Proof.
  unfold crc32c_sse42, crc32c_software. now rewrite fold_step_hw, hw_loop_fold.
Qed.

Lemma hw_u8_W32 h b : h < W32 -> hw_crc32_u8 h b < W32.
Proof.
  intros. apply crc_bits_W32, lxor_W32; auto.
  pose proof (b2n_lt b). unfold W32. lia.
Qed.

Lemma fold_hw_W32 l h : h < W32 -> fold_left hw_crc32_u8 l h < W32.
Proof. revert h; induction l; cbn [fold_left]; intros; auto using hw_u8_W32. Qed.

Lemma zdb_crc32_W32 l : zdb_crc32 l < 4294967296.
Proof.
  unfold zdb_crc32, crc32c_software. rewrite fold_step_hw.
  apply fold_hw_W32. reflexivity.
Qed.

Lemma lxor_inj_l h x y : N.lxor h x = N.lxor h y -> x = y.
Proof.
  intros E. assert (E' : N.lxor h (N.lxor h x) = N.lxor h (N.lxor h y)) by congruence.
  rewrite <- !N.lxor_assoc, N.lxor_nilpotent, !N.lxor_0_l in E'. exact E'.
Qed.

Lemma hw_u8_inj_state h h' b : h < W32 -> h' < W32 -> hw_crc32_u8 h b = hw_crc32_u8 h' b -> h = h'.
Proof.
  intros Hh Hh' E. unfold hw_crc32_u8 in E. pose proof (b2n_lt b).
  apply crc_bits_inj in E; try (apply lxor_W32; auto; unfold W32; lia).
  rewrite (N.lxor_comm h), (N.lxor_comm h') in E. now apply lxor_inj_l in E.
Qed.

Lemma fold_hw_inj_state l h h' : h < W32 -> h' < W32 ->
  fold_left hw_crc32_u8 l h = fold_left hw_crc32_u8 l h' -> h = h'.
Proof.
  revert h h'; induction l; cbn [fold_left]; intros; auto.
  apply IHl in H1; auto using hw_u8_W32. eapply hw_u8_inj_state; eauto.
Qed.

Lemma unle_W32 l : (length l <= 4)%nat -> unle l < W32.
Proof.
  intros. pose proof (unle_bound l). rewrite blen_length in H0.
  assert (256 ^ N.of_nat (length l) <= 256 ^ 4) by (apply N.pow_le_mono_r; lia).
  change (256 ^ 4) with W32 in H1. lia.
Qed.

Lemma unle_inj a b : length a = length b -> unle a = unle b -> a = b.
Proof. intros H E. rewrite <- (le_unle a), <- (le_unle b), H, E. reflexivity. Qed.

(* any change confined to four consecutive bytes changes the checksum *)
Lemma crc_detects_burst pre a b post :
  length a = length b -> (length a <= 4)%nat -> a <> b ->
  zdb_crc32 (pre ++ a ++ post) <> zdb_crc32 (pre ++ b ++ post).
Proof.
  intros Hl H4 Hne E. apply Hne. unfold zdb_crc32, crc32c_software in E.
  rewrite !fold_step_hw, !fold_left_app in E.
  assert (H0 : fold_left hw_crc32_u8 pre 0 < W32) by (apply fold_hw_W32; reflexivity).
  apply fold_hw_inj_state in E; auto using fold_hw_W32.
  rewrite (fold_hw_bits a), (fold_hw_bits b), <- Hl in E.
  apply crc_bits_inj in E; try (apply lxor_W32; auto; apply unle_W32; lia).
  apply lxor_inj_l in E. now apply unle_inj.
Qed.

(* two different values of at most four bytes and equal length never collide *)
Lemma crc_short_inj a b : length a = length b -> (length a <= 4)%nat ->
  zdb_crc32 a = zdb_crc32 b -> a = b.
Proof.
  intros Hl H4 E. destruct (bytes_eq_dec a b); auto. exfalso.
  apply (crc_detects_burst [] a b []); auto. cbn [app]. now rewrite !app_nil_r.
Qed.
