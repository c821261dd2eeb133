(* PROOFS.  libzdb/sha1.c computes the published SHA-1. *)
From Coq Require Import Strings.Byte List NArith ZArith Bool Lia ZifyBool ZifyN ZifyNat.
From Verif Require Import Bytes BytesFacts Layout Sha1 SpecSha.
Import ListNotations.
Open Scope N_scope.
Ltac Zify.zify_post_hook ::= Z.div_mod_to_equations.

(* ---- words ---- *)

Lemma bits_lt x n : (forall i, n <= i -> N.testbit x i = false) -> x < 2 ^ n.
Proof.
  intro H. destruct (N.lt_ge_cases x (2 ^ n)) as [|G]; [assumption|exfalso].
  assert (x <> 0) by (pose proof (N.pow_nonzero 2 n); lia).
  pose proof (N.bit_log2 x ltac:(assumption)) as B.
  rewrite H in B; [discriminate|].
  apply N.log2_le_pow2; lia.
Qed.

Lemma bits_ge x n i : x < 2 ^ n -> n <= i -> N.testbit x i = false.
Proof.
  intros L G. destruct (N.eq_dec x 0) as [->|NZ]; [apply N.bits_0|].
  apply N.bits_above_log2. apply N.log2_lt_pow2 in L; lia.
Qed.

Lemma w32_u32 x : w32 x = u32 x.
Proof. reflexivity. Qed.

Lemma u32_bit x i : N.testbit (u32 x) i = (i <? 32) && N.testbit x i.
Proof.
  unfold u32. change 4294967296 with (2 ^ 32).
  destruct (N.ltb_spec i 32).
  - rewrite N.mod_pow2_bits_low by assumption. reflexivity.
  - rewrite N.mod_pow2_bits_high by assumption. reflexivity.
Qed.

Lemma rol_bit x n i : x < 2 ^ 32 -> n <= 32 ->
  N.testbit (rol x n) i = (i <? 32) && (if i <? n then N.testbit x (i + (32 - n)) else N.testbit x (i - n)).
Proof.
  intros L B. unfold rol. rewrite N.lor_spec, u32_bit, N.shiftr_spec by lia.
  destruct (N.ltb_spec i n).
  - rewrite N.shiftl_spec_low by assumption.
    replace (i <? 32) with true by (symmetry; apply N.ltb_lt; lia). reflexivity.
  - rewrite N.shiftl_spec_high by lia.
    rewrite (bits_ge x 32 (i + (32 - n))) by lia. apply orb_false_r.
Qed.

Lemma rol_lt x n : x < 2 ^ 32 -> n <= 32 -> rol x n < 2 ^ 32.
Proof.
  intros. apply bits_lt. intros i G. rewrite rol_bit by assumption.
  replace (i <? 32) with false by (symmetry; apply N.ltb_ge; lia). reflexivity.
Qed.

Lemma rol_rotl x n : x < 2 ^ 32 -> n <= 32 -> rol x n = rotl n x.
Proof.
  intros L B. unfold rol, rotl, w32. rewrite <- N.shiftl_mul_pow2, <- N.shiftr_div_pow2.
  change (N.shiftl x n mod 2 ^ 32) with (u32 (N.shiftl x n)).
  rewrite <- N.lxor_lor, <- N.add_nocarry_lxor; [reflexivity| |];
  (apply N.bits_inj; intro i; rewrite N.land_spec, u32_bit, N.shiftr_spec, N.bits_0 by lia;
   destruct (N.ltb_spec i n);
   [ rewrite N.shiftl_spec_low by assumption; rewrite andb_false_r; reflexivity
   | rewrite (bits_ge x 32 (i + (32 - n))) by lia; apply andb_false_r ]).
Qed.

Lemma eq32 x y : x < 2 ^ 32 -> y < 2 ^ 32 -> (forall i, i < 32 -> N.testbit x i = N.testbit y i) -> x = y.
Proof.
  intros X Y E. apply N.bits_inj. intro i.
  destruct (N.lt_ge_cases i 32) as [|G]; [auto|].
  rewrite (bits_ge x 32), (bits_ge y 32) by assumption. reflexivity.
Qed.

Lemma lt32_cases (P : N -> Prop) : P 0 -> P 1 -> P 2 -> P 3 -> P 4 -> P 5 -> P 6 -> P 7 -> P 8 -> P 9 ->
  P 10 -> P 11 -> P 12 -> P 13 -> P 14 -> P 15 -> P 16 -> P 17 -> P 18 -> P 19 -> P 20 -> P 21 -> P 22 ->
  P 23 -> P 24 -> P 25 -> P 26 -> P 27 -> P 28 -> P 29 -> P 30 -> P 31 -> forall i, i < 32 -> P i.
Proof.
  intros. destruct i as [|p]; [assumption|].
  do 5 (destruct p as [p|p|]; [| |assumption]; try lia); try assumption; lia.
Qed.

Lemma unle_bit l : forall i, N.testbit (unle l) i =
  match nget (i / 8) l with Some b => N.testbit (b2n b) (i mod 8) | None => false end.
Proof.
  induction l as [|b t IH]; intro i; cbn [unle nget]; [apply N.bits_0|].
  pose proof (b2n_lt b) as Lb.
  assert (D : N.land (b2n b) (256 * unle t) = 0).
  { apply N.bits_inj. intro k. rewrite N.land_spec, N.bits_0.
    replace (256 * unle t) with (N.shiftl (unle t) 8) by (rewrite N.shiftl_mul_pow2; lia).
    destruct (N.lt_ge_cases k 8).
    - rewrite N.shiftl_spec_low by assumption. apply andb_false_r.
    - rewrite (bits_ge (b2n b) 8 k) by (try assumption; exact Lb). reflexivity. }
  rewrite N.add_nocarry_lxor, N.lxor_lor, N.lor_spec by assumption.
  replace (256 * unle t) with (N.shiftl (unle t) 8) by (rewrite N.shiftl_mul_pow2; lia).
  destruct (N.lt_ge_cases i 8) as [L|G].
  - rewrite N.shiftl_spec_low by assumption. rewrite N.div_small, N.mod_small by assumption.
    cbn [N.eqb]. apply orb_false_r.
  - rewrite N.shiftl_spec_high by lia. rewrite (bits_ge (b2n b) 8 i) by (try assumption; exact Lb).
    rewrite IH. cbn [orb].
    replace (i / 8 =? 0) with false by (symmetry; apply N.eqb_neq; lia).
    replace (N.pred (i / 8)) with ((i - 8) / 8) by lia.
    replace ((i - 8) mod 8) with (i mod 8) by lia. reflexivity.
Qed.

Lemma be_word4 a b c d : be_word [a; b; c; d] = unle [d; c; b; a].
Proof. unfold be_word. cbn [fold_left unle]. lia. Qed.

Definition swap (l : N) : N := N.lor (N.land (rol l 24) 4278255360) (N.land (rol l 8) 16711935).

Lemma swap_bytes a b c d : swap (unle [a; b; c; d]) = be_word [a; b; c; d].
Proof.
  rewrite be_word4.
  assert (L1 : unle [a; b; c; d] < 2 ^ 32) by (apply (unle_bound [a; b; c; d])).
  assert (L2 : unle [d; c; b; a] < 2 ^ 32) by (apply (unle_bound [d; c; b; a])).
  apply eq32; [|assumption|].
  - unfold swap. apply bits_lt. intros i G. rewrite N.lor_spec, !N.land_spec, !rol_bit by (assumption || lia).
    replace (i <? 32) with false by (symmetry; apply N.ltb_ge; lia). reflexivity.
  - intros i Li. unfold swap. rewrite N.lor_spec, !N.land_spec, !rol_bit by (assumption || lia).
    pattern i. apply lt32_cases; [..|assumption];
    rewrite ?unle_bit;
    match goal with |- context [N.testbit 4278255360 ?k] =>
      let u := eval vm_compute in (N.testbit 4278255360 k) in
      let v := eval vm_compute in (N.testbit 16711935 k) in
      change (N.testbit 4278255360 k) with u; change (N.testbit 16711935 k) with v end;
    repeat match goal with |- context [N.ltb ?p ?q] =>
      let u := eval vm_compute in (N.ltb p q) in change (N.ltb p q) with u end; cbn [andb];
    rewrite ?andb_true_r, ?andb_false_r, ?orb_false_r; cbn [orb]; reflexivity.
Qed.

Lemma f_ch x y z : N.lxor (N.land x (N.lxor y z)) z = N.lxor (N.land x y) (N.ldiff z x).
Proof.
  apply N.bits_inj. intro i. rewrite !N.lxor_spec, !N.land_spec, N.ldiff_spec, N.lxor_spec.
  destruct (N.testbit x i), (N.testbit y i), (N.testbit z i); reflexivity.
Qed.

Lemma f_maj x y z : N.lor (N.land (N.lor x y) z) (N.land x y)
  = N.lxor (N.lxor (N.land x y) (N.land x z)) (N.land y z).
Proof.
  apply N.bits_inj. intro i. rewrite !N.lxor_spec, N.lor_spec, !N.land_spec, N.lor_spec.
  destruct (N.testbit x i), (N.testbit y i), (N.testbit z i); reflexivity.
Qed.

Lemma lxor_lt x y : x < 2 ^ 32 -> y < 2 ^ 32 -> N.lxor x y < 2 ^ 32.
Proof.
  intros X Y. apply bits_lt. intros i G. rewrite N.lxor_spec, (bits_ge x 32), (bits_ge y 32) by assumption. reflexivity.
Qed.

(* ---- one block ---- *)

Lemma words_length n : forall b, length (words n b) = n.
Proof. induction n; intro b; cbn [words length]; [reflexivity|rewrite IHn; reflexivity]. Qed.

Lemma be_words_swap n : forall b, length b = (4 * n)%nat -> be_words n b = map swap (words n b).
Proof.
  induction n as [|n IH]; intros b L; [reflexivity|].
  destruct b as [|b0 [|b1 [|b2 [|b3 r]]]]; try (cbn [length] in L; lia).
  cbn [be_words words map]. f_equal.
  - cbn [firstn]. symmetry. apply swap_bytes.
  - apply IH. cbn [skipn]. cbn [length] in L. lia.
Qed.

Lemma words_lt n : forall b, Forall (fun x => x < 2 ^ 32) (words n b).
Proof.
  induction n as [|n IH]; intro b; cbn [words]; constructor; [|apply IH].
  pose proof (unle_bound (firstn 4 b)) as B. rewrite blen_length in B.
  pose proof (firstn_le_length 4 b) as F.
  eapply N.lt_le_trans; [exact B|]. change (2 ^ 32) with (256 ^ 4). apply N.pow_le_mono_r; lia.
Qed.

Lemma swap_lt x : x < 2 ^ 32 -> swap x < 2 ^ 32.
Proof.
  intro L. unfold swap. apply bits_lt. intros i G. rewrite N.lor_spec, !N.land_spec, !rol_bit by (assumption || lia).
  replace (i <? 32) with false by (symmetry; apply N.ltb_ge; lia). reflexivity.
Qed.

Lemma expand_spec n : forall w, exists new, expand n w = new ++ w /\ length new = n /\
  forall k, (k < n)%nat ->
    nth k (expand n w) 0 = rotl 1 (N.lxor (N.lxor (N.lxor (nth (k + 3) (expand n w) 0) (nth (k + 8) (expand n w) 0))
                                     (nth (k + 14) (expand n w) 0)) (nth (k + 16) (expand n w) 0)).
Proof.
  induction n as [|n IH]; intro w; [exists []; cbn; repeat split; lia|].
  cbn [expand]. set (v := rotl 1 _).
  destruct (IH (v :: w)) as (new & E & L & H).
  exists (new ++ [v]). split; [rewrite E, <- app_assoc; reflexivity|]. split; [rewrite app_length; cbn; lia|].
  intros k Lk. destruct (Nat.eq_dec k n) as [->|]; [|apply H; lia].
  rewrite E. rewrite !app_nth2 by lia.
  replace (n - length new)%nat with 0%nat by lia.
  replace (n + 3 - length new)%nat with 3%nat by lia.
  replace (n + 8 - length new)%nat with 8%nat by lia.
  replace (n + 14 - length new)%nat with 14%nat by lia.
  replace (n + 16 - length new)%nat with 16%nat by lia.
  reflexivity.
Qed.

Lemma schedule_shape m : exists l new, schedule m = rev l /\ l = new ++ rev m /\ length new = 64%nat /\
  (forall k, (k < 64)%nat -> nth k l 0 =
     rotl 1 (N.lxor (N.lxor (N.lxor (nth (k + 3) l 0) (nth (k + 8) l 0)) (nth (k + 14) l 0)) (nth (k + 16) l 0))).
Proof.
  unfold schedule. generalize 64%nat. intro n.
  destruct (expand_spec n (rev m)) as (new & E & Ln & H).
  exists (expand n (rev m)), new. split; [reflexivity|]. split; [assumption|]. split; assumption.
Qed.

Lemma schedule_length m : length m = 16%nat -> length (schedule m) = 80%nat.
Proof.
  intro L. destruct (schedule_shape m) as (l & new & -> & -> & Ln & _).
  rewrite rev_length, app_length, rev_length. lia.
Qed.

Lemma schedule_low m t : length m = 16%nat -> (t < 16)%nat -> nth t (schedule m) 0 = nth t m 0.
Proof.
  intros L Lt. destruct (schedule_shape m) as (l & new & -> & -> & Ln & _).
  rewrite rev_app_distr, rev_involutive. apply app_nth1. lia.
Qed.

Lemma rev_recurrence (l : list N) t : length l = 80%nat -> (t < 80)%nat ->
  (forall k, (k < 64)%nat -> nth k l 0 =
     rotl 1 (N.lxor (N.lxor (N.lxor (nth (k + 3) l 0) (nth (k + 8) l 0)) (nth (k + 14) l 0)) (nth (k + 16) l 0))) ->
  (16 <= t)%nat ->
  nth t (rev l) 0 = rotl 1 (N.lxor (N.lxor (N.lxor (nth (t - 3) (rev l) 0) (nth (t - 8) (rev l) 0))
                              (nth (t - 14) (rev l) 0)) (nth (t - 16) (rev l) 0)).
Proof.
  intros Ls Lt H Gt. rewrite !rev_nth by lia. rewrite Ls. rewrite (H (80 - S t)%nat) by lia.
  replace (80 - S t + 3)%nat with (80 - S (t - 3))%nat by lia.
  replace (80 - S t + 8)%nat with (80 - S (t - 8))%nat by lia.
  replace (80 - S t + 14)%nat with (80 - S (t - 14))%nat by lia.
  replace (80 - S t + 16)%nat with (80 - S (t - 16))%nat by lia.
  reflexivity.
Qed.

Lemma schedule_high m t : length m = 16%nat -> (16 <= t < 80)%nat ->
  nth t (schedule m) 0 = rotl 1 (N.lxor (N.lxor (N.lxor (nth (t - 3) (schedule m) 0) (nth (t - 8) (schedule m) 0))
                              (nth (t - 14) (schedule m) 0)) (nth (t - 16) (schedule m) 0)).
Proof.
  intros L Lt. destruct (schedule_shape m) as (l & new & -> & El & Ln & H).
  apply rev_recurrence; [|lia|assumption|lia]. rewrite El, app_length, rev_length. lia.
Qed.

Lemma schedule_lt m t : length m = 16%nat -> Forall (fun x => x < 2 ^ 32) m -> (t < 80)%nat ->
  nth t (schedule m) 0 < 2 ^ 32.
Proof.
  intros L F. induction t as [t IH] using (well_founded_induction lt_wf). intro Lt.
  destruct (Nat.lt_ge_cases t 16).
  - rewrite schedule_low by assumption. rewrite Forall_forall in F. apply F, nth_In. lia.
  - rewrite schedule_high by lia. rewrite <- rol_rotl by (try lia; repeat apply lxor_lt; apply IH; lia).
    apply rol_lt; [|lia]. repeat apply lxor_lt; apply IH; lia.
Qed.

Definition lt5 (h : hash5) : Prop :=
  let '(a, b, c, d, e) := h in a < 2 ^ 32 /\ b < 2 ^ 32 /\ c < 2 ^ 32 /\ d < 2 ^ 32 /\ e < 2 ^ 32.

Opaque schedule.

Definition RInv (m : list N) (ws : list N) (i : nat) (block : list N) : Prop :=
  length block = 16%nat /\
  (forall t, (t < i)%nat -> (i <= t + 16)%nat -> nth (t mod 16) block 0 = nth t (schedule m) 0) /\
  (forall p, (i <= p < 16)%nat -> nth p block 0 = nth p ws 0).

Lemma nset_length {A} n (x : A) l : length (nset n x l) = length l.
Proof. pose proof (nlen_nset n x l). rewrite !nlen_length in H. lia. Qed.

Lemma nth_nset n p x (l : list N) : (p < length l)%nat ->
  nth p (nset n x l) 0 = if N.eqb n (N.of_nat p) then x else nth p l 0.
Proof.
  intro L. revert n p L. induction l as [|a l IH]; intros n p L; [cbn in L; lia|].
  cbn [nset]. destruct (N.eqb_spec n 0) as [->|NZ].
  - destruct p; cbn [nth]; [reflexivity|]. replace (0 =? N.of_nat (S p)) with false by (symmetry; apply N.eqb_neq; lia). reflexivity.
  - destruct p; cbn [nth].
    + replace (n =? N.of_nat 0) with false by (symmetry; apply N.eqb_neq; lia). reflexivity.
    + cbn [length] in L. rewrite IH by lia.
      destruct (N.eqb_spec (N.pred n) (N.of_nat p)), (N.eqb_spec n (N.of_nat (S p))); try reflexivity; lia.
Qed.

Lemma word_nth n (l : list N) : word n l = nth (N.to_nat n) l 0.
Proof.
  unfold word. rewrite nget_nth. destruct (nth_error l (N.to_nat n)) eqn:E.
  - symmetry. apply nth_error_nth. assumption.
  - symmetry. apply nth_overflow. apply nth_error_None. assumption.
Qed.

Lemma land15 i : N.land i 15 = i mod 16.
Proof. change 15 with (N.ones 4). rewrite N.land_ones. reflexivity. Qed.

(* the rolling block of 16 words holds the last 16 words of the schedule *)
Lemma block_step ws i block :
  length ws = 16%nat -> Forall (fun x => x < 2 ^ 32) ws -> (i < 80)%nat ->
  RInv (map swap ws) ws i block ->
  exists block', (if N.of_nat i <? 16 then blk0 (N.of_nat i) block else blk (N.of_nat i) block)
                 = (nth i (schedule (map swap ws)) 0, block') /\ RInv (map swap ws) ws (S i) block'.
Proof.
  intros L F Li (Lb & Hd & Hp).
  set (m := map swap ws) in *.
  assert (Lm : length m = 16%nat) by (unfold m; rewrite map_length; assumption).
  assert (Fm : Forall (fun x => x < 2 ^ 32) m).
  { unfold m. rewrite Forall_map. eapply Forall_impl; [|exact F]. intros. apply swap_lt. assumption. }
  assert (Done : forall block', length block' = 16%nat ->
    (forall p, (p < 16)%nat -> nth p block' 0 = if Nat.eqb (i mod 16) p then nth i (schedule m) 0 else nth p block 0) ->
    RInv m ws (S i) block').
  { intros block' L' H'. split; [assumption|]. split.
    - intros t Ht Gt. rewrite H' by (apply Nat.mod_upper_bound; lia).
      destruct (Nat.eqb_spec (i mod 16) (t mod 16)) as [E|NE].
      + replace t with i; [reflexivity|]. lia.
      + apply Hd; [|lia]. destruct (Nat.eq_dec t i) as [->|]; [contradiction|lia].
    - intros p Hpp. rewrite H' by lia. destruct (Nat.eqb_spec (i mod 16) p) as [E|NE]; [exfalso; lia|].
      apply Hp. lia. }
  destruct (N.ltb_spec (N.of_nat i) 16) as [B|B].
  - unfold blk0. rewrite nget_nth, Nat2N.id.
    destruct (nth_error block i) as [x|] eqn:E.
    2:{ apply nth_error_None in E. lia. }
    pose proof (nth_error_nth _ _ 0 E) as Ex. rewrite Hp in Ex by lia.
    exists (nset (N.of_nat i) (swap x) block). split.
    + f_equal. rewrite schedule_low by (assumption || lia).
      change (N.lor _ _) with (swap x). unfold m.
      change 0 with (swap 0) at 1. rewrite map_nth, Ex. reflexivity.
    + apply Done; [rewrite nset_length; assumption|]. intros p Lp. rewrite nth_nset by lia.
      rewrite Nat.mod_small by lia.
      destruct (N.eqb_spec (N.of_nat i) (N.of_nat p)), (Nat.eqb_spec i p); try reflexivity; try lia.
      rewrite schedule_low by (assumption || lia). unfold m. change 0 with (swap 0) at 1. rewrite map_nth, Ex. reflexivity.
  - unfold blk. rewrite !land15, !word_nth.
    assert (Hw : forall k, (1 <= k <= 16)%nat -> (N.to_nat ((N.of_nat i + N.of_nat (16 - k)) mod 16)) = ((i - k) mod 16)%nat) by lia.
    pose proof (Hw 3%nat ltac:(lia)) as W3. pose proof (Hw 8%nat ltac:(lia)) as W8.
    pose proof (Hw 14%nat ltac:(lia)) as W14. 
    change (N.of_nat (16 - 3)) with 13 in W3. change (N.of_nat (16 - 8)) with 8 in W8. change (N.of_nat (16 - 14)) with 2 in W14.
    replace (N.to_nat (N.of_nat i mod 16)) with ((i - 16) mod 16)%nat by lia.
    rewrite W3, W8, W14. rewrite !Hd by lia.
    assert (V : rol (N.lxor (N.lxor (N.lxor (nth (i - 3) (schedule m) 0) (nth (i - 8) (schedule m) 0))
                (nth (i - 14) (schedule m) 0)) (nth (i - 16) (schedule m) 0)) 1 = nth i (schedule m) 0).
    { rewrite (schedule_high m i) by lia. apply rol_rotl; [|lia].
      repeat apply lxor_lt; apply schedule_lt; (assumption || lia). }
    rewrite V. eexists. split; [reflexivity|].
    apply Done; [rewrite nset_length; assumption|]. intros p Lp. rewrite nth_nset by lia.
    destruct (N.eqb_spec (N.of_nat i mod 16) (N.of_nat p)), (Nat.eqb_spec (i mod 16) p); try reflexivity; lia.
Qed.

Lemma u32_lt' x : u32 x < 2 ^ 32.
Proof. apply u32_lt. Qed.

Lemma round_step ws i h block :
  length ws = 16%nat -> Forall (fun x => x < 2 ^ 32) ws -> (i < 80)%nat -> lt5 h ->
  RInv (map swap ws) ws i block ->
  exists block', round (N.of_nat i) (h, block) = (fips_step (schedule (map swap ws)) h i, block')
    /\ RInv (map swap ws) ws (S i) block' /\ lt5 (fips_step (schedule (map swap ws)) h i).
Proof.
  intros L F Li H5 R. destruct (block_step ws i block L F Li R) as (block' & E & R').
  exists block'. destruct h as ((((a, b), c), d), e). destruct H5 as (Ha & Hb & Hc & Hd & He).
  unfold round. rewrite E. split; [|split; [exact R'|]].
  - unfold fips_step. rewrite <- !rol_rotl by (assumption || lia).
    f_equal. repeat (apply f_equal2; [|reflexivity]).
    unfold w32. change (2 ^ 32) with 4294967296.
    assert (Ef : (if N.of_nat i <? 20 then N.lxor (N.land b (N.lxor c d)) d
           else if N.of_nat i <? 40 then N.lxor (N.lxor b c) d
           else if N.of_nat i <? 60 then N.lor (N.land (N.lor b c) d) (N.land b c)
           else N.lxor (N.lxor b c) d) = fips_f i b c d).
    { unfold fips_f.
      destruct (N.ltb_spec (N.of_nat i) 20), (Nat.ltb_spec i 20); try (exfalso; lia); [apply f_ch|].
      destruct (N.ltb_spec (N.of_nat i) 40), (Nat.ltb_spec i 40); try (exfalso; lia); [reflexivity|].
      destruct (N.ltb_spec (N.of_nat i) 60), (Nat.ltb_spec i 60); try (exfalso; lia); [apply f_maj|reflexivity]. }
    assert (Ek : (if N.of_nat i <? 20 then 1518500249 else if N.of_nat i <? 40 then 1859775393
           else if N.of_nat i <? 60 then 2400959708 else 3395469782) = fips_k i).
    { unfold fips_k.
      destruct (N.ltb_spec (N.of_nat i) 20), (Nat.ltb_spec i 20); try (exfalso; lia); [reflexivity|].
      destruct (N.ltb_spec (N.of_nat i) 40), (Nat.ltb_spec i 40); try (exfalso; lia); [reflexivity|].
      destruct (N.ltb_spec (N.of_nat i) 60), (Nat.ltb_spec i 60); try (exfalso; lia); reflexivity. }
    rewrite Ef, Ek. unfold u32. generalize (fips_f i b c d) (fips_k i) (rol a 5) (nth i (schedule (map swap ws)) 0).
    intros u v w x. replace (e + (u + x + v + w)) with (w + u + e + v + x) by lia. reflexivity.
  - unfold fips_step, lt5, w32. rewrite <- !rol_rotl by (assumption || lia).
    split; [apply N.mod_lt; discriminate|]. split; [assumption|]. split; [apply rol_lt; (assumption || lia)|].
    split; assumption.
Qed.

Lemma rounds_run ws : length ws = 16%nat -> Forall (fun x => x < 2 ^ 32) ws ->
  forall n i h block, (i + n <= 80)%nat -> lt5 h -> RInv (map swap ws) ws i block ->
  fst (rounds n (N.of_nat i) (h, block)) = fold_left (fips_step (schedule (map swap ws))) (seq i n) h
  /\ lt5 (fold_left (fips_step (schedule (map swap ws))) (seq i n) h).
Proof.
  intros L F n. induction n as [|n IH]; intros i h block B H5 R; [split; [reflexivity|assumption]|].
  cbn [rounds seq fold_left].
  destruct (round_step ws i h block L F ltac:(lia) H5 R) as (block' & E & R' & H5').
  rewrite E. replace (N.of_nat i + 1) with (N.of_nat (S i)) by lia. apply IH; [lia|assumption|assumption].
Qed.

Lemma transform_ok h b : length b = 64%nat -> lt5 h -> sha1_transform h b = fips_block h b /\ lt5 (fips_block h b).
Proof.
  intros L H5. destruct h as ((((a0, b0), c0), d0), e0). unfold sha1_transform, fips_block.
  rewrite (be_words_swap 16 b) by lia.
  destruct (rounds_run (words 16 b) (words_length 16 b) (words_lt 16 b) 80 0 (a0, b0, c0, d0, e0) (words 16 b)) as (E & _).
  - lia.
  - assumption.
  - split; [apply words_length|]. split; [lia|reflexivity].
  - change (N.of_nat 0) with 0 in E. unfold vars, hash5 in *.
    destruct (rounds 80 0 (a0, b0, c0, d0, e0, words 16 b)) as [h' bl]. cbn [fst] in E. rewrite <- E.
    destruct h' as ((((a1, b1), c1), d1), e1).
    cbv beta iota. unfold w32, u32. change (2 ^ 32) with 4294967296. split.
    + rewrite (N.add_comm a0), (N.add_comm b0), (N.add_comm c0), (N.add_comm d0), (N.add_comm e0). reflexivity.
    + unfold lt5. repeat split; apply N.mod_lt; discriminate.
Qed.

(* ---- the stream ---- *)

Lemma fb_app n : forall h m d, (64 * n <= length m)%nat -> fips_blocks n h (m ++ d) = fips_blocks n h m.
Proof.
  induction n as [|n IH]; intros h m d L; [reflexivity|]. cbn [fips_blocks].
  rewrite firstn_app, skipn_app.
  replace (64 - length m)%nat with 0%nat by lia. change (firstn 0 d) with (@nil byte). change (skipn 0 d) with d. rewrite app_nil_r.
  apply IH. rewrite skipn_length. lia.
Qed.

Lemma skipn_skipn' {A} b : forall a (l : list A), skipn a (skipn b l) = skipn (b + a) l.
Proof.
  induction b as [|b IH]; intros a l; [reflexivity|]. destruct l as [|x l]; [destruct a; reflexivity|].
  cbn [skipn Nat.add]. apply IH.
Qed.

Lemma fb_S n : forall h m, fips_blocks (S n) h m = fips_block (fips_blocks n h m) (firstn 64 (skipn (64 * n) m)).
Proof.
  induction n as [|n IH]; intros h m; [reflexivity|].
  change (fips_blocks (S (S n)) h m) with (fips_blocks (S n) (fips_block h (firstn 64 m)) (skipn 64 m)).
  rewrite IH. change (fips_blocks (S n) h m) with (fips_blocks n (fips_block h (firstn 64 m)) (skipn 64 m)).
  rewrite skipn_skipn'. replace (64 * S n)%nat with (64 + 64 * n)%nat by lia. reflexivity.
Qed.

Definition CI (c : sha1_ctx) (m : bytes) : Prop :=
  let n := length m in
  h_count0 c = u32 (8 * N.of_nat n) /\ h_count1 c = u32 (8 * N.of_nat n / 4294967296) /\
  length (h_buffer c) = 64%nat /\ h_state c = fips_blocks (n / 64) fips_init m /\ lt5 (h_state c) /\
  firstn (n mod 64) (h_buffer c) = skipn (64 * (n / 64)) m.

Lemma ci_init : CI sha1_init [].
Proof.
  unfold CI. cbn [length]. change (0 / 64)%nat with 0%nat. change (0 mod 64)%nat with 0%nat.
  repeat split; reflexivity.
Qed.

Lemma fwrite_nat f o b : (o + length b <= length f)%nat ->
  fwrite f (N.of_nat o) b = firstn o f ++ b ++ skipn (o + length b) f.
Proof.
  intro L. unfold fwrite. rewrite nfirst_firstn, nskip_skipn, !blen_length, Nat2N.id.
  replace (N.of_nat o - N.of_nat (length f)) with 0 by lia. cbn [zeros N.to_nat repeat app].
  replace (N.to_nat (N.of_nat o + N.of_nat (length b))) with (o + length b)%nat by lia. reflexivity.
Qed.

Lemma update_ok c m d : CI c m -> (1 <= length d)%nat -> (length m mod 64 + length d <= 64)%nat ->
  CI (sha1_update c d) (m ++ d).
Proof.
  intros (C0 & C1 & Lb & Hs & H5 & Hf) D B.
  set (n := length m) in *. set (q := (n / 64)%nat) in *. set (r := (n mod 64)%nat) in *.
  assert (Nq : n = (64 * q + r)%nat) by (unfold q, r; lia).
  assert (R : (r < 64)%nat) by (unfold r; lia).
  unfold sha1_update. rewrite blen_length.
  assert (J : N.land (N.shiftr (h_count0 c) 3) 63 = N.of_nat r).
  { rewrite C0. change 63 with (N.ones 6). rewrite N.land_ones, N.shiftr_div_pow2. unfold u32.
    change (2 ^ 3) with 8. change (2 ^ 6) with 64. lia. }
  rewrite J.
  assert (C0' : u32 (h_count0 c + u32 (N.shiftl (N.of_nat (length d)) 3)) = u32 (8 * N.of_nat (n + length d))).
  { rewrite C0, N.shiftl_mul_pow2. change (2 ^ 3) with 8. unfold u32. lia. }
  rewrite C0'.
  assert (C1' : u32 (h_count1 c + (if u32 (8 * N.of_nat (n + length d)) <? h_count0 c then 1 else 0)
                     + N.shiftr (N.of_nat (length d)) 29) = u32 (8 * N.of_nat (n + length d) / 4294967296)).
  { rewrite C0, C1, N.shiftr_div_pow2. change (2 ^ 29) with 536870912.
    rewrite (N.div_small (N.of_nat (length d))) by lia.
    unfold u32. destruct (N.ltb_spec ((8 * N.of_nat (n + length d)) mod 4294967296) ((8 * N.of_nat n) mod 4294967296)); lia. }
  rewrite C1'.
  assert (Lmd : length (m ++ d) = (n + length d)%nat) by (rewrite app_length; reflexivity).
  assert (Tail : skipn (64 * q) (m ++ d) = skipn (64 * q) m ++ d).
  { rewrite skipn_app. fold n. replace (64 * q - n)%nat with 0%nat by lia. reflexivity. }
  destruct (N.ltb_spec 63 (N.of_nat r + N.of_nat (length d))) as [G|G].
  - assert (E64 : (r + length d = 64)%nat) by lia.
    replace (nfirst (64 - N.of_nat r) d) with d.
    2:{ rewrite nfirst_firstn. symmetry. apply firstn_all2. lia. }
    rewrite fwrite_nat by lia.
    rewrite E64, <- Lb, skipn_all, app_nil_r, Hf.
    set (blk := skipn (64 * q) m ++ d).
    assert (Lk : length blk = 64%nat) by (unfold blk; rewrite app_length, skipn_length; fold n; lia).
    assert (Sb : sha1_blocks (length d) (sha1_transform (h_state c) blk) d (64 - N.of_nat r)
                 = (sha1_transform (h_state c) blk, 64 - N.of_nat r)).
    { destruct (length d) as [|fuel] eqn:Ed; [lia|]. cbn [sha1_blocks]. rewrite blen_length.
      replace (64 - N.of_nat r + 63 <? N.of_nat (length d)) with false by (symmetry; apply N.ltb_ge; lia). reflexivity. }
    rewrite Sb.
    replace (nskip (64 - N.of_nat r) d) with (@nil byte).
    2:{ rewrite nskip_skipn. symmetry. apply skipn_all2. lia. }
    destruct (transform_ok (h_state c) blk Lk H5) as (T & T5).
    unfold CI. cbn [h_count0 h_count1 h_buffer h_state]. rewrite Lmd.
    replace ((n + length d) / 64)%nat with (S q) by lia.
    replace ((n + length d) mod 64)%nat with 0%nat by lia.
    split; [reflexivity|]. split; [reflexivity|].
    split. { change 0 with (N.of_nat 0). rewrite fwrite_nat by (cbn [length]; lia). cbn [firstn app length Nat.add skipn]. exact Lk. }
    split. { rewrite T, fb_S, Hs. f_equal.
             - symmetry. apply fb_app. fold n. lia.
             - rewrite Tail. fold blk. rewrite <- Lk. symmetry. apply firstn_all. }
    split; [rewrite T; exact T5|].
    cbn [firstn]. symmetry. apply skipn_all2. lia.
  - unfold CI. cbn [h_count0 h_count1 h_buffer h_state]. rewrite Lmd.
    replace ((n + length d) / 64)%nat with q by lia.
    replace ((n + length d) mod 64)%nat with (r + length d)%nat by lia.
    split; [reflexivity|]. split; [reflexivity|].
    rewrite fwrite_nat by lia.
    split. { rewrite !app_length, firstn_length, skipn_length. lia. }
    split. { rewrite Hs. symmetry. apply fb_app. fold n. lia. }
    split; [exact H5|].
    rewrite app_assoc, firstn_app.
    assert (Lp : length (firstn r (h_buffer c) ++ d) = (r + length d)%nat) by (rewrite app_length, firstn_length; lia).
    rewrite Lp, Nat.sub_diag. cbn [firstn]. rewrite app_nil_r, <- Lp, firstn_all, Hf. symmetry. exact Tail.
Qed.

Lemma updates_ok s : forall c m, CI c m -> CI (fold_left (fun c b => sha1_update c [b]) s c) (m ++ s).
Proof.
  induction s as [|b s IH]; intros c m H; [rewrite app_nil_r; exact H|].
  cbn [fold_left]. change (b :: s) with ([b] ++ s). rewrite app_assoc. apply IH.
  apply update_ok; [exact H|cbn; lia|cbn [length]; lia].
Qed.

Lemma land504 x : N.land x 504 = 8 * ((x / 8) mod 64).
Proof.
  apply N.bits_inj. intro i. change 504 with (N.shiftl (N.ones 6) 3).
  replace (8 * ((x / 8) mod 64)) with (N.shiftl ((N.shiftr x 3) mod 2 ^ 6) 3)
    by (rewrite N.shiftl_mul_pow2, N.shiftr_div_pow2; change (2 ^ 3) with 8; change (2 ^ 6) with 64; lia).
  rewrite N.land_spec. destruct (N.lt_ge_cases i 3) as [L|G].
  - rewrite !N.shiftl_spec_low by assumption. apply andb_false_r.
  - rewrite !N.shiftl_spec_high by lia. rewrite <- N.land_ones, N.land_spec, N.shiftr_spec by lia.
    replace (i - 3 + 3) with i by lia. reflexivity.
Qed.

Lemma pad_ok k : forall c m f, CI c m -> ((120 - length m mod 64) mod 64 = k)%nat -> (k <= f)%nat ->
  CI (sha1_pad f c) (m ++ repeat x00 k).
Proof.
  induction k as [|k IH]; intros c m f H E F.
  - cbn [repeat]. rewrite app_nil_r. destruct f as [|f]; [exact H|]. cbn [sha1_pad].
    replace (N.land (h_count0 c) 504 =? 448) with true; [exact H|].
    symmetry. apply N.eqb_eq. rewrite land504. destruct H as (-> & _). unfold u32. lia.
  - destruct f as [|f]; [lia|]. cbn [sha1_pad].
    replace (N.land (h_count0 c) 504 =? 448) with false.
    2:{ symmetry. apply N.eqb_neq. rewrite land504. destruct H as (-> & _). unfold u32. lia. }
    change (repeat x00 (S k)) with ([x00] ++ repeat x00 k). rewrite app_assoc. apply IH; [|rewrite app_length; cbn [length]; lia|lia].
    apply update_ok; [exact H|cbn; lia|cbn [length]; lia].
Qed.

Lemma n2b_mod x : n2b (x mod 4294967296) = n2b x.
Proof. apply b2n_inj. rewrite !b2n_n2b. lia. Qed.

Lemma le4_u32 x : le 4 (u32 x) = le 4 x.
Proof.
  assert (K : forall a b, u32 a = u32 b -> le 4 a = le 4 b).
  { intros a b E. rewrite <- (le_unle (le 4 a)), <- (le_unle (le 4 b)), !unle_le4, !le_length, E. reflexivity. }
  apply K. unfold u32. apply N.mod_mod. discriminate.
Qed.

Lemma be8_split x : be4 (u32 (x / 4294967296)) ++ be4 (u32 x) = be 8 x.
Proof.
  unfold be4, be. rewrite !le4_u32, <- rev_app_distr. f_equal. cbn [le app].
  rewrite !N.div_div by discriminate. reflexivity.
Qed.

Lemma sha1_ok m : zdb_sha1 m = fips_sha1 m.
Proof.
  unfold zdb_sha1. pose proof (updates_ok m sha1_init [] ci_init) as H. cbn [app] in H.
  set (c := fold_left _ m sha1_init) in *. clearbody c.
  unfold sha1_final.
  assert (H1 : CI (sha1_update c [x80]) (m ++ [x80])) by (apply update_ok; [exact H|cbn; lia|cbn [length]; lia]).
  set (k := ((119 - length m mod 64) mod 64)%nat).
  assert (H2 : CI (sha1_pad 64 (sha1_update c [x80])) ((m ++ [x80]) ++ repeat x00 k)).
  { apply pad_ok; [exact H1| |].
    - rewrite app_length. cbn [length]. unfold k. lia.
    - unfold k. lia. }
  set (c1 := sha1_pad 64 (sha1_update c [x80])) in *. clearbody c1.
  destruct H as (Z0 & Z1 & _). rewrite Z0, Z1, be8_split.
  assert (L8 : length (be 8 (8 * N.of_nat (length m))) = 8%nat) by (unfold be; rewrite rev_length; apply le_length).
  assert (H3 : CI (sha1_update c1 (be 8 (8 * N.of_nat (length m)))) (fips_pad m)).
  { unfold fips_pad. fold k. rewrite app_assoc, app_assoc. apply update_ok; [exact H2|lia|].
    rewrite L8, !app_length, repeat_length. cbn [length]. unfold k. lia. }
  destruct H3 as (_ & _ & _ & S & _). rewrite S. reflexivity.
Qed.

Lemma hexdigit_ok n : n < 16 -> hexdigit n = nth (N.to_nat n) hex_digits x00.
Proof.
  intro L. destruct n as [|p]; [reflexivity|].
  do 4 (destruct p as [p|p|]; [| |reflexivity]; try lia).
Qed.

Lemma hex_ok b : hexstr b = hex_text b.
Proof.
  induction b as [|x b IH]; [reflexivity|]. unfold hexstr, hex_text in *. cbn [flat_map].
  pose proof (b2n_lt x). rewrite !hexdigit_ok by lia. rewrite IH. reflexivity.
Qed.

Lemma hash_ok n p : zdb_hash_password n p = challenge_digest n p.
Proof. unfold zdb_hash_password, challenge_digest. rewrite hex_ok, sha1_ok. reflexivity. Qed.

Lemma hex_text_length b : length (hex_text b) = (2 * length b)%nat.
Proof. induction b as [|x b IH]; [reflexivity|]. unfold hex_text in *. cbn [flat_map app length]. rewrite IH. lia. Qed.

Lemma digest_length n p : length (challenge_digest n p) = 40%nat.
Proof.
  unfold challenge_digest, fips_sha1. rewrite hex_text_length.
  destruct (fips_blocks _ _ _) as ((((a, b), c), d), e).
  rewrite !app_length. unfold be. rewrite !rev_length, !le_length. reflexivity.
Qed.

Lemma hex_digit_nz n : n < 16 -> nth (N.to_nat n) hex_digits x00 <> x00.
Proof.
  intro L. destruct n as [|p]; [discriminate|].
  do 4 (destruct p as [p|p|]; [| |discriminate]; try lia).
Qed.

Lemma digest_text n p : Forall (fun x => x <> x00) (challenge_digest n p).
Proof.
  unfold challenge_digest. generalize (fips_sha1 (n ++ [x3a] ++ p)). intro l.
  induction l as [|x l IH]; [constructor|]. unfold hex_text in *. cbn [flat_map app].
  pose proof (b2n_lt x). constructor; [apply hex_digit_nz; lia|]. constructor; [apply hex_digit_nz; lia|exact IH].
Qed.
