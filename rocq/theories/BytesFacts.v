(* Lemmas on Bytes.v *)
From Coq Require Import List NArith ZArith Bool Strings.Byte Lia ZifyBool ZifyN ZifyNat.
From Verif Require Import Bytes.
Import ListNotations.
Open Scope N_scope.
Ltac Zify.zify_post_hook ::= Z.div_mod_to_equations.

Lemma b2n_lt b : b2n b < 256.
Proof. unfold b2n. pose proof (Byte.to_N_bounded b). lia. Qed.

Lemma b2n_n2b n : b2n (n2b n) = n mod 256.
Proof.
  unfold b2n, n2b. destruct (Byte.of_N (n mod 256)) eqn:E.
  - now apply Byte.to_of_N in E.
  - apply Byte.of_N_None_iff in E. pose proof (N.mod_lt n 256). lia.
Qed.

Lemma n2b_b2n b : n2b (b2n b) = b.
Proof.
  unfold n2b, b2n. rewrite N.mod_small by (apply b2n_lt).
  now rewrite Byte.of_to_N.
Qed.

Lemma b2n_inj a b : b2n a = b2n b -> a = b.
Proof. intros H. rewrite <- (n2b_b2n a), <- (n2b_b2n b). now rewrite H. Qed.

Lemma le_length k x : length (le k x) = k.
Proof. revert x; induction k; simpl; intros; auto. Qed.

Lemma blen_length l : blen l = N.of_nat (length l).
Proof. induction l; cbn [blen length]; lia. Qed.

Lemma nlen_length {A} (l : list A) : nlen l = N.of_nat (length l).
Proof. induction l; cbn [nlen length]; lia. Qed.

Lemma blen_app a b : blen (a ++ b) = blen a + blen b.
Proof. rewrite !blen_length, app_length. lia. Qed.

Lemma nlen_app {A} (a b : list A) : nlen (a ++ b) = nlen a + nlen b.
Proof. rewrite !nlen_length, app_length. lia. Qed.

Lemma blen_le k x : blen (le k x) = N.of_nat k.
Proof. now rewrite blen_length, le_length. Qed.

Lemma pow256 k : 256 ^ N.of_nat (S k) = 256 * 256 ^ N.of_nat k.
Proof. rewrite Nnat.Nat2N.inj_succ, N.pow_succ_r'. reflexivity. Qed.

Lemma unle_le k x : unle (le k x) = x mod 256 ^ N.of_nat k.
Proof.
  revert x; induction k; intros.
  - cbn. now rewrite N.mod_1_r.
  - cbn [le unle]. rewrite IHk, b2n_n2b, pow256.
    rewrite N.mod_mul_r by (try apply N.pow_nonzero; lia). lia.
Qed.

Lemma unle_bound l : unle l < 256 ^ blen l.
Proof.
  induction l; cbn [unle blen].
  - reflexivity.
  - rewrite N.pow_succ_r'. pose proof (b2n_lt a). generalize dependent (256 ^ blen l). intros; lia.
Qed.

Lemma le_unle l : le (length l) (unle l) = l.
Proof.
  induction l; cbn [le unle length]; auto.
  f_equal.
  - apply b2n_inj. rewrite b2n_n2b. pose proof (b2n_lt a). lia.
  - transitivity (le (length l) (unle l)); auto. f_equal. pose proof (b2n_lt a). lia.
Qed.

Lemma unle_le_small k x : x < 256 ^ N.of_nat k -> unle (le k x) = x.
Proof. intros. rewrite unle_le. now apply N.mod_small. Qed.

Lemma unle_le1 x : unle (le 1 x) = u8 x.
Proof. rewrite unle_le. reflexivity. Qed.
Lemma unle_le4 x : unle (le 4 x) = u32 x.
Proof. rewrite unle_le. reflexivity. Qed.
Lemma unle_le8 x : unle (le 8 x) = u64 x.
Proof. rewrite unle_le. reflexivity. Qed.

Lemma le_inj k x y : x < 256 ^ N.of_nat k -> y < 256 ^ N.of_nat k ->
  le k x = le k y -> x = y.
Proof.
  intros Hx Hy E. rewrite <- (unle_le_small k x Hx), <- (unle_le_small k y Hy).
  now rewrite E.
Qed.

Lemma u8_small x : x < 256 -> u8 x = x.
Proof. intros. unfold u8. now apply N.mod_small. Qed.
Lemma u32_small x : x < 4294967296 -> u32 x = x.
Proof. intros. unfold u32. now apply N.mod_small. Qed.
Lemma u64_small x : x < 18446744073709551616 -> u64 x = x.
Proof. intros. unfold u64. now apply N.mod_small. Qed.

Lemma u8_lt x : u8 x < 256.
Proof. unfold u8. apply N.mod_lt. lia. Qed.
Lemma u32_lt x : u32 x < 4294967296.
Proof. unfold u32. apply N.mod_lt. lia. Qed.
Lemma u64_lt x : u64 x < 18446744073709551616.
Proof. unfold u64. apply N.mod_lt. lia. Qed.

Lemma sub64_exact a b : b <= a -> a < 18446744073709551616 -> sub64 a b = a - b.
Proof. intros. unfold sub64. lia. Qed.

(* nfirst / nskip *)
Lemma nfirst_firstn {A} n (l : list A) : nfirst n l = firstn (N.to_nat n) l.
Proof.
  revert n; induction l; intros; cbn [nfirst].
  - now rewrite firstn_nil.
  - destruct (N.eqb_spec n 0).
    + subst. reflexivity.
    + replace (N.to_nat n) with (S (N.to_nat (N.pred n))) by lia. cbn. now rewrite IHl.
Qed.

Lemma nskip_skipn {A} n (l : list A) : nskip n l = skipn (N.to_nat n) l.
Proof.
  revert n; induction l; intros; cbn [nskip].
  - now rewrite skipn_nil.
  - destruct (N.eqb_spec n 0).
    + subst. reflexivity.
    + replace (N.to_nat n) with (S (N.to_nat (N.pred n))) by lia. cbn. now rewrite IHl.
Qed.

Lemma nget_nth {A} n (l : list A) : nget n l = nth_error l (N.to_nat n).
Proof.
  revert n; induction l; intros; cbn [nget].
  - now destruct (N.to_nat n).
  - destruct (N.eqb_spec n 0).
    + subst. reflexivity.
    + replace (N.to_nat n) with (S (N.to_nat (N.pred n))) by lia. cbn. now rewrite IHl.
Qed.

Lemma nfirst_nskip {A} n (l : list A) : nfirst n l ++ nskip n l = l.
Proof. rewrite nfirst_firstn, nskip_skipn. apply firstn_skipn. Qed.

Lemma nfirst_0 {A} (l : list A) : nfirst 0 l = [].
Proof. now rewrite nfirst_firstn. Qed.
Lemma nskip_0 {A} (l : list A) : nskip 0 l = l.
Proof. now rewrite nskip_skipn. Qed.

Lemma nfirst_all {A} n (l : list A) : nlen l <= n -> nfirst n l = l.
Proof. intros. rewrite nfirst_firstn. apply firstn_all2. rewrite nlen_length in H. lia. Qed.
Lemma nskip_all {A} n (l : list A) : nlen l <= n -> nskip n l = [].
Proof. intros. rewrite nskip_skipn. apply skipn_all2. rewrite nlen_length in H. lia. Qed.

Lemma blen_nlen l : blen l = nlen l.
Proof. now rewrite blen_length, nlen_length. Qed.

Lemma nfirst_app_exact {A} (a b : list A) : nfirst (nlen a) (a ++ b) = a.
Proof.
  rewrite nfirst_firstn, nlen_length, Nnat.Nat2N.id.
  rewrite firstn_app, firstn_all, Nat.sub_diag. cbn. apply app_nil_r.
Qed.
Lemma nskip_app_exact {A} (a b : list A) : nskip (nlen a) (a ++ b) = b.
Proof.
  rewrite nskip_skipn, nlen_length, Nnat.Nat2N.id.
  rewrite skipn_app, skipn_all, Nat.sub_diag. reflexivity.
Qed.

Lemma nfirst_app_exact' (a b : bytes) n : n = blen a -> nfirst n (a ++ b) = a.
Proof. intros ->. rewrite blen_nlen. apply nfirst_app_exact. Qed.
Lemma nskip_app_exact' (a b : bytes) n : n = blen a -> nskip n (a ++ b) = b.
Proof. intros ->. rewrite blen_nlen. apply nskip_app_exact. Qed.

Lemma nskip_app_more (a b : bytes) n : nskip (blen a + n) (a ++ b) = nskip n b.
Proof.
  rewrite !nskip_skipn, blen_length.
  replace (N.to_nat (N.of_nat (length a) + n)) with (length a + N.to_nat n)%nat by lia.
  rewrite skipn_app. rewrite skipn_all2 by lia. cbn. f_equal. lia.
Qed.

Lemma nskip_nskip {A} n m (l : list A) : nskip n (nskip m l) = nskip (m + n) l.
Proof.
  rewrite !nskip_skipn.
  replace (N.to_nat (m + n)) with (N.to_nat m + N.to_nat n)%nat by lia.
  generalize (N.to_nat m) (N.to_nat n). intros a b. revert l.
  induction a; intros; cbn [Nat.add skipn]; auto.
  destruct l. now rewrite skipn_nil. apply IHa.
Qed.

Lemma fread_app a b c n : n = blen b -> fread (a ++ b ++ c) (blen a) n = b.
Proof.
  intros. unfold fread. rewrite nskip_app_exact' by reflexivity.
  now apply nfirst_app_exact'.
Qed.

Lemma fread_blen f off len : blen (fread f off len) = N.min len (blen f - off).
Proof.
  unfold fread. rewrite nfirst_firstn, nskip_skipn, !blen_length, firstn_length, skipn_length. lia.
Qed.

Lemma fread_eof f off len : blen f <= off -> fread f off len = [].
Proof.
  intros. unfold fread. rewrite nskip_all by (now rewrite <- blen_nlen). reflexivity.
Qed.

(* a read that was complete is unchanged by an append *)
Lemma fread_append f off len x : off + len <= blen f -> fread (f ++ x) off len = fread f off len.
Proof.
  intros. unfold fread. rewrite !nfirst_firstn, !nskip_skipn.
  rewrite blen_length in H.
  rewrite skipn_app, firstn_app.
  replace (N.to_nat len - length (skipn (N.to_nat off) f))%nat with O.
  2: rewrite skipn_length; lia.
  cbn. apply app_nil_r.
Qed.

Lemma fread_full_in f off len b : fread f off len = b -> blen b = len -> 0 < len -> off + len <= blen f.
Proof. intros <- H Hp. rewrite fread_blen in H. lia. Qed.

Lemma fwrite_app a b b' c : blen b = blen b' -> fwrite (a ++ b ++ c) (blen a) b' = a ++ b' ++ c.
Proof.
  intros. unfold fwrite.
  rewrite nfirst_app_exact' by reflexivity.
  rewrite blen_app.
  replace (blen a - (blen a + blen (b ++ c))) with 0 by lia.
  rewrite nskip_app_more, nskip_app_exact' by auto. reflexivity.
Qed.

Lemma fwrite_end f b : fwrite f (blen f) b = f ++ b.
Proof.
  unfold fwrite. rewrite nfirst_all by (rewrite blen_nlen; lia).
  rewrite N.sub_diag. rewrite nskip_all by (rewrite <- blen_nlen; lia).
  now rewrite app_nil_r.
Qed.

Lemma fwrite_blen f off b : off <= blen f -> blen (fwrite f off b) = N.max (blen f) (off + blen b).
Proof.
  intros. unfold fwrite. rewrite !blen_app.
  rewrite !blen_length, nfirst_firstn, nskip_skipn, firstn_length, skipn_length.
  rewrite blen_length in H. unfold zeros. rewrite repeat_length. lia.
Qed.

(* nget / nset *)
Lemma nget_lt {A} n (l : list A) x : nget n l = Some x -> n < nlen l.
Proof.
  rewrite nget_nth, nlen_length. intros H.
  assert (N.to_nat n < length l)%nat by (apply nth_error_Some; congruence). lia.
Qed.
Lemma nget_None {A} n (l : list A) : nget n l = None <-> nlen l <= n.
Proof. rewrite nget_nth, nlen_length, nth_error_None. lia. Qed.
Lemma nget_Some {A} n (l : list A) : n < nlen l -> exists x, nget n l = Some x.
Proof. intros. destruct (nget n l) eqn:E; eauto. apply nget_None in E. lia. Qed.

Lemma nlen_nset {A} n (x : A) l : nlen (nset n x l) = nlen l.
Proof. revert n; induction l; intros; cbn [nset nlen]; auto. destruct (n =? 0); cbn [nlen]; auto. now rewrite IHl. Qed.

Lemma nget_nset {A} n m (x : A) l :
  nget m (nset n x l) = if (m =? n) then (if n <? nlen l then Some x else None) else nget m l.
Proof.
  revert n m; induction l; intros; cbn [nset nget nlen].
  - destruct (m =? n); auto. replace (n <? 0) with false by lia. reflexivity.
  - destruct (N.eqb_spec n 0); cbn [nget].
    + subst. destruct (N.eqb_spec m 0).
      * subst. now replace (0 <? N.succ (nlen l)) with true by lia.
      * reflexivity.
    + destruct (N.eqb_spec m 0).
      * subst. replace (0 =? n) with false by lia. reflexivity.
      * rewrite IHl. replace (N.pred m =? N.pred n) with (m =? n) by lia.
        replace (N.pred n <? nlen l) with (n <? N.succ (nlen l)) by lia. reflexivity.
Qed.

Lemma nset_app_r {A} (a : list A) y b x : nset (nlen a) x (a ++ y :: b) = a ++ x :: b.
Proof.
  induction a; cbn [nset nlen app].
  - reflexivity.
  - replace (N.succ (nlen a0) =? 0) with false by lia.
    rewrite N.pred_succ. now rewrite IHa.
Qed.

Lemma nget_app_r {A} (a : list A) y b : nget (nlen a) (a ++ y :: b) = Some y.
Proof.
  induction a; cbn [nget nlen app].
  - reflexivity.
  - replace (N.succ (nlen a0) =? 0) with false by lia.
    now rewrite N.pred_succ.
Qed.

Lemma nget_split {A} n (l : list A) x : nget n l = Some x -> exists a b, l = a ++ x :: b /\ nlen a = n.
Proof.
  revert n; induction l; cbn [nget]; intros; try discriminate.
  destruct (N.eqb_spec n 0).
  - injection H as ->. exists [], l. split; auto.
  - destruct (IHl _ H) as (p & q & -> & E). exists (a :: p), q. split; auto. cbn [nlen]. lia.
Qed.

Lemma nget_app1 {A} n (a b : list A) : n < nlen a -> nget n (a ++ b) = nget n a.
Proof.
  intros. rewrite !nget_nth. apply nth_error_app1. rewrite nlen_length in H. lia.
Qed.
Lemma nget_app2 {A} n (a b : list A) : nlen a <= n -> nget n (a ++ b) = nget (n - nlen a) b.
Proof.
  intros. rewrite !nget_nth. rewrite nlen_length in *.
  rewrite nth_error_app2 by lia. f_equal. lia.
Qed.

Lemma nget_In {A} n (l : list A) x : nget n l = Some x -> In x l.
Proof. rewrite nget_nth. apply nth_error_In. Qed.

(* comparisons *)
Lemma beqb_spec a b : reflect (a = b) (beqb a b).
Proof.
  unfold beqb. destruct (Byte.eqb a b) eqn:E; constructor.
  - now apply Byte.byte_dec_bl.
  - intros ->. rewrite Byte.byte_dec_lb in E; auto; discriminate.
Qed.

Lemma bseqb_spec a b : reflect (a = b) (bseqb a b).
Proof.
  revert b; induction a; destruct b; cbn [bseqb]; try (constructor; congruence).
  destruct (beqb_spec a b).
  - subst. destruct (IHa b0); constructor; congruence.
  - constructor; congruence.
Qed.

Lemma bseqb_refl a : bseqb a a = true.
Proof. destruct (bseqb_spec a a); congruence. Qed.

Lemma bseqb_eq a b : bseqb a b = true <-> a = b.
Proof. destruct (bseqb_spec a b); split; congruence. Qed.
Lemma bseqb_neq a b : bseqb a b = false <-> a <> b.
Proof. destruct (bseqb_spec a b); split; congruence. Qed.

Lemma bytes_eq_dec (a b : bytes) : {a = b} + {a <> b}.
Proof. destruct (bseqb_spec a b); auto. Qed.
