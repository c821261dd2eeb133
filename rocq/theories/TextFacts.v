(* printf and atoll are inverse of each other *)
From Coq Require Import List NArith ZArith Bool Strings.Byte Lia ZifyBool ZifyN ZifyNat.
From Verif Require Import Bytes BytesFacts Layout Text.
Import ListNotations.
Open Scope N_scope.
Ltac Zify.zify_post_hook ::= Z.div_mod_to_equations.

Lemma b2n_digit n : n < 10 -> b2n (digit n) = 48 + n.
Proof. intros. unfold digit. rewrite b2n_n2b. apply N.mod_small. lia. Qed.

Lemma digit_is_digit n : n < 10 -> is_digit (digit n) = true.
Proof. intros. unfold is_digit. rewrite b2n_digit by auto. lia. Qed.

Lemma dec_digits_all fuel : forall n acc, forallb is_digit acc = true -> forallb is_digit (dec_digits fuel n acc) = true.
Proof.
  induction fuel as [|fuel IH]; intros n acc H; cbn [dec_digits]; auto.
  destruct (N.ltb_spec n 10); [|apply IH]; cbn [forallb]; rewrite digit_is_digit, H by lia; reflexivity.
Qed.

Lemma dec_digits_cons fuel : forall n acc, acc <> [] \/ (0 < fuel)%nat -> dec_digits fuel n acc <> [].
Proof.
  induction fuel as [|fuel IH]; intros n acc H; cbn [dec_digits].
  - destruct H; [auto|lia].
  - destruct (n <? 10); [discriminate|]. apply IH. left. discriminate.
Qed.

Lemma parse_dec_digits fuel : forall n acc, n < 2 ^ N.of_nat fuel ->
  parse_digits (dec_digits fuel n acc) 0 = parse_digits acc n.
Proof.
  induction fuel as [|fuel IH]; intros n acc H; cbn [dec_digits].
  - change (2 ^ N.of_nat 0) with 1 in H. f_equal. lia.
  - destruct (N.ltb_spec n 10) as [Hn|Hn].
    + cbn [parse_digits]. rewrite digit_is_digit, b2n_digit by auto. f_equal. lia.
    + rewrite IH.
      * cbn [parse_digits]. rewrite digit_is_digit, b2n_digit by lia. f_equal. lia.
      * rewrite Nat2N.inj_succ, N.pow_succ_r' in H. revert H. generalize (2 ^ N.of_nat fuel). intros. lia.
Qed.

Lemma size_bound n : n < 2 ^ N.of_nat (S (N.size_nat n)).
Proof.
  rewrite Nat2N.inj_succ, N.pow_succ_r'.
  assert (n < 2 ^ N.of_nat (N.size_nat n)).
  { destruct n as [|p]; [reflexivity|]. cbn [N.size_nat].
    induction p as [p IH|p IH|]; cbn [Pos.size_nat]; [| |reflexivity];
    rewrite Nat2N.inj_succ, N.pow_succ_r'; revert IH; generalize (2 ^ N.of_nat (Pos.size_nat p)); intros; lia. }
  revert H. generalize (2 ^ N.of_nat (N.size_nat n)). intros. lia.
Qed.

Lemma parse_dec n : parse_digits (dec n) 0 = n.
Proof. unfold dec. rewrite parse_dec_digits by apply size_bound. reflexivity. Qed.

Lemma dec_all n : forallb is_digit (dec n) = true.
Proof. apply dec_digits_all. reflexivity. Qed.

Lemma dec_nonempty n : dec n <> [].
Proof. apply dec_digits_cons. right. lia. Qed.

Lemma cstr_digits l : forallb is_digit l = true -> cstr l = l.
Proof.
  induction l as [|b l IH]; cbn [forallb cstr]; auto. intros H. apply andb_true_iff in H. destruct H as [Hb Hl].
  unfold is_digit in Hb. destruct (N.eqb_spec (b2n b) 0); [lia|]. now rewrite IH.
Qed.

Lemma atoll_digits l : l <> [] -> forallb is_digit l = true ->
  atoll l = Z.min 9223372036854775807 (Z.of_N (parse_digits l 0)).
Proof.
  intros Hn H. destruct l as [|b l]; [congruence|]. unfold atoll. cbn [skip_space].
  pose proof H as H'. cbn [forallb] in H'. apply andb_true_iff in H'. destruct H' as [Hb _]. unfold is_digit in Hb.
  assert (Hs : is_space b = false) by (unfold is_space; lia). rewrite Hs.
  destruct (N.eqb_spec (b2n b) 45); [lia|]. destruct (N.eqb_spec (b2n b) 43); [lia|]. reflexivity.
Qed.

Lemma atoll_dec n : n < 9223372036854775808 -> atoll (cstr (dec n)) = Z.of_N n.
Proof.
  intros H. rewrite cstr_digits by apply dec_all.
  rewrite atoll_digits by (apply dec_nonempty || apply dec_all). rewrite parse_dec. lia.
Qed.

Lemma z_u32_of_N n : z_u32 (Z.of_N n) = n mod 4294967296.
Proof. unfold z_u32. lia. Qed.

Lemma dec_inj a b : dec a = dec b -> a = b.
Proof. intros H. rewrite <- (parse_dec a), H. apply parse_dec. Qed.
