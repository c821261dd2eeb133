(* The search of the file holding a sequential identifier. *)
From Coq Require Import List NArith ZArith Bool Strings.Byte Lia ZifyBool ZifyN ZifyNat Sorted.
From Verif Require Import Bytes BytesFacts Layout Store.
Import ListNotations.
Open Scope N_scope.
Ltac Zify.zify_post_hook ::= Z.div_mod_to_equations.

(* starts in order *)
Definition nondec (m : list (N * N)) : Prop := forall i j a b,
  nget i m = Some a -> nget j m = Some b -> i <= j -> fst a <= fst b.

Lemma search_gen m (P : N -> N * N -> Prop) id :
  (forall i p, nget i m = Some p -> fst p = id ->
     (i = 0 -> forall q, nget 1 m = Some q -> id < fst q) -> P i p) ->
  (forall i p, nget i m = Some p -> fst p < id -> (forall q, nget (i + 1) m = Some q -> id < fst q) -> P i p) ->
  forall fuel lower higher, (N.to_nat (higher - lower) < fuel)%nat -> lower < higher -> higher <= nlen m ->
  (forall p, nget lower m = Some p -> fst p <= id) ->
  (forall p, nget higher m = Some p -> id < fst p) ->
  exists i p, seqmap_search fuel m lower higher id = Some p /\ nget i m = Some p /\ P i p.
Proof.
  intros Eq Lt. induction fuel as [|fuel IH]; intros lower higher Hf Hlh Hh HL HH; [lia|].
  cbn [seqmap_search]. destruct (N.ltb_spec lower higher) as [_|X]; [|lia]. cbn zeta.
  set (mid := (lower + higher) / 2). assert (M1 : lower <= mid) by (unfold mid; lia).
  assert (M2 : mid < higher) by (unfold mid; lia).
  destruct (nget_Some mid m) as ([midid midfile] & Hm); [lia|]. rewrite Hm.
  destruct (N.eqb_spec id midid) as [E|E].
  - exists mid, (midid, midfile). split; [reflexivity|]. split; [exact Hm|]. apply Eq; auto. intros M0 q Hq.
    assert (higher = 1) by (unfold mid in *; lia). subst higher. auto.
  - destruct (N.ltb_spec id midid) as [L|L].
    + assert (lower < mid). { destruct (N.eq_dec lower mid) as [X|X]; [|lia]. rewrite X in *. specialize (HL _ Hm). cbn [fst] in HL. lia. }
      apply IH; auto; try lia. intros p Hp. rewrite Hm in Hp. injection Hp as <-. exact L.
    + destruct (nget_Some lower m) as ([lid lfile] & Hlo); [lia|]. pose proof (HL _ Hlo) as HLl. cbn [fst] in HLl.
      destruct (N.leb_spec (nlen m) (lower + 1)) as [X|X].
      * assert (mid = lower) by lia. assert (lid = midid) by congruence.
        exists lower, (lid, lfile). rewrite Hlo. split; [reflexivity|]. split; [reflexivity|]. apply Lt; auto; cbn [fst]; [lia|].
        intros q Hq. apply nget_lt in Hq. lia.
      * destruct (nget_Some (lower + 1) m) as ([nid nfile] & Hn); [lia|]. rewrite Hlo, Hn.
        destruct (N.ltb_spec lid id) as [A|A]; destruct (N.ltb_spec id nid) as [B|B]; cbn [andb].
        1: { exists lower, (lid, lfile). split; [reflexivity|]. split; [exact Hlo|]. apply Lt; auto.
             intros q Hq. rewrite Hn in Hq. injection Hq as <-. exact B. }
        all: assert (NM : lower < mid) by (destruct (N.eq_dec lower mid) as [Y|Y]; [|lia];
               assert (lid = midid) by congruence;
               assert (higher = lower + 1) by (unfold mid in *; lia);
               specialize (HH (nid, nfile)); rewrite H0 in HH; specialize (HH Hn); cbn [fst] in HH; lia).
        all: apply IH; auto; try lia; intros p Hp; rewrite Hm in Hp; injection Hp as <-; cbn [fst]; lia.
Qed.

(* the first start is 0 and the starts do not decrease: the search ends with the
   greatest start not above the identifier *)
Lemma search_greatest f m id : nondec ((0, f) :: m) ->
  exists p, index_seqmap_from_seq ((0, f) :: m) id = Some p /\ In p ((0, f) :: m) /\ fst p <= id /\
    forall q, In q ((0, f) :: m) -> fst q <= id -> fst q <= fst p.
Proof.
  intros ND. set (M := (0, f) :: m) in *.
  destruct (search_gen M (fun i p => fst p <= id /\ forall q, In q M -> fst q <= id -> fst q <= fst p) id)
    with (fuel := S (length M)) (lower := 0) (higher := nlen M) as (i & p & R1 & R2 & R3 & R4).
  - intros i p Hi He _. split; [lia|]. intros q _ Hq. lia.
  - intros i p Hi He Hn. split; [lia|]. intros q Hq Hle. apply In_nth_error in Hq. destruct Hq as (j & Hj).
    assert (Hj' : nget (N.of_nat j) M = Some q) by (rewrite nget_nth, Nat2N.id; exact Hj).
    destruct (N.le_gt_cases (N.of_nat j) i) as [X|X].
    + eapply ND; eauto.
    + destruct (nget_Some (i + 1) M) as (r & Hr); [apply nget_lt in Hj'; lia|].
      specialize (Hn _ Hr). assert (fst r <= fst q) by (eapply ND; eauto; lia). lia.
  - rewrite nlen_length. lia.
  - unfold M. cbn [nlen]. lia.
  - lia.
  - intros p Hp. unfold M in Hp. cbn [nget] in Hp. injection Hp as <-. cbn [fst]. lia.
  - intros p Hp. apply nget_lt in Hp. lia.
  - exists p. unfold index_seqmap_from_seq. fold M. split; [exact R1|]. split; [eapply nget_In; eauto|]. auto.
Qed.

(* when the starts after the first entry increase strictly, the entry found is the
   last one whose start is not above the identifier *)
Definition rising (m : list (N * N)) : Prop := StronglySorted (fun a b => fst a < fst b) m.

Lemma rising_nget m i j a b : rising m -> nget i m = Some a -> nget j m = Some b -> i < j -> fst a < fst b.
Proof.
  intros S. revert i j. induction S as [|x m S IH F]; intros i j Ha Hb Hij; cbn [nget] in *; [discriminate|].
  rewrite Forall_forall in F. destruct (N.eqb_spec i 0) as [->|Ei].
  - injection Ha as <-. destruct (N.eqb_spec j 0); [lia|]. apply F. eapply nget_In; eauto.
  - destruct (N.eqb_spec j 0); [lia|]. eapply IH; eauto. lia.
Qed.

Lemma search_last f m id : rising m ->
  exists a p b, index_seqmap_from_seq ((0, f) :: m) id = Some p /\ (0, f) :: m = a ++ p :: b /\ fst p <= id /\
    Forall (fun q => id < fst q) b.
Proof.
  intros SS. set (M := (0, f) :: m) in *.
  assert (NX : forall i j a b, nget i M = Some a -> nget j M = Some b -> 0 < i -> i < j -> fst a < fst b).
  { intros i j a b Ha Hb H0 Hij. unfold M in Ha, Hb. cbn [nget] in Ha, Hb.
    destruct (N.eqb_spec i 0); [lia|]. destruct (N.eqb_spec j 0); [lia|]. eapply rising_nget; eauto. lia. }
  assert (FIN : forall i p, nget i M = Some p -> fst p <= id ->
     (forall j q, nget j M = Some q -> i < j -> id < fst q) ->
     exists a b, M = a ++ p :: b /\ fst p <= id /\ Forall (fun q => id < fst q) b).
  { intros i p Hi Hle Hn. apply nget_split in Hi as Hs. destruct Hs as (a & b & E & La). exists a, b.
    split; [exact E|]. split; [exact Hle|]. apply Forall_forall. intros q Hq. apply In_nth_error in Hq. destruct Hq as (j & Hj).
    apply (Hn (nlen a + 1 + N.of_nat j)); [|lia]. rewrite E. rewrite nget_app2 by lia.
    replace (nlen a + 1 + N.of_nat j - nlen a) with (1 + N.of_nat j) by lia. cbn [nget].
    destruct (N.eqb_spec (1 + N.of_nat j) 0); [lia|].
    rewrite nget_nth. rewrite <- Hj. f_equal. lia. }
  destruct (search_gen M (fun i p => exists a b, M = a ++ p :: b /\ fst p <= id /\ Forall (fun q => id < fst q) b) id)
    with (fuel := S (length M)) (lower := 0) (higher := nlen M) as (i & p & R1 & R2 & a & b & R3 & R4 & R5).
  - intros i p Hi He H0. apply (FIN i); auto; [lia|]. intros j q Hj Hij.
    destruct (N.eq_dec i 0) as [->|Ei].
    + specialize (H0 eq_refl). destruct (N.eq_dec j 1) as [->|Ej]; auto.
      destruct (nget_Some 1 M) as (r & Hr); [apply nget_lt in Hj; lia|]. specialize (H0 _ Hr).
      assert (fst r < fst q) by (eapply (NX 1 j); eauto; lia). lia.
    + assert (fst p < fst q) by (eapply (NX i j); eauto; lia). lia.
  - intros i p Hi He Hn. apply (FIN i); auto; [lia|]. intros j q Hj Hij.
    destruct (N.eq_dec j (i + 1)) as [->|Ej]; auto.
    destruct (nget_Some (i + 1) M) as (r & Hr); [apply nget_lt in Hj; lia|]. specialize (Hn _ Hr).
    assert (fst r < fst q) by (eapply (NX (i + 1) j); eauto; lia). lia.
  - rewrite nlen_length. lia.
  - unfold M. cbn [nlen]. lia.
  - lia.
  - intros p Hp. unfold M in Hp. cbn [nget] in Hp. injection Hp as <-. cbn [fst]. lia.
  - intros p Hp. apply nget_lt in Hp. lia.
  - exists a, p, b. auto.
Qed.
