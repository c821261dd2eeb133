(* A SCAN walk while other requests are executed (sequential mode) *)
From Coq Require Import Strings.String Strings.Byte List NArith ZArith Bool Lia ZifyBool ZifyN ZifyNat.
From Verif Require Import Bytes BytesFacts Layout LayoutFacts Store Text TextFacts Commands SpecKV SpecSeq Machine Reach
  CrashModel SeqReach Ghost UserInv UserReq UserMove KvFacts CrashSpec SeqInv SeqSteps SeqFacts Scan SpecScan ScanFacts ScanRun ScanTop ScanMix
  SpecHist HistFacts SeqReq SeqRun HistSeq.
Import ListNotations.
Open Scope N_scope.
Local Notation length := List.length.

(* ---- a record stays in its place ---- *)
Lemma smove_nth k G H G' H' : length G = length H -> smove k G H G' H' -> forall q y, nth_error G q = Some y -> live y = false \/ l_id y <> k ->
  nth_error G' q = Some y /\ nth_error H' q = nth_error H q.
Proof.
  intros LG M q y Ey D. assert (Hq : (q < length G)%nat) by (apply nth_error_Some; congruence).
  destruct M as [A x B H Lx|G H z w Lz E1 E2 E3 E4|A x B HA w HB z d w' LA Lx Ea Ei Lz Ew Ep Ld Ed Eq Nw].
  - split; [|reflexivity]. destruct (Nat.lt_trichotomy q (length A)) as [L|[L|L]].
    + rewrite nth_error_app1 in * by lia. exact Ey.
    + subst q. rewrite nth_error_app2, Nat.sub_diag in Ey by lia. cbn [nth_error] in Ey. injection Ey as ->. destruct D; congruence.
    + rewrite nth_error_app2 in * by lia. destruct (q - length A)%nat eqn:Q; [lia|]. exact Ey.
  - rewrite !nth_error_app1 by lia. auto.
  - rewrite !app_length in Hq. cbn [length] in Hq. rewrite !app_length in LG. cbn [length] in LG.
    destruct (Nat.lt_trichotomy q (length A)) as [L|[L|L]].
    + rewrite !nth_error_app1 in * by lia. auto.
    + subst q. rewrite nth_error_app2, Nat.sub_diag in Ey by lia. cbn [nth_error] in Ey. injection Ey as ->. destruct D; congruence.
    + rewrite !nth_error_app2 in * by lia. rewrite <- LA. destruct (q - length A)%nat as [|r] eqn:Q; [lia|]. cbn [nth_error] in *.
      rewrite !nth_error_app1 by lia. auto.
Qed.

(* the record under the cursor: an update may change what the cursor is checked against *)
Lemma smove_cursor k G H G' H' : slots G H -> slots G' H' -> smove k G H G' H' -> forall p x, nth_error G p = Some x ->
  exists x', nth_error G' p = Some x' /\ addr x' = addr x /\ l_id x' = l_id x /\
    (cursor_of x' = cursor_of x \/
     exists a b, kget (l_id x) (livem G H) = Some a /\ kget (l_id x) (livem G' H') = Some b /\ a <> b).
Proof.
  intros S S' M p u Eu. assert (LG : length G = length H) by (eapply forall2_length; apply S).
  assert (Same : live u = false \/ l_id u <> k -> exists x', nth_error G' p = Some x' /\ addr x' = addr u /\ l_id x' = l_id u /\
    (cursor_of x' = cursor_of u \/ exists a b, kget (l_id u) (livem G H) = Some a /\ kget (l_id u) (livem G' H') = Some b /\ a <> b)).
  { intros D. exists u. destruct (smove_nth _ _ _ _ _ LG M _ _ Eu D). auto. }
  destruct (live u) eqn:Lu; [|apply Same; auto].
  destruct M as [A x B H Lx|G H z w Lz E1 E2 E3 E4|A x B HA w HB z d w' LA Lx Ea Ei Lz Ew Ep Ld Ed Eq Nw].
  - destruct (bseqb_spec (l_id u) (l_id x)) as [Eid|N]; [|apply Same; auto]. clear Same.
    assert (Hp : p = length A).
    { pose proof (slot_at A x B (N.of_nat p) u) as Q. assert (N.of_nat p = nlen A).
      - apply Q; auto; try apply S. now rewrite nget_nth, Nat2N.id.
      - rewrite nlen_length in H0. lia. }
    subst p. exists (mflag x). rewrite nth_error_app2, Nat.sub_diag by lia. cbn [nth_error].
    rewrite nth_error_app2, Nat.sub_diag in Eu by lia. cbn [nth_error] in Eu. injection Eu as ->.
    split; [reflexivity|]. split; [reflexivity|]. split; [reflexivity|]. left. reflexivity.
  - exists u. rewrite nth_error_app1 by (apply nth_error_Some; congruence). auto.
  - destruct (bseqb_spec (l_id u) (l_id x)) as [Eid|N]; [|apply Same; auto]. clear Same.
    assert (Hp : p = length A).
    { pose proof (slot_at A x B (N.of_nat p) u) as Q. assert (N.of_nat p = nlen A).
      - apply Q; auto; try apply S. now rewrite nget_nth, Nat2N.id.
      - rewrite nlen_length in H. lia. }
    subst p. exists z. rewrite nth_error_app2, Nat.sub_diag by lia. cbn [nth_error].
    rewrite nth_error_app2, Nat.sub_diag in Eu by lia. cbn [nth_error] in Eu. injection Eu as ->.
    split; [reflexivity|]. split; [exact Ea|]. split; [exact Ei|]. right. exists (snd w), (snd w').
    assert (Iu : In (u, w) (combine (A ++ u :: B) (HA ++ w :: HB))) by (rewrite combine_app by auto; apply in_app_iff; right; now left).
    assert (Iz : In (z, w') (combine (A ++ z :: (B ++ [d])) (HA ++ w' :: HB ++ [w]))) by (rewrite combine_app by auto; apply in_app_iff; right; now left).
    split; [exact (slots_get _ _ _ _ S Iu Lu)|]. split; [rewrite <- Ei; exact (slots_get _ _ _ _ S' Iz Lz)|]. congruence.
Qed.

Lemma option_eq_dec_wrote (a b : option (bytes * N)) : {a = b} + {a <> b}.
Proof. repeat decide equality. Qed.

(* ---- which event it was ---- *)
Lemma sq_event_target e c st k c' st' r : sq_event e (c, st) = (r, (c', st')) -> k <> ident (sq_next st) ->
  kget k (sq_map st') <> kget k (sq_map st) -> ekey e = Some k.
Proof.
  intros E N D. destruct e as [p now q|c1|]; cbn [sq_event] in E.
  - destruct (sq_step p now c q st) as [r1 st1] eqn:Q. injection E as _ _ ->.
    pose proof (sq_step_other p now c q st k) as O. rewrite Q in O. cbn [snd] in O.
    destruct q as [k' v ts|k' ts| | | | | | | |]; cbn [target ekey] in *;
      try (exfalso; apply D, O; [discriminate|exact N]).
    + destruct (bseqb_spec k' k) as [->|X]; [reflexivity|]. exfalso. apply D, O; congruence.
    + destruct (bseqb_spec k' k) as [->|X]; [reflexivity|]. exfalso. apply D, O; congruence.
  - injection E as _ _ ->. congruence.
  - injection E as _ _ ->. congruence.
Qed.

Lemma del_gone p now c k ts st a b : kget k (sq_map st) = Some a -> kget k (sq_map (snd (sq_step p now c (QDel k ts) st))) = Some b -> a = b.
Proof.
  cbn [sq_step]. pose proof (del_cases p c st k ts) as X. destruct (kv_del p c (sq_map st) k ts) as [r m']. cbn [snd sq_map].
  destruct X as [(_ & ->)|(_ & ->)]; [|congruence]. rewrite kget_kdel, bseqb_refl. discriminate.
Qed.

Lemma updated_by e c st k a b c' st' r : sq_event e (c, st) = (r, (c', st')) -> k <> ident (sq_next st) ->
  kget k (sq_map st) = Some a -> kget k (sq_map st') = Some b -> a <> b -> writes k e.
Proof.
  intros E N Ka Kb D. assert (T : ekey e = Some k) by (eapply sq_event_target; eauto; congruence).
  destruct e as [p now q|c1|]; try discriminate. destruct q as [k' v ts|k' ts| | | | | | | |]; try discriminate; cbn [ekey] in T; injection T as ->.
  - exists p, now, v, ts. reflexivity.
  - exfalso. apply D. cbn [sq_event] in E. destruct (sq_step p now c (QDel k ts) st) as [r1 st1] eqn:Q. injection E as _ _ ->.
    eapply (del_gone p now c k ts st); eauto. now rewrite Q.
Qed.

Lemma live_not_next n s gi H x : SA n s gi H -> In x (flat 0 gi) -> live x = true -> l_id x <> ident (sq_next (sq_of gi H)).
Proof.
  intros (m & U & _) I L E. destruct (in_nget _ _ I) as (i & Hi & Gi). rewrite nlen_flat in Hi.
  rewrite (sf_ids _ _ _ _ (si_f _ _ _ _ _ U) i x Gi L) in E. cbn [sq_of sq_next] in E.
  pose proof (tot_bound _ _ _ _ (si_f _ _ _ _ _ U)). apply ident_inj in E; lia.
Qed.

Lemma sa_slots n s gi H : SA n s gi H -> slots (flat 0 gi) H.
Proof. intros (m & U & _). eapply sinv_slots; eauto. Qed.

(* what one event leaves *)
Lemma del_slot A x B H : slots (A ++ x :: B) H -> slots (A ++ mflag x :: B) H -> live x = true ->
  kget (l_id x) (livem (A ++ mflag x :: B) H) = None.
Proof.
  intros S S' L. destruct (kget (l_id x) (livem (A ++ mflag x :: B) H)) as [v|] eqn:K; auto. exfalso.
  destruct (kget_some_live _ _ _ _ K (proj1 S')) as (z & I & Lz & E). apply in_combine_l in I.
  destruct S as (_ & S2 & S3). destruct (slot_mid A x B S2 S3 L) as [F1 F2]. rewrite Forall_forall in F1, F2.
  apply in_app_iff in I. destruct I as [I|[<-|I]]; [apply (F1 z); auto| |apply (F2 z); auto].
  rewrite live_mflag in Lz. discriminate.
Qed.

Lemma same_kept k G H G' H' y q v : slots G H -> slots G' H' -> smove k G H G' H' -> nth_error G q = Some y -> nth_error H q = Some v ->
  live y = true -> kget (l_id y) (livem G' H') = kget (l_id y) (livem G H) ->
  nth_error G' q = Some y /\ nth_error H' q = Some v.
Proof.
  intros S S' M Ey Ev Ly K. assert (LG : length G = length H) by (eapply forall2_length; apply S).
  destruct (bseqb_spec (l_id y) k) as [Ek|Nk]; [|rewrite <- Ev; apply (smove_nth _ _ _ _ _ LG M); auto].
  exfalso. assert (Iy : In (y, v) (combine G H)).
  { clear -Ey Ev. revert H q Ey Ev. induction G as [|a G IH]; intros [|b H] [|q] Ey Ev; try discriminate; cbn [nth_error combine] in *.
    - left. congruence.
    - right. eauto. }
  rewrite (slots_get _ _ _ _ S Iy Ly) in K.
  destruct M as [A x B H Lx|G H z w Lz W1 W2 W3 W4|A x B HA w HB z d w' LA Lx Ea Ei Lz Ew Ep Ld Ed Eq Nw].
  - rewrite Ek, (del_slot _ _ _ _ S S' Lx) in K. discriminate.
  - assert (l_id y = ident (N.of_nat q)) as Q by (apply S; auto; now rewrite nget_nth, Nat2N.id).
    assert (q < length G)%nat by (apply nth_error_Some; congruence). destruct S as (_ & _ & S3).
    rewrite nlen_length in *. rewrite Ek, W1 in Q. apply ident_inj in Q; lia.
  - assert (Ix : In (x, w) (combine (A ++ x :: B) (HA ++ w :: HB))) by (rewrite combine_app by auto; apply in_app_iff; right; now left).
    assert (Iz : In (z, w') (combine (A ++ z :: (B ++ [d])) (HA ++ w' :: HB ++ [w]))) by (rewrite combine_app by auto; apply in_app_iff; right; now left).
    pose proof (slots_get _ _ _ _ S Ix Lx) as Q1. pose proof (slots_get _ _ _ _ S Iy Ly) as Q2. pose proof (slots_get _ _ _ _ S' Iz Lz) as Q3.
    rewrite Ek in Q2. rewrite Ei, <- Ek, K in Q3. congruence.
Qed.

Lemma event_keep g n e c s gi H : sq_settings g -> SA n s gi H -> ev_calm g (CEv e) c s ->
  exists o c' s' gi' H', run_event g e (c, s) = Some (o, (c', s')) /\ SA n s' gi' H' /\
    snd (sq_event e (c, sq_of gi H)) = (c', sq_of gi' H') /\ nlen gi' <= nlen gi + 1 /\ nlen (flat 0 gi) <= nlen (flat 0 gi') /\
    (forall q y v, nth_error (flat 0 gi) q = Some y -> nth_error H q = Some v -> live y = true -> ekey e <> Some (l_id y) ->
       nth_error (flat 0 gi') q = Some y /\ nth_error H' q = Some v) /\
    (forall p x, nth_error (flat 0 gi) p = Some x -> exists x', nth_error (flat 0 gi') p = Some x' /\ addr x' = addr x /\ l_id x' = l_id x /\
       (cursor_of x' = cursor_of x \/ writes (l_id x) e)) /\
    (forall i, i < nlen (flat 0 gi) -> ekey e <> Some (ident i) -> kget (ident i) (livem (flat 0 gi) H) = None ->
       kget (ident i) (livem (flat 0 gi') H') = None).
Proof.
  intros Hg U C. destruct (event_sok g n e c s gi H Hg U C) as (o & c' & s' & gi' & H' & E1 & U1 & _ & E2 & _ & E3 & M).
  exists o, c', s', gi', H'. split; [exact E1|]. split; [exact U1|]. split; [rewrite E2; reflexivity|]. split; [exact E3|].
  pose proof (sa_slots _ _ _ _ U) as S0. pose proof (sa_slots _ _ _ _ U1) as S1.
  split.
  { destruct M as [[-> ->]|(k & M)]; [lia|].
    destruct M; rewrite ?nlen_app; cbn [nlen]; rewrite ?nlen_app; cbn [nlen]; lia. }
  split; [|split].
  - intros q y v Ey Ev Ly N. destruct M as [[-> ->]|(k & M)]; auto. apply (same_kept _ _ _ _ _ _ _ _ S0 S1 M Ey Ev Ly).
    destruct (option_eq_dec_wrote (kget (l_id y) (livem (flat 0 gi') H')) (kget (l_id y) (livem (flat 0 gi) H))) as [D|D]; [exact D|].
    exfalso. apply N. eapply sq_event_target; [exact E2| |exact D]. eapply live_not_next; eauto. eapply nth_error_In; eauto.
  - intros p x Ex. destruct M as [[-> ->]|(k & M)]; [exists x; auto|].
    destruct (smove_cursor _ _ _ _ _ S0 S1 M _ _ Ex) as (x' & X1 & X2 & X3 & [X4|(a & b & X4 & X5 & X6)]); exists x'; auto.
    split; [exact X1|]. split; [exact X2|]. split; [exact X3|]. right. eapply updated_by; [exact E2| |exact X4|exact X5|exact X6].
    destruct (kget_some_live _ _ _ _ X4 (proj1 S0)) as (z & I & Lz & E). rewrite <- E. eapply live_not_next; eauto. eapply in_combine_l; eauto.
  - intros i Hi N K. destruct (option_eq_dec_wrote (kget (ident i) (livem (flat 0 gi') H')) (kget (ident i) (livem (flat 0 gi) H))) as [D|D]; [congruence|].
    exfalso. apply N. eapply sq_event_target; [exact E2| |exact D]. cbn [sq_of sq_next]. intros Q.
    destruct S0 as (_ & _ & S3). rewrite nlen_flat in *. destruct U as (m & U & _). pose proof (tot_bound _ _ _ _ (si_f _ _ _ _ _ U)).
    apply ident_inj in Q; lia.
Qed.

(* events in a row *)
Lemma run_keep g n es : sq_settings g -> forall c s gi H, SA n s gi H -> calm g (plain es) (c, s) ->
  exists o c' s' gi' H', run_cevents g (plain es) (c, s) = Some (o, (c', s')) /\ SA n s' gi' H' /\
    snd (sq_run es (c, sq_of gi H)) = (c', sq_of gi' H') /\ nlen gi' <= nlen gi + nlen es /\ nlen (flat 0 gi) <= nlen (flat 0 gi') /\
    (forall q y v, nth_error (flat 0 gi) q = Some y -> nth_error H q = Some v -> live y = true -> spares (l_id y) es ->
       nth_error (flat 0 gi') q = Some y /\ nth_error H' q = Some v) /\
    (forall p x, nth_error (flat 0 gi) p = Some x -> exists x', nth_error (flat 0 gi') p = Some x' /\ addr x' = addr x /\ l_id x' = l_id x /\
       (cursor_of x' = cursor_of x \/ exists e, In e es /\ writes (l_id x) e)) /\
    (forall i, i < nlen (flat 0 gi) -> spares (ident i) es -> kget (ident i) (livem (flat 0 gi) H) = None ->
       kget (ident i) (livem (flat 0 gi') H') = None).
Proof.
  intros Hg. induction es as [|e es IH]; intros c s gi H U C.
  - exists [], c, s, gi, H. cbn [plain map run_cevents sq_run snd nlen]. split; [reflexivity|]. split; [exact U|]. split; [reflexivity|].
    split; [lia|]. split; [lia|]. split; [auto|]. split; [|auto]. intros p x E. exists x. auto.
  - cbn [plain map calm fst snd] in C. destruct C as [C1 C2].
    destruct (event_keep g n e c s gi H Hg U C1) as (o1 & c1 & s1 & gi1 & H1 & E1 & U1 & E2 & E3 & E4 & E5 & E6 & E7).
    destruct (IH c1 s1 gi1 H1 U1 (C2 _ _ E1)) as (o2 & c2 & s2 & gi2 & H2 & F1 & F2 & F3 & F4 & F5 & F6 & F7 & F8).
    exists (o1 ++ o2), c2, s2, gi2, H2. cbn [plain map run_cevents run_cevent sq_run]. fold (plain es). rewrite E1, F1.
    split; [reflexivity|]. split; [exact F2|].
    split; [destruct (sq_event e (c, sq_of gi H)) as [r1 st1]; cbn [snd] in E2; subst st1; destruct (sq_run es (c1, sq_of gi1 H1)) as [r2 st2]; exact F3|].
    split; [cbn [nlen]; lia|]. split; [lia|]. split; [|split].
    + intros q y v Ey Ev Ly Sp. inversion Sp as [|? ? Sp1 Sp2]; subst. destruct (E5 _ _ _ Ey Ev Ly Sp1) as [Q1 Q2]. apply F6; auto.
    + intros p x Ex. destruct (E6 _ _ Ex) as (x1 & X1 & X2 & X3 & X4). destruct (F7 _ _ X1) as (x2 & Y1 & Y2 & Y3 & Y4).
      exists x2. split; [exact Y1|]. split; [congruence|]. split; [congruence|]. rewrite X3 in Y4. destruct Y4 as [Y4|(e' & I & Y4)].
      * destruct X4 as [X4|X4]; [left; congruence|]. right. exists e. split; [now left|exact X4].
      * right. exists e'. split; [now right|exact Y4].
    + intros i Hi Sp K. inversion Sp as [|? ? Sp1 Sp2]; subst. apply F8; auto. lia.
Qed.

(* ---- the rows of one key ---- *)
Lemma nodup_slots G H : slots G H -> NoDup (map fst (livem G H)).
Proof.
  intros (F & S & L). assert (Q : forall A, slot_ids (A ++ G) -> nlen (A ++ G) < 18446744073709551616 -> NoDup (map fst (livem G H))).
  2: { apply (Q []); auto. }
  clear S L. induction F as [|x v G H Hx F IH]; intros A S L; cbn [livem]; [constructor|].
  assert (Q : NoDup (map fst (livem G H))) by (apply (IH (A ++ [x])); rewrite <- app_assoc; auto).
  destruct (live x) eqn:Lx; auto. cbn [map]. constructor; auto. intros I. apply in_map_iff in I. destruct I as (r & E & I).
  assert (X : exists y, In y G /\ live y = true /\ l_id y = fst r).
  { clear -F I. revert I. induction F as [|y w G H Hy F IH]; cbn [livem]; [intros []|]. destruct (live y) eqn:Ly.
    - intros [<-|I]; [exists y; split; [now left|auto]|]. destruct (IH I) as (z & Z1 & Z2). exists z. split; [now right|auto].
    - intros I. destruct (IH I) as (z & Z1 & Z2). exists z. split; [now right|auto]. }
  destruct X as (y & Y1 & Y2 & Y3). destruct (slot_mid A x G S L Lx) as [_ F2]. rewrite Forall_forall in F2.
  apply (F2 y); auto. unfold same_id in Hx. congruence.
Qed.

Lemma one_row (l : kv) : NoDup (map fst l) -> forall v, In v l -> filter (byid (fst v)) l = [v].
Proof.
  induction l as [|a l IH]; intros N v I; [destruct I|]. cbn [map] in N. inversion N as [|? ? N1 N2]; subst. cbn [filter]. unfold byid at 1.
  destruct I as [->|I].
  - rewrite bseqb_refl. f_equal. clear IH N2 N. induction l as [|b l IH]; [reflexivity|]. cbn [filter map] in *. unfold byid at 1.
    destruct (bseqb_spec (fst b) (fst v)) as [E|_]; [exfalso; apply N1; left; exact E|]. apply IH. intros Q. apply N1. now right.
  - destruct (bseqb_spec (fst a) (fst v)) as [E|_]; [|auto]. exfalso. apply N1. rewrite E. now apply in_map.
Qed.

Lemma live_in G H q y v : nth_error G q = Some y -> nth_error H q = Some v -> live y = true -> In v (livem G H).
Proof.
  revert H q. induction G as [|x G IH]; intros [|w H] [|q] Ey Ev Ly; try discriminate; cbn [nth_error livem] in *.
  - injection Ey as ->. injection Ev as ->. rewrite Ly. now left.
  - destruct (live x); [right|]; eauto.
Qed.

Lemma spart_rows G H G1 G2 G3 : G = G1 ++ G2 ++ G3 -> slots G H ->
  let H2 := firstn (length G2) (skipn (length G1) H) in
  incl (livem G2 H2) (livem G H) /\ forall q y v, nth_error G q = Some y -> nth_error H q = Some v -> live y = true ->
  filter (byid (l_id y)) (livem G2 H2) = if ((length G1 <=? q) && (q <? length G1 + length G2))%nat then [v] else [].
Proof.
  intros -> S. pose proof (nodup_slots _ _ S) as ND. destruct S as (F & _).
  assert (SI : forall q y v, nth_error (G1 ++ G2 ++ G3) q = Some y -> nth_error H q = Some v -> l_id y = fst v).
  { intros q y v Ey Ev. clear ND. revert q Ey Ev. induction F as [|a b ga gb Hab F IH]; intros [|q] Ey Ev; try discriminate; cbn [nth_error] in *; eauto.
    injection Ey as ->. injection Ev as ->. exact Hab. }
  apply Forall2_app_inv_l in F. destruct F as (H1 & H23 & F1 & F23 & ->).
  apply Forall2_app_inv_l in F23. destruct F23 as (H2 & H3 & F2 & F3 & ->).
  pose proof (forall2_length _ _ _ F1) as N1. pose proof (forall2_length _ _ _ F2) as N2.
  rewrite skipn_exact by auto. rewrite firstn_exact by auto. cbn zeta.
  rewrite !livem_app in * by auto. split; [intros r Hr; rewrite !in_app_iff; auto|].
  intros q y v Ey Ev Ly. rewrite (SI _ _ _ Ey Ev).
  assert (IV : forall l a b, livem G1 H1 ++ livem G2 H2 ++ livem G3 H3 = a ++ l ++ b -> In v l -> filter (byid (fst v)) l = [v]).
  { intros l a b E I. apply one_row; auto. rewrite E, !map_app in ND.
    clear -ND. induction (map fst a); cbn [app] in ND; [|inversion ND; auto].
    clear -ND. induction (map fst l) as [|x m IH]; [constructor|]. cbn [app] in ND. inversion ND; subst. constructor; auto.
    intros Q. apply H1. apply in_app_iff. auto. }
  assert (W : In v (livem G1 H1 ++ livem G2 H2 ++ livem G3 H3)).
  { rewrite <- !livem_app by auto. eapply live_in; eauto. }
  apply one_row in W; auto. rewrite !filter_app in W.
  destruct (Nat.leb_spec (length G1) q) as [Q1|Q1]; cbn [andb].
  - rewrite nth_error_app2 in Ey by auto. rewrite nth_error_app2 in Ev by lia. rewrite <- N1 in Ev.
    destruct (Nat.ltb_spec q (length G1 + length G2)) as [Q2|Q2].
    + rewrite nth_error_app1 in Ey by lia. rewrite nth_error_app1 in Ev by lia.
      apply (IV _ (livem G1 H1) (livem G3 H3)); auto. eapply live_in; eauto.
    + rewrite nth_error_app2 in Ey by lia. rewrite nth_error_app2 in Ev by lia. rewrite <- N2 in Ev.
      rewrite (IV (livem G3 H3) (livem G1 H1 ++ livem G2 H2) []) in W;
        [|now rewrite app_nil_r, <- app_assoc|eapply live_in; eauto]. destruct (filter _ (livem G2 H2)); auto.
      apply (f_equal (@length _)) in W. rewrite !app_length in W. cbn [length] in W. lia.
  - rewrite nth_error_app1 in Ey by auto. rewrite nth_error_app1 in Ev by lia.
    rewrite (IV (livem G1 H1) [] (livem G2 H2 ++ livem G3 H3)) in W; [|reflexivity|eapply live_in; eauto]. cbn [app] in W. injection W as W.
    apply app_eq_nil in W. tauto.
Qed.

(* ---- one call ---- *)
Lemma scall_ok n s gi H c cmd k cur from : SA n s gi H -> files_lt s -> is_frozen c = false ->
  cursor_at cur from (flat 0 gi) ->
  command_scan k (cmd :: match cur with None => [] | Some b => [b] end) c s =
  Some (command_scan_send_scanlist (firstn (room cur k) (filter live (skipn from (flat 0 gi))))).
Proof.
  intros (m & U & _) FL Fz C. pose proof (sinv_iok _ _ _ _ _ U FL) as I.
  assert (Hne : gi <> []) by (intros ->; pose proof (si_id _ _ _ _ _ U) as X; cbn [nlen] in X; lia).
  unfold command_scan, scan_body. rewrite Fz. destruct cur as [b|]; cbn [cursor_at room] in *.
  - destruct C as (p & x & -> & E & ->). change (argc [cmd; cursor_of x] =? 1) with false. cbn iota.
    change (arg 1 [cmd; cursor_of x]) with (cursor_of x). pose proof (nth_split_skip _ _ _ E) as S.
    rewrite (cursor_ok _ _ _ _ I) by (eapply nth_error_In; eauto). rewrite (walk_from _ _ _ I _ _ _ _ S). reflexivity.
  - subst from. change (argc [cmd] =? 1) with true. cbn iota. cbn [skipn].
    destruct (first_ok _ _ _ I Hne) as (s0 & -> & Hs). destruct (filter live (flat 0 gi)) as [|y L2] eqn:EB.
    + destruct Hs as [Hs1 Hs2]. rewrite Hs2. unfold scan_failure. rewrite Hs1. reflexivity.
    + rewrite Hs. destruct (filter_split live _ [] y L2 EB) as (A0 & B0 & E & <- & _).
      pose proof (walk_from _ _ _ I k _ _ _ E) as Q. destruct y as [[f o] it]. unfold l_f, l_off in Q. cbn [fst snd] in Q.
      unfold srow in *. rewrite Q. reflexivity.
Qed.

(* the record was written again: the cursor is refused *)
Lemma scall_stale n s gi H c cmd k x x' : SA n s gi H -> files_lt s -> is_frozen c = false ->
  sloc_wf x -> In x' (flat 0 gi) -> addr x' = addr x -> l_id x' = l_id x -> cursor_of x' <> cursor_of x ->
  command_scan k [cmd; cursor_of x] c s = Some (hardsend "-Invalid key format").
Proof.
  intros (m & U & _) FL Fz W I A Ei N. pose proof (sinv_iok _ _ _ _ _ U FL) as IO.
  assert (W' : sloc_wf x') by (eapply (proj1 (Forall_forall _ _)); [apply (sf_wf _ _ _ _ (si_f _ _ _ _ _ U))|exact I]).
  unfold command_scan, scan_body. rewrite Fz. change (argc [cmd; cursor_of x] =? 1) with false. cbn iota.
  change (arg 1 [cmd; cursor_of x]) with (cursor_of x).
  assert (Hf : l_f x' < 2 ^ 32) by (eapply fid_lt; eauto).
  unfold addr in A. injection A as A1 A2.
  destruct W as (W1 & W2 & W3). destruct W' as (W1' & W2' & W3').
  assert (IL : it_idlen (l_it x) = it_idlen (l_it x')).
  { destruct W1 as (L1 & _). destruct W1' as (L1' & _). unfold l_id, l_it in *. congruence. }
  destruct W1 as (_ & Wa & _ & Wb & _ & _ & _ & _ & Wc & _).
  unfold scan_initial_get, cursor_of at 2. unfold cursor_of at 1. rewrite blen_enc_bkey, N.eqb_refl. cbn [negb].
  unfold index_item_serialize. rewrite <- A1, <- A2. rewrite (u32_small (l_off x')) by (rewrite A2; auto).
  rewrite dec_enc_bkey by (cbn [bk_idlen bk_fileid bk_length bk_idxoff bk_crc]; auto).
  unfold index_entry_deserialize. cbn [bk_idlen bk_fileid bk_length bk_idxoff bk_crc].
  rewrite IL, (dec_item_get _ _ _ _ IO I).
  destruct (N.eqb_spec (it_len (l_it x')) (it_len (l_it x))) as [E1|]; [|reflexivity].
  destruct (N.eqb_spec (it_crc (l_it x')) (it_crc (l_it x))) as [E2|]; [|reflexivity].
  exfalso. apply N. unfold cursor_of, index_item_serialize. rewrite IL, E1, E2, A1, A2. reflexivity.
Qed.

(* ---- the walk ---- *)
Definition srun_only (g : settings) (es : list event) (st : nscfg * est) : option (nscfg * est) :=
  option_map snd (run_cevents g (plain es) st).

Lemma calm_app g a : forall b st, calm g (plain (a ++ b)) st -> calm g (plain a) st /\
  forall o st', run_cevents g (plain a) st = Some (o, st') -> calm g (plain b) st'.
Proof.
  induction a as [|e a IH]; intros b st C; cbn [app plain map calm run_cevents] in *.
  - split; auto. intros o st' E. injection E as <- <-. exact C.
  - destruct C as [C1 C2]. split.
    + split; auto. intros o st' E. exact (proj1 (IH _ _ (C2 _ _ E))).
    + intros o st' E. destruct (run_cevent g (CEv e) st) as [[o1 st1]|] eqn:E1; [|discriminate].
      destruct (run_cevents g (map CEv a) st1) as [[o2 st2]|] eqn:E2; [|discriminate]. injection E as <- <-.
      exact (proj2 (IH _ _ (C2 _ _ eq_refl)) _ _ E2).
Qed.

Lemma sa_files n s gi H : SA n s gi H -> nlen (dk_i (dk s)) = nlen gi.
Proof. intros (m & U & _). eapply nlen_sfiles; eauto. Qed.

Lemma rows_last x L rows : Forall2 rowm (L ++ [x]) rows -> exists rows0 r, rows = rows0 ++ [(l_id x, r)].
Proof.
  intros F. apply Forall2_app_inv_l in F. destruct F as (r1 & r2 & _ & F & ->). inversion F as [|? v ? l2 Hv F2]; subst.
  inversion F2; subst. destruct v as [k r]. exists r1, r. destruct Hv as (_ & Hv & _). cbn [fst] in Hv. now rewrite Hv.
Qed.

Lemma cut_short_cons x rows steps rowss : cut_short steps rowss -> cut_short (x :: steps) (rows :: rowss).
Proof.
  intros (a & r0 & k & r & n & es & e & -> & E & I & W). exists (rows :: a), r0, k, r, n, es, e.
  split; [reflexivity|]. split; [exact E|]. auto.
Qed.

Lemma smixed_ok g n cmd : sq_settings g -> forall steps c s gi H cur from, SA n s gi H -> small (livem (flat 0 gi) H) ->
  calm g (plain (all_events steps)) (c, s) -> nlen (dk_i (dk s)) + nlen (all_events steps) < 2 ^ 32 ->
  Forall (fun x => 1 <= fst x)%nat steps ->
  Forall (fun st => is_frozen (fst st) = false) (sq_moments steps (c, sq_of gi H)) ->
  cursor_at cur from (flat 0 gi) ->
  exists rs rowss,
    (mixed scan_call (srun_only g) cmd cur steps (c, s) = Some rs \/
     (mixed scan_call (srun_only g) cmd cur steps (c, s) = Some (rs ++ [hardsend "-Invalid key format"]) /\ cut_short steps rowss)) /\
    Forall2 scan_reply rowss rs /\
    Forall2 (fun rows st => incl rows (sq_map (snd st))) rowss (firstn (length rowss) (sq_moments steps (c, sq_of gi H))) /\
    (forall q y v, nth_error (flat 0 gi) q = Some y -> nth_error H q = Some v -> live y = true ->
      spares (l_id y) (all_events steps) ->
      ((q < from)%nat -> rows_of (l_id y) rowss = []) /\
      (rows_of (l_id y) rowss = [] \/ rows_of (l_id y) rowss = [v]) /\
      ((from <= q)%nat -> ended rowss -> rows_of (l_id y) rowss = [v])) /\
    (forall i, i < nlen (flat 0 gi) -> spares (ident i) (all_events steps) -> kget (ident i) (livem (flat 0 gi) H) = None ->
      rows_of (ident i) rowss = []).
Proof.
  intros Hg. induction steps as [|[k es] steps IH]; intros c s gi H cur from U Sm Ca FF Hk Fz C.
  - exists [], []. split; [left; reflexivity|]. split; [constructor|]. split; [constructor|]. split; [|reflexivity].
    intros q y v E1 E2 Ly _. split; auto. split; auto. intros _ ([|? ?] & E); discriminate.
  - unfold all_events in *. cbn [map snd List.concat sq_moments mixed] in *.
    inversion Hk as [|? ? Hk1 Hk2]; subst. inversion Fz as [|? ? Fz1 Fz2]; subst. cbn [fst] in Fz1, Hk1.
    destruct (calm_app _ _ _ _ Ca) as [Ca1 Ca2]. rewrite nlen_app in FF.
    assert (FL : files_lt s) by (unfold files_lt; lia).
    pose proof (sa_slots _ _ _ _ U) as SL. set (G := flat 0 gi) in *.
    unfold scan_call at 1 3. cbn [fst snd].
    rewrite (scall_ok _ _ _ _ _ _ _ _ _ U FL Fz1 C). fold G.
    assert (VS : Forall2 same_id G H) by apply SL.
    assert (Hl : length G = length H) by (eapply forall2_length; eauto).
    set (L := filter live (skipn from G)).
    assert (Hroom : (1 <= room cur k)%nat) by (destruct cur; cbn [room]; lia).
    destruct (firstn (room cur k) L) as [|x L0 _] eqn:EL using rev_ind.
    + (* nothing left *)
      assert (L = []) as EL0 by (destruct L; auto; destruct (room cur k); [lia|discriminate]).
      change (next_cursor (command_scan_send_scanlist [])) with (@None bytes).
      exists [hardsend "-No more data"], [[]]. split; [left; reflexivity|]. split; [constructor; [reflexivity|constructor]|].
      split; [constructor; [intros r []|constructor]|]. split; [|reflexivity].
      intros q y v E1 E2 Ly _. split; [reflexivity|]. split; [now left|]. intros Hq _. exfalso.
      assert (I : In y L).
      { unfold L. apply filter_In. split; auto. rewrite <- (firstn_skipn from G) in E1.
        assert (length (firstn from G) <= from)%nat by (rewrite firstn_length; lia).
        rewrite nth_error_app2 in E1 by lia. eapply nth_error_In; eauto. }
      rewrite EL0 in I. exact I.
    + rewrite next_cursor_send.
      assert (EL2 : L = L0 ++ x :: skipn (room cur k) L).
      { rewrite <- (firstn_skipn (room cur k) L) at 1. rewrite EL, <- app_assoc. reflexivity. }
      destruct (filter_split _ _ _ _ _ EL2) as (A0 & B0 & EB & _ & EA0).
      assert (Lx : live x = true).
      { assert (In x L) as I by (rewrite EL2; apply in_app_iff; right; now left). apply filter_In in I. tauto. }
      assert (Hfrom : (from <= length G)%nat).
      { destruct (Nat.leb_spec from (length G)); auto. rewrite skipn_all2 in EB by lia. destruct A0; discriminate. }
      assert (EG : G = firstn from G ++ (A0 ++ [x]) ++ B0).
      { rewrite <- (firstn_skipn from G) at 1. rewrite EB, <- app_assoc. reflexivity. }
      assert (LF : length (firstn from G) = from) by (rewrite firstn_length; lia).
      destruct (spart_rows _ _ _ _ _ EG SL) as [P1 P2]. rewrite LF in P1, P2.
      set (H2 := firstn (length (A0 ++ [x])) (skipn from H)) in *. set (rows := livem (A0 ++ [x]) H2) in *.
      assert (WG : Forall sloc_wf G) by (destruct U as (m & U & _); apply U).
      assert (RM : Forall2 rowm (L0 ++ [x]) rows).
      { replace (L0 ++ [x]) with (filter live (A0 ++ [x])) by (rewrite filter_app, EA0; cbn [filter]; now rewrite Lx).
        destruct U as (m & U & _). assert (VG := sf_ver _ _ _ _ (si_f _ _ _ _ _ U)). fold G in VG.
        pose proof VG as VG2. rewrite EG in VG2. apply Forall2_app_inv_l in VG2. destruct VG2 as (H1 & H23 & F1 & F23 & EH).
        apply Forall2_app_inv_l in F23. destruct F23 as (H2' & H3 & F2 & F3 & ->).
        assert (H2 = H2') as EH2.
        { unfold H2. rewrite EH, skipn_exact by (rewrite <- (forall2_length _ _ _ F1); exact LF).
          apply firstn_exact. symmetry. eapply forall2_length; eauto. }
        eapply rows_seq.
        - rewrite EG in WG. apply Forall_app in WG. destruct WG as [_ WG]. apply Forall_app in WG. apply WG.
        - rewrite EH2. exact F2.
        - unfold small in *. rewrite Forall_forall in *. intros r Hr. apply Sm. now apply P1. }
      destruct (run_keep g n es Hg c s gi H U Ca1) as
        (o & c' & s' & gi' & H' & R1 & U' & Kr & Nf & Ng & Sp & Cu & Nn).
      unfold srun_only at 1 3. rewrite R1. cbn [option_map snd].
      fold G in Kr, Sp, Cu, Nn, Ng. rewrite Kr in Fz2 |- *.
      assert (Hx : nth_error G (from + length A0) = Some x).
      { rewrite EG. rewrite nth_error_app2 by lia. rewrite LF. replace (from + length A0 - from)%nat with (length A0) by lia.
        rewrite <- app_assoc. rewrite nth_error_app2, Nat.sub_diag by lia. reflexivity. }
      assert (Sm' : small (livem (flat 0 gi') H')).
      { pose proof (small_sq_run es (calm_wf _ _ _ _ _ Ca1 R1) c (sq_of gi H) Sm) as S0. rewrite Kr in S0. exact S0. }
      assert (FF' : nlen (dk_i (dk s')) + nlen (List.concat (map snd steps)) < 2 ^ 32).
      { rewrite (sa_files _ _ _ _ U'). rewrite (sa_files _ _ _ _ U) in FF. lia. }
      assert (NE : rows <> []) by (intros X0; rewrite X0 in RM; inversion RM; destruct L0; discriminate).
      destruct (Cu _ _ Hx) as (x' & X1 & X2 & X3 & X4).
      assert (NR : forall i, i < nlen G -> kget (ident i) (livem G H) = None -> filter (byid (ident i)) rows = []).
      { intros i _ K. apply kget_none in K. destruct (filter (byid (ident i)) rows) as [|r l] eqn:E; auto. exfalso. apply K.
        assert (In r (filter (byid (ident i)) rows)) as J by (rewrite E; now left). apply filter_In in J. destruct J as [J1 J2].
        unfold byid in J2. destruct (bseqb_spec (fst r) (ident i)) as [<-|]; [|discriminate]. apply in_map. now apply P1. }
      assert (RO : forall key rest, rows_of key (rows :: rest) = filter (byid key) rows ++ rows_of key rest).
      { intros key rest. unfold rows_of. cbn [List.concat]. apply filter_app. }
      destruct (bseqb_spec (cursor_of x') (cursor_of x)) as [EC|NC].
      * (* the cursor still stands *)
        assert (C' : cursor_at (Some (cursor_of x)) (S (from + length A0)) (flat 0 gi')).
        { cbn [cursor_at]. exists (from + length A0)%nat, x'. auto. }
        destruct (IH c' s' gi' H' _ _ U' Sm' (Ca2 _ _ R1) FF' Hk2 Fz2 C') as (rs & rowss & Q1 & Q2 & Q3 & Q4 & Q5).
        exists (command_scan_send_scanlist (L0 ++ [x]) :: rs), (rows :: rowss).
        split.
        { destruct Q1 as [Q1|[Q1 Q1']]; rewrite Q1; cbn [option_map app]; [left; reflexivity|right].
          split; [reflexivity|]. now apply cut_short_cons. }
        split; [constructor; [now apply scan_reply_send|exact Q2]|].
        split; [cbn [length firstn]; constructor; [exact P1|exact Q3]|]. split.
        -- intros q y v E1 E2 Ly S0. apply Forall_app in S0. destruct S0 as [S1 S2].
           destruct (Sp _ _ _ E1 E2 Ly S1) as [E1' E2'].
           destruct (Q4 q y v E1' E2' Ly S2) as (T1 & T2 & T3).
           rewrite RO, (P2 q y v E1 E2 Ly). rewrite app_length. cbn [length].
           destruct (Nat.leb_spec from q) as [J1|J1]; cbn [andb].
           ++ destruct (Nat.ltb_spec q (from + (length A0 + 1))) as [J2|J2].
              ** rewrite T1 by lia. rewrite app_nil_r. split; [lia|]. split; auto.
              ** cbn [app]. split; [lia|]. split; auto. intros _ En. apply T3; [lia|]. eapply ended_inv; eauto.
           ++ cbn [app]. rewrite T1 by lia. split; auto. split; auto. lia.
        -- intros i Hi S0 K. apply Forall_app in S0. destruct S0 as [S1 S2]. rewrite RO, NR by auto. apply Q5; auto. lia.
      * (* the cursor is refused *)
        assert (Wr : exists e, In e es /\ writes (l_id x) e) by (destruct X4 as [X4|X4]; [congruence|exact X4]).
        exists [command_scan_send_scanlist (L0 ++ [x])], [rows].
        split.
        { destruct steps as [|[k2 es2] steps]; [left; reflexivity|right]. cbn [mixed sq_moments] in *.
          inversion Fz2 as [|? ? Fz3 Fz4]; subst. cbn [fst] in Fz3. unfold scan_call at 1. cbn [fst snd].
          assert (WX : sloc_wf x) by (rewrite Forall_forall in WG; apply WG; eapply nth_error_In; eauto).
          rewrite (scall_stale n s' gi' H' c' cmd k2 x x' U'); auto; [|unfold files_lt; lia|eapply nth_error_In; eauto].
          change (next_cursor (hardsend "-Invalid key format")) with (@None bytes). split; [reflexivity|].
          destruct (rows_last _ _ _ RM) as (r0 & r & Er). destruct Wr as (e & I & Wr).
          exists [], r0, (l_id x), r, k, es, e. rewrite <- Er. split; [reflexivity|]. split; [reflexivity|]. auto. }
        split; [constructor; [now apply scan_reply_send|constructor]|].
        split; [cbn [length firstn]; constructor; [exact P1|constructor]|]. split.
        -- intros q y v E1 E2 Ly S0. rewrite RO, (P2 q y v E1 E2 Ly). unfold rows_of. cbn [List.concat filter]. rewrite app_nil_r.
           rewrite app_length. cbn [length]. split; [|split].
           ++ intros J. destruct (Nat.leb_spec from q); [lia|]. reflexivity.
           ++ destruct (_ && _)%bool; auto.
           ++ intros _ ([|? [|? ?]] & En); try discriminate. injection En as En. congruence.
        -- intros i Hi S0 K. rewrite RO, NR by auto. reflexivity.
Qed.

Lemma seq_mixed g n c0 es o c s cmd steps : sreached g n c0 (plain es) o c s ->
  calm g (plain (all_events steps)) (c, s) -> nlen (dk_i (dk s)) + nlen (all_events steps) < 2 ^ 32 ->
  Forall (fun x => 1 <= fst x)%nat steps ->
  Forall (fun st => is_frozen (fst st) = false) (sq_moments steps (c, sq_of_history c0 es)) ->
  exists rs rowss,
    (mixed scan_call (srun_only g) cmd None steps (c, s) = Some rs \/
     (mixed scan_call (srun_only g) cmd None steps (c, s) = Some (rs ++ [hardsend "-Invalid key format"]) /\ cut_short steps rowss)) /\
    Forall2 scan_reply rowss rs /\
    Forall2 (fun rows st => incl rows (sq_map (snd st))) rowss (firstn (length rowss) (sq_moments steps (c, sq_of_history c0 es))) /\
    (forall k, (forall e, In e (all_events steps) -> ~ asks k e) ->
      match kget k (sq_map (sq_of_history c0 es)) with
      | None => (exists i, i < sq_next (sq_of_history c0 es) /\ k = ident i) -> rows_of k rowss = []
      | Some v => (rows_of k rowss = [] \/ rows_of k rowss = [(k, v)]) /\ (ended rowss -> rows_of k rowss = [(k, v)])
      end).
Proof.
  intros R Ca FF Hs Fz. destruct (sreached_plain _ _ _ _ _ _ _ R) as (_ & gi & H & U & E).
  assert (Hg : sq_settings g) by apply R.
  assert (Es : sq_of_history c0 es = sq_of gi H) by (unfold sq_of_history; rewrite E; reflexivity).
  assert (Sm : small (livem (flat 0 gi) H)).
  { pose proof (small_sq_of c0 es (sreached_wf _ _ _ _ _ _ _ R)) as Q. rewrite Es in Q. exact Q. }
  rewrite Es in *. destruct (smixed_ok g n cmd Hg steps c s gi H None O U Sm Ca FF Hs Fz eq_refl) as (rs & rowss & Q1 & Q2 & Q3 & Q4 & Q5).
  exists rs, rowss. split; [exact Q1|]. split; [exact Q2|]. split; [exact Q3|]. intros k Hk.
  assert (S : spares k (all_events steps)).
  { unfold spares. rewrite Forall_forall. intros e He. apply not_asked. auto. }
  cbn [sq_of sq_map sq_next]. destruct (kget k (livem (flat 0 gi) H)) as [v|] eqn:K.
  - destruct (kget_nth _ _ _ _ (proj1 (sa_slots _ _ _ _ U)) K) as (q & y & E1 & E2 & Ly & Hy). subst k.
    destruct (Q4 q y _ E1 E2 Ly S) as (_ & T2 & T3). split; auto. apply T3. lia.
  - intros (i & Hi & ->). apply Q5; auto. now rewrite nlen_flat.
Qed.
