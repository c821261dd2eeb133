(* Invariant of a sequential namespace: record number i of the index files, counted
   over all files, is the identifier i. *)
From Coq Require Import List NArith ZArith Bool Strings.Byte Lia ZifyBool ZifyN ZifyNat Sorted.
From Verif Require Import Bytes BytesFacts Crc32 Crc32Facts Layout LayoutFacts Store Commands SpecKV SpecSeq
  Ghost DataFacts TableFacts CheckFacts UserInv SeqMap.
Import ListNotations.
Open Scope N_scope.
Ltac Zify.zify_post_hook ::= Z.div_mod_to_equations.

(* number of records *)
Fixpoint tot (gi : list (list item)) : N := match gi with [] => 0 | l :: r => nlen l + tot r end.

Lemma tot_app a b : tot (a ++ b) = tot a + tot b.
Proof. induction a; cbn [app tot]; lia. Qed.

Lemma nlen_place f off l : nlen (place f off l) = nlen l.
Proof. revert off; induction l; intros; cbn [place nlen]; auto. now rewrite IHl. Qed.

Lemma nlen_flat f gi : nlen (flat f gi) = tot gi.
Proof. revert f; induction gi; intros; cbn [flat tot nlen]; auto. now rewrite nlen_app, nlen_place, IHgi. Qed.

Lemma slot_split gi : forall i, i < tot gi ->
  exists g1 l1 it l2 g2, gi = g1 ++ (l1 ++ it :: l2) :: g2 /\ i = tot g1 + nlen l1.
Proof.
  induction gi as [|l gi IH]; cbn [tot]; intros i Hi; [lia|].
  destruct (N.lt_ge_cases i (nlen l)) as [X|X].
  - destruct (nget_Some i l X) as (it & Hit). apply nget_split in Hit. destruct Hit as (a & b & -> & Ha).
    exists [], a, it, b, gi. cbn [app tot]. split; [reflexivity|lia].
  - destruct (IH (i - nlen l)) as (g1 & l1 & it & l2 & g2 & -> & E); [lia|].
    exists (l :: g1), l1, it, l2, g2. cbn [app tot]. split; [reflexivity|lia].
Qed.

Lemma split_eq {A} (a b c d : list A) : a ++ b = c ++ d -> nlen a = nlen c -> a = c /\ b = d.
Proof.
  revert c; induction a as [|x a IH]; intros [|y c] E L; cbn [app nlen] in *; auto; try lia.
  injection E as -> E. destruct (IH c E) as [-> ->]; [lia|auto].
Qed.

Lemma tot_mono g1 l g2 h1 k h2 : g1 ++ l :: g2 = h1 ++ k :: h2 -> nlen g1 < nlen h1 -> tot g1 + nlen l <= tot h1.
Proof.
  revert h1; induction g1 as [|x g1 IH]; intros h1 E L; destruct h1 as [|y h1]; cbn [nlen] in L; try lia; cbn [app] in E.
  - injection E as -> E. cbn [tot]. lia.
  - injection E as -> E. cbn [tot]. specialize (IH _ E). lia.
Qed.

(* ---- the map from identifiers to files ---- *)
Record seq_ok (m : list (N * N)) (gi : list (list item)) : Prop := {
  so_shape : exists t, m = (0, 0) :: t /\ rising t;
  so_in : forall st f, In (st, f) m -> exists g1 l g2, gi = g1 ++ l :: g2 /\ f = nlen g1 /\ st = tot g1;
  so_has : forall g1 l g2, gi = g1 ++ l :: g2 -> l <> [] -> In (tot g1, nlen g1) m;
  so_one : gi = [[]] -> m = [(0, 0)]
}.

(* the current file is in the map *)
Definition anchored (m : list (N * N)) (gi : list (list item)) : Prop :=
  forall g l, gi = g ++ [l] -> In (tot g, nlen g) m.

Lemma rising_mid a p b : rising (a ++ p :: b) -> forall q, In q a -> fst q < fst p.
Proof.
  intros S q Hq. induction a as [|x a IH]; [contradiction|]. cbn [app] in S. inversion S as [|? ? S' F]; subst.
  destruct Hq as [->|Hq]; [|auto]. rewrite Forall_forall in F. apply F. apply in_app_iff. right. now left.
Qed.

Lemma resolve_any m gi id : seq_ok m gi ->
  exists g1 l g2, index_seqmap_from_seq m id = Some (tot g1, nlen g1) /\ gi = g1 ++ l :: g2 /\ tot g1 <= id /\
    forall h1 k h2, gi = h1 ++ k :: h2 -> In (tot h1, nlen h1) m -> tot h1 <= id -> nlen h1 <= nlen g1.
Proof.
  intros [(t & -> & R) I _ _]. destruct (search_last 0 t id R) as (a & [st f] & b & S1 & S2 & S3 & S4).
  cbn [fst] in S3. destruct (I st f) as (g1 & l & g2 & -> & -> & ->).
  { rewrite S2. apply in_app_iff. right. now left. }
  exists g1, l, g2. split; [exact S1|]. split; [reflexivity|]. split; [exact S3|].
  intros h1 k h2 E Hin Hle. destruct (N.le_gt_cases (nlen h1) (nlen g1)) as [X|X]; [exact X|exfalso].
  assert (T : tot g1 <= tot h1) by (pose proof (tot_mono _ _ _ _ _ _ E X); lia).
  assert (Ha : In (tot h1, nlen h1) a).
  { rewrite S2 in Hin. apply in_app_iff in Hin. destruct Hin as [Hin|[Hin|Hin]]; auto.
    - exfalso. assert (nlen h1 = nlen g1) by congruence. lia.
    - exfalso. rewrite Forall_forall in S4. specialize (S4 _ Hin). cbn [fst] in S4. lia. }
  destruct a as [|a0 a]; [contradiction|]. cbn [app] in S2. injection S2 as S2a S2b.
  rewrite S2b in R. destruct Ha as [Ha|Ha].
  - rewrite <- S2a in Ha. injection Ha as Ha1 Ha2. lia.
  - pose proof (rising_mid _ _ _ R _ Ha) as Y. cbn [fst] in Y. lia.
Qed.

Lemma resolve_in m g1 l1 it l2 g2 : seq_ok m (g1 ++ (l1 ++ it :: l2) :: g2) ->
  index_seqmap_from_seq m (tot g1 + nlen l1) = Some (tot g1, nlen g1).
Proof.
  intros S. destruct (resolve_any _ _ (tot g1 + nlen l1) S) as (h1 & l & h2 & R1 & R2 & R3 & R4).
  rewrite R1. destruct (N.lt_trichotomy (nlen g1) (nlen h1)) as [X|[X|X]].
  - exfalso. pose proof (tot_mono _ _ _ _ _ _ R2 X) as Y. rewrite nlen_app in Y. cbn [nlen] in Y. lia.
  - destruct (split_eq _ _ _ _ R2 X) as [<- _]. reflexivity.
  - exfalso. specialize (R4 g1 (l1 ++ it :: l2) g2 eq_refl).
    assert (nlen g1 <= nlen h1); [|lia]. apply R4; [|lia]. apply (so_has _ _ S) with (l := l1 ++ it :: l2) (g2 := g2); auto.
    now destruct l1.
Qed.

Lemma resolve_out m gi id : seq_ok m gi -> tot gi <= id ->
  exists g1 l g2, index_seqmap_from_seq m id = Some (tot g1, nlen g1) /\ gi = g1 ++ l :: g2 /\ tot g1 + nlen l <= id.
Proof.
  intros S H. destruct (resolve_any _ _ id S) as (h1 & l & h2 & R1 & R2 & R3 & _).
  exists h1, l, h2. split; [exact R1|]. split; [exact R2|]. rewrite R2, tot_app in H. cbn [tot] in H. lia.
Qed.

(* changing records does not matter, only their number *)
Lemma tot_lens g g' : map nlen g = map nlen g' -> tot g = tot g'.
Proof.
  revert g'; induction g as [|l g IH]; intros [|l' g'] E; cbn [map] in E; try discriminate; auto.
  injection E as E1 E2. cbn [tot]. rewrite E1, (IH g'); auto.
Qed.

Lemma lens_split (gi gi' : list (list item)) g1' l' g2' : map nlen gi = map nlen gi' -> gi' = g1' ++ l' :: g2' ->
  exists g1 l g2, gi = g1 ++ l :: g2 /\ nlen g1 = nlen g1' /\ tot g1 = tot g1' /\ nlen l = nlen l'.
Proof.
  revert gi gi'. induction g1' as [|x g1' IH]; intros gi gi' E E'; cbn [app] in E'; subst gi'.
  - destruct gi as [|l gi]; cbn [map] in E; [discriminate|]. injection E as E1 E2. exists [], l, gi. auto.
  - destruct gi as [|y gi]; cbn [map] in E; [discriminate|]. injection E as E1 E2.
    destruct (IH gi (g1' ++ l' :: g2') E2 eq_refl) as (g1 & l & g2 & -> & H1 & H2 & H3).
    exists (y :: g1), l, g2. cbn [app nlen tot]. repeat split; auto; lia.
Qed.

Lemma seq_ok_lens m gi gi' : map nlen gi = map nlen gi' -> seq_ok m gi -> seq_ok m gi'.
Proof.
  intros E [S I Hs O]. constructor; auto.
  - intros st f Hin. destruct (I st f Hin) as (g1 & l & g2 & Eg & -> & ->).
    destruct (lens_split gi' gi g1 l g2 (eq_sym E) Eg) as (h1 & k & h2 & E1 & E2 & E3 & _).
    exists h1, k, h2. auto.
  - intros g1 l g2 Eg Hl. destruct (lens_split gi gi' g1 l g2 E Eg) as (h1 & k & h2 & E1 & E2 & E3 & E4).
    rewrite <- E2, <- E3. apply (Hs h1 k h2 E1). intros ->. destruct l; [congruence|cbn [nlen] in E4; lia].
  - intros ->. apply O. destruct gi as [|x [|y gi]]; try discriminate E. cbn [map nlen] in E. destruct x; [reflexivity|].
    injection E as E. cbn [nlen] in E. lia.
Qed.

Lemma anchored_lens m gi gi' : map nlen gi = map nlen gi' -> anchored m gi -> anchored m gi'.
Proof.
  intros E An g l Eg. destruct (lens_split gi gi' g l [] E Eg) as (h1 & k & h2 & E1 & E2 & E3 & E4).
  rewrite <- E2, <- E3. apply An with k. subst gi gi'. apply (f_equal nlen) in E. rewrite !nlen_length, !map_length, <- !nlen_length, !nlen_app in E.
  cbn [nlen] in E. destruct h2; [reflexivity|cbn [nlen] in E; lia].
Qed.

(* one more record in the current file *)
Lemma seq_ok_append m g l it : seq_ok m (g ++ [l]) -> anchored m (g ++ [l]) ->
  seq_ok m (g ++ [l ++ [it]]) /\ anchored m (g ++ [l ++ [it]]).
Proof.
  intros [S I Hs O] An. split.
  - constructor; auto.
    3:{ intros E. destruct g as [|x [|y g]]; try discriminate E. cbn [app] in E. injection E as E. now destruct l. }
    + intros st f Hin. destruct (I st f Hin) as (g1 & k & g2 & Eg & -> & ->).
      destruct g2 as [|z g2] using rev_ind.
      * apply (app_inj_tail g g1) in Eg. destruct Eg as [-> ->]. exists g1, (k ++ [it]), []. auto.
      * clear IHg2. change (g1 ++ k :: g2 ++ [z]) with (g1 ++ (k :: g2) ++ [z]) in Eg. rewrite app_assoc in Eg.
        apply app_inj_tail in Eg. destruct Eg as [-> ->]. exists g1, k, (g2 ++ [z ++ [it]]).
        rewrite <- app_assoc. auto.
    + intros g1 k g2 Eg Hk. destruct g2 as [|z g2] using rev_ind.
      * apply (app_inj_tail g g1) in Eg. destruct Eg as [<- _]. apply An with l. reflexivity.
      * clear IHg2. change (g1 ++ k :: g2 ++ [z]) with (g1 ++ (k :: g2) ++ [z]) in Eg. rewrite app_assoc in Eg.
        apply app_inj_tail in Eg. destruct Eg as [-> _]. apply (Hs g1 k (g2 ++ [l])); auto. now rewrite <- app_assoc.
  - intros g' l' E. apply app_inj_tail in E. destruct E as [<- _]. apply An with l. reflexivity.
Qed.

(* a new file *)
Lemma rising_snoc t p : rising t -> (forall q, In q t -> fst q < fst p) -> rising (t ++ [p]).
Proof.
  intros R. induction R as [|x t R IH F]; intros Hp; cbn [app].
  - constructor; constructor.
  - constructor.
    + apply IH. intros q Hq. apply Hp. now right.
    + apply Forall_app. split; auto. constructor; auto. apply Hp. now left.
Qed.

Lemma seq_ok_jump m gi g l : seq_ok m gi -> gi = g ++ [l] -> l <> [] \/ m = [(0, 0)] ->
  seq_ok (m ++ [(tot gi, nlen gi)]) (gi ++ [[]]) /\ anchored (m ++ [(tot gi, nlen gi)]) (gi ++ [[]]).
Proof.
  intros [(t & -> & R) I Hs O] Eg Hc. split; [constructor|].
  4:{ intros E. subst gi. destruct g; cbn [app] in E; discriminate E || (destruct g; discriminate E). }
  - exists (t ++ [(tot gi, nlen gi)]). split; [reflexivity|]. apply rising_snoc; auto.
    intros [st f] Hq. destruct Hc as [Hc|Hc]; [|injection Hc as ->; contradiction].
    destruct (I st f) as (g1 & k & g2 & E & -> & ->); [now right|]. cbn [fst].
    destruct g2 as [|z g2] using rev_ind.
    + rewrite Eg in E. apply (app_inj_tail g g1) in E. destruct E as [-> ->]. rewrite Eg, tot_app. cbn [tot].
      destruct k; [congruence|]. cbn [nlen]. lia.
    + clear IHg2. rewrite E in Eg. change (g1 ++ k :: g2 ++ [z]) with (g1 ++ (k :: g2) ++ [z]) in Eg. rewrite app_assoc in Eg.
      apply app_inj_tail in Eg. destruct Eg as [_ ->]. rewrite E, tot_app. cbn [tot]. rewrite tot_app. cbn [tot].
      destruct l; [congruence|]. cbn [nlen]. lia.
  - intros st f Hin. apply (in_app_iff ((0, 0) :: t)) in Hin. destruct Hin as [Hin|[Hin|[]]].
    + destruct (I st f Hin) as (g1 & k & g2 & -> & -> & ->). exists g1, k, (g2 ++ [[]]). rewrite <- app_assoc. auto.
    + injection Hin as <- <-. exists gi, [], []. auto.
  - intros g1 k g2 E Hk. apply (in_app_iff ((0, 0) :: t)).
    destruct g2 as [|z g2] using rev_ind.
    + apply (app_inj_tail gi g1) in E. destruct E as [_ <-]. congruence.
    + clear IHg2. change (g1 ++ k :: g2 ++ [z]) with (g1 ++ (k :: g2) ++ [z]) in E. rewrite app_assoc in E.
      apply app_inj_tail in E. destruct E as [-> _]. left. now apply (Hs g1 k g2).
  - intros g' l' E. apply (app_inj_tail gi g') in E. destruct E as [<- _]. apply (in_app_iff ((0, 0) :: t)). right. now left.
Qed.

(* ---- records ---- *)
Definition sver_ok (dd : list bytes) (x : loc) (v : ver) : Prop :=
  l_id x = fst v /\ it_len (l_it x) = blen (fst (snd v)) /\
  it_crc (l_it x) = zdb_crc32 (fst (snd v)) /\ it_ts (l_it x) = snd (snd v) /\
  exists r, drec_wf r /\ dr_id r = fst v /\ dr_datalen r = blen (fst (snd v)) /\
    dr_crc r = zdb_crc32 (fst (snd v)) /\ dr_flags r = 0 /\ dr_ts r = snd (snd v) /\
    data_at dd (it_dataid (l_it x)) (it_off (l_it x)) r (fst (snd v)).

Lemma sver_ok_ext dd dd' x v : dext dd dd' -> sver_ok dd x v -> sver_ok dd' x v.
Proof.
  intros E (H1 & H2 & H3 & H4 & r & R1 & R2 & R3 & R4 & R5 & R6 & R7).
  unfold sver_ok. repeat split; auto. exists r. repeat split; auto; try apply R1.
  eapply data_at_ext; eauto.
Qed.

Lemma sver_same dd G H : Forall2 (sver_ok dd) G H -> Forall2 same_id G H.
Proof. intros F. induction F as [|x v G H Hv F IH]; constructor; auto. apply Hv. Qed.

Definition sloc_wf (x : loc) : Prop := item_wf (l_it x) /\ blen (l_id x) = 8 /\ l_off x < 4294967296.

Definition slot_ids (G : list loc) : Prop := forall i x, nget i G = Some x -> live x = true -> l_id x = ident i.

Record SFInv (di dd : list bytes) (gi : list (list item)) (H : list ver) : Prop := {
  sf_files : di = enc_ifs MODE_SEQ 0 gi;
  sf_small : nlen gi <= 4294967296;
  sf_wf : Forall sloc_wf (flat 0 gi);
  sf_ids : slot_ids (flat 0 gi);
  sf_ver : Forall2 (sver_ok dd) (flat 0 gi) H;
  sf_chain : chain 0 (flat 0 gi);
  sf_room : forall g l, gi = g ++ [l] -> 26 * nlen l <= room dd (nlen g)
}.

Record SInv (n : N) (s : est) (m : list (N * N)) (gi : list (list item)) (H : list ver) : Prop := {
  si_f : SFInv (dk_i (dk s)) (dk_d (dk s)) gi H;
  si_mode : x_mode (ix s) = MODE_SEQ;
  si_ns : x_ns (ix s) = n;
  si_seq : x_seq (ix s) = Some m;
  si_map : seq_ok m gi;
  si_io : dk_io (dk s) = [];
  si_id : x_indexid (ix s) + 1 = nlen gi;
  si_did : d_dataid (dt s) = x_indexid (ix s);
  si_dn : nlen (dk_d (dk s)) = nlen gi;
  si_dhdr : dhdr_ok (dk_d (dk s));
  si_tab : TInv (tb s) n [];
  si_next : x_nextentry (ix s) = tot gi;
  si_prev : x_prev (ix s) = last_off 0 (flat 0 gi);
  si_cnt : x_entries (ix s) = u64 (cnt (flat 0 gi));
  si_dsz : x_datasize (ix s) = u64 (dsum (flat 0 gi));
  si_msz : x_size (ix s) = u64 (msum (flat 0 gi))
}.

(* ---- sizes ---- *)
Lemma isz_42 f off l : Forall sloc_wf (place f off l) -> isz l = 42 * nlen l.
Proof.
  revert off; induction l as [|it l IH]; intros off F; cbn [place isz nlen]; auto.
  pose proof (Forall_inv F) as F1. pose proof (Forall_inv_tail F) as F2. destruct F1 as (_ & F1 & _). unfold l_id in F1. cbn [snd] in F1.
  unfold itsz. rewrite F1, (IH _ F2). lia.
Qed.

Lemma flat_file f g1 l g2 : flat f (g1 ++ l :: g2) = flat f g1 ++ place (f + nlen g1) 29 l ++ flat (f + nlen g1 + 1) g2.
Proof. rewrite flat_app. reflexivity. Qed.

Lemma file_wf g1 l g2 : Forall sloc_wf (flat 0 (g1 ++ l :: g2)) -> Forall sloc_wf (place (nlen g1) 29 l).
Proof.
  rewrite flat_file. intros F. apply Forall_app in F. destruct F as [_ F]. apply Forall_app in F. apply F.
Qed.

Lemma isz_part f off l1 l2 : Forall sloc_wf (place f off (l1 ++ l2)) -> isz l1 = 42 * nlen l1.
Proof. rewrite place_app. intros F. apply Forall_app in F. eapply isz_42. apply F. Qed.

Lemma tot_bound_gen f gi : Forall sloc_wf (flat f gi) -> 42 * tot gi <= nlen gi * 4294967308.
Proof.
  revert f; induction gi as [|l gi IH]; intros f F; cbn [tot nlen flat] in *; [lia|].
  apply Forall_app in F. destruct F as [F1 F2]. specialize (IH _ F2).
  assert (42 * nlen l <= 4294967308); [|lia].
  destruct l as [|it l] using rev_ind; [cbn [nlen]; lia|]. clear IHl.
  pose proof (isz_part _ _ _ _ F1) as E. rewrite place_app in F1. apply Forall_app in F1. destruct F1 as [_ F1].
  cbn [place] in F1. apply Forall_inv in F1. destruct F1 as (_ & _ & W). cbn [l_off fst snd] in W.
  rewrite nlen_app. cbn [nlen]. lia.
Qed.

Lemma tot_bound di dd gi H : SFInv di dd gi H -> tot gi + 1 < 18446744073709551616.
Proof.
  intros F. pose proof (tot_bound_gen 0 gi (sf_wf _ _ _ _ F)). pose proof (sf_small _ _ _ _ F).
  assert (nlen gi * 4294967308 <= 4294967296 * 4294967308) by (apply N.mul_le_mono_r; auto). lia.
Qed.

Lemma ident_inj i j : i < 18446744073709551616 -> j < 18446744073709551616 -> ident i = ident j -> i = j.
Proof. intros Hi Hj E. apply (f_equal unle) in E. unfold ident in E. rewrite !unle_le8, !u64_small in E; auto. Qed.

Lemma unle_ident i : i < 18446744073709551616 -> unle (ident i) = i.
Proof. intros. unfold ident. now rewrite unle_le8, u64_small. Qed.

Lemma ident_unle k : blen k = 8 -> ident (unle k) = k.
Proof. intros H. unfold ident. rewrite blen_length in H. rewrite <- (le_unle k) at 2. f_equal. lia. Qed.

(* ---- live identifiers are unique ---- *)
Lemma slot_at A x B j y : slot_ids (A ++ x :: B) -> nlen (A ++ x :: B) < 18446744073709551616 -> live x = true ->
  nget j (A ++ x :: B) = Some y -> live y = true -> l_id y = l_id x -> j = nlen A.
Proof.
  intros S L Hx J Ly E. assert (Ex : l_id x = ident (nlen A)) by (apply S; auto; apply nget_app_r).
  pose proof (nget_lt _ _ _ J) as Hb. rewrite (S _ _ J Ly), Ex in E. rewrite nlen_app in *. cbn [nlen] in *.
  apply ident_inj in E; lia.
Qed.

Lemma in_nget {A} (x : A) l : In x l -> exists i, i < nlen l /\ nget i l = Some x.
Proof.
  intros H. apply In_nth_error in H. destruct H as (j & Hj). exists (N.of_nat j).
  assert (J : nget (N.of_nat j) l = Some x) by (now rewrite nget_nth, Nat2N.id).
  split; auto. now apply nget_lt in J.
Qed.

Lemma slot_mid A x B : slot_ids (A ++ x :: B) -> nlen (A ++ x :: B) < 18446744073709551616 -> live x = true ->
  Forall (fun y => live y = true -> l_id y <> l_id x) A /\ Forall (fun y => live y = true -> l_id y <> l_id x) B.
Proof.
  intros S L Hx. split; apply Forall_forall; intros y Hy Ly E; apply in_nget in Hy; destruct Hy as (j & Hj & J).
  - assert (j = nlen A); [|lia]. apply (slot_at A x B j y); auto. now rewrite nget_app1.
  - assert (nlen A + 1 + j = nlen A); [|lia]. apply (slot_at A x B _ y); auto.
    change (x :: B) with ([x] ++ B). rewrite app_assoc. rewrite nget_app2 by (rewrite nlen_app; cbn [nlen]; lia).
    rewrite <- J. f_equal. rewrite nlen_app. cbn [nlen]. lia.
Qed.

Lemma kget_slot G H x v : Forall2 same_id G H -> slot_ids G -> nlen G < 18446744073709551616 ->
  In (x, v) (combine G H) -> live x = true -> kget (l_id x) (livem G H) = Some (snd v).
Proof.
  intros F S L Hin Lx.
  assert (U : forall A y B, G = A ++ y :: B -> live y = true -> Forall (fun z => live z = true -> l_id z <> l_id y) B).
  { intros A y B -> Ly. now apply (slot_mid A). }
  clear S L. induction F as [|y w G H Hyw F IH]; cbn [combine livem] in *; [contradiction|].
  destruct Hin as [Hi|Hi].
  - injection Hi as -> ->. rewrite Lx. destruct v as [k v]. unfold same_id in Hyw. cbn [kget fst snd] in *.
    now rewrite Hyw, bseqb_refl.
  - assert (IH' : kget (l_id x) (livem G H) = Some (snd v)).
    { apply IH; auto. intros A z B E. apply (U (y :: A) z B). cbn [app]. now rewrite E. }
    destruct (live y) eqn:Ly; auto. destruct w as [k w]. cbn [kget]. unfold same_id in Hyw. cbn [fst] in Hyw.
    destruct (bseqb_spec k (l_id x)) as [E|E]; auto. exfalso.
    specialize (U [] y G eq_refl Ly). rewrite Forall_forall in U. apply in_combine_l in Hi.
    apply (U x Hi Lx). congruence.
Qed.

Lemma kget_dead G H k : Forall2 same_id G H -> (forall x, In x G -> live x = true -> l_id x <> k) ->
  kget k (livem G H) = None.
Proof.
  intros F D. apply kget_none. rewrite livem_keys by auto. intros Hi. apply in_map_iff in Hi.
  destruct Hi as (x & Hx & Hi). apply filter_In in Hi. destruct Hi. apply (D x); auto.
Qed.

(* ---- lookups ---- *)
Definition seq_entry (n : N) (x : loc) : entry :=
  mkEntry n (l_id x) (it_off (l_it x)) (l_off x) (it_len (l_it x)) (it_flags (l_it x)) (it_dataid (l_it x)) (l_f x)
    (it_crc (l_it x)) (it_pid (l_it x)) (it_poff (l_it x)) (it_ts (l_it x)).

Lemma index_item_get_ok m d g1 l1 it l2 g2 :
  dk_i d = enc_ifs m 0 (g1 ++ (l1 ++ it :: l2) :: g2) -> item_wf it -> blen (it_id it) = 8 ->
  index_item_get_disk d (nlen g1) (29 + isz l1) 8 = Some it.
Proof.
  intros Hi W E. unfold index_item_get_disk, ifile. rewrite Hi, nget_enc_ifs.
  assert (Z : 34 + 8 = itsz it) by (unfold itsz; lia). rewrite Z, fread_item by auto.
  rewrite blen_enc_item. change (34 + blen (it_id it)) with (itsz it). rewrite N.eqb_refl.
  now rewrite dec_enc_item.
Qed.

Lemma seq_read n s m gi H i g1 l1 it l2 g2 : SInv n s m gi H ->
  gi = g1 ++ (l1 ++ it :: l2) :: g2 -> i = tot g1 + nlen l1 ->
  index_get_sequential (ix s) (dk s) (ident i) = Some (seq_entry n (nlen g1, 29 + isz l1, it)).
Proof.
  intros S E Hi. pose proof (si_f _ _ _ _ _ S) as F. pose proof (tot_bound _ _ _ _ F) as TB.
  assert (Hlt : i < tot gi) by (rewrite E, tot_app; cbn [tot]; rewrite nlen_app; cbn [nlen]; lia).
  unfold index_get_sequential. unfold ident at 1. rewrite blen_le. change (negb (N.of_nat 8 =? 8)) with false. cbn iota.
  rewrite (si_seq _ _ _ _ _ S), unle_ident by lia. rewrite Hi.
  pose proof (si_map _ _ _ _ _ S) as SM. rewrite E in SM. rewrite (resolve_in _ _ _ _ _ _ SM).
  pose proof (sf_wf _ _ _ _ F) as W. rewrite E in W. pose proof (file_wf _ _ _ W) as W1.
  pose proof (isz_part _ _ _ _ W1) as I1. rewrite place_app in W1. apply Forall_app in W1. destruct W1 as [_ W1].
  cbn [place] in W1. apply Forall_inv in W1. destruct W1 as (Wi & W8 & Wo). cbn [l_it l_id l_off fst snd] in *.
  rewrite sub64_exact by lia. replace (tot g1 + nlen l1 - tot g1) with (nlen l1) by lia.
  rewrite (u32_small (nlen l1)) by lia. unfold index_seq_offset. rewrite u64_small by lia.
  replace (29 + nlen l1 * 42) with (29 + isz l1) by lia. rewrite u32_small by exact Wo.
  rewrite (index_item_get_ok MODE_SEQ (dk s) g1 l1 it l2 g2); [|rewrite <- E; apply F|exact Wi|exact W8].
  rewrite nfirst_all; [|destruct Wi as (Wi & _); rewrite <- blen_nlen; lia].
  unfold seq_entry. cbn [l_it l_id l_off l_f fst snd]. rewrite (si_ns _ _ _ _ _ S). reflexivity.
Qed.

Lemma seq_read_out n s m gi H k : SInv n s m gi H -> blen k = 8 -> tot gi <= unle k -> unle k < 100000000 ->
  index_get_sequential (ix s) (dk s) k = None.
Proof.
  intros S K8 Hi Hlt. pose proof (si_f _ _ _ _ _ S) as F.
  unfold index_get_sequential. rewrite K8. change (negb (8 =? 8)) with false. cbn iota.
  rewrite (si_seq _ _ _ _ _ S). destruct (resolve_out _ _ (unle k) (si_map _ _ _ _ _ S) Hi) as (g1 & l & g2 & R1 & R2 & R3).
  rewrite R1. rewrite sub64_exact by lia. rewrite (u32_small (unle k - tot g1)) by lia.
  unfold index_seq_offset. rewrite u64_small by lia. rewrite u32_small by lia.
  unfold index_item_get_disk, ifile. rewrite (sf_files _ _ _ _ F), R2, nget_enc_ifs.
  pose proof (sf_wf _ _ _ _ F) as W. rewrite R2 in W. apply file_wf in W. apply isz_42 in W.
  rewrite fread_eof; [reflexivity|]. rewrite blen_enc_if. lia.
Qed.

Definition sfound (n : N) (s : est) gi H (k : bytes) (e : entry) : Prop :=
  exists g1 l1 l2 g2 x v, gi = g1 ++ (l1 ++ l_it x :: l2) :: g2 /\ l_f x = nlen g1 /\ l_off x = 29 + isz l1 /\
    k = ident (tot g1 + nlen l1) /\ In x (flat 0 gi) /\ live x = true /\ l_id x = k /\ e = seq_entry n x /\
    In (x, v) (combine (flat 0 gi) H) /\ sver_ok (dk_d (dk s)) x v /\
    kget k (livem (flat 0 gi) H) = Some (snd v).

Lemma seq_lookup n s m gi H k : SInv n s m gi H -> key_asked (tot gi) k ->
  match index_get s k with
  | Some e => sfound n s gi H k e
  | None => kget k (livem (flat 0 gi) H) = None
  end.
Proof.
  intros S Hask. pose proof (si_f _ _ _ _ _ S) as F. unfold index_get.
  rewrite (si_mode _ _ _ _ _ S). change (MODE_SEQ =? MODE_KV) with false. cbn iota.
  pose proof (sver_same _ _ _ (sf_ver _ _ _ _ F)) as S2.
  pose proof (tot_bound _ _ _ _ F) as TB.
  assert (ND : forall x, In x (flat 0 gi) -> live x = true -> exists i, i < tot gi /\ nget i (flat 0 gi) = Some x /\ l_id x = ident i).
  { intros x Hx Lx. apply in_nget in Hx. destruct Hx as (j & Hj & J). rewrite nlen_flat in Hj. exists j.
    split; [exact Hj|]. split; [exact J|]. now apply (sf_ids _ _ _ _ F). }
  destruct (N.eq_dec (blen k) 8) as [K8|K8].
  2:{ assert (E : index_get_sequential (ix s) (dk s) k = None).
      { unfold index_get_sequential. destruct (N.eqb_spec (blen k) 8); [contradiction|]. reflexivity. }
      rewrite E. apply kget_dead; auto. intros x Hx Lx Ex. destruct (ND x Hx Lx) as (i & _ & _ & Ei).
      apply K8. rewrite <- Ex, Ei. unfold ident. rewrite blen_le. reflexivity. }
  destruct (N.lt_ge_cases (unle k) (tot gi)) as [Hlt|Hge].
  - destruct (slot_split gi (unle k) Hlt) as (g1 & l1 & it & l2 & g2 & Eg & Ei).
    set (x := (nlen g1, 29 + isz l1, it)).
    assert (Hx : nget (unle k) (flat 0 gi) = Some x).
    { rewrite Eg, flat_split. change (0 + nlen g1) with (nlen g1). fold x.
      replace (unle k) with (nlen (flat 0 g1 ++ place (nlen g1) 29 l1)) by (rewrite nlen_app, nlen_flat, nlen_place; lia).
      apply nget_app_r. }
    assert (R : index_get_sequential (ix s) (dk s) k = Some (seq_entry n x)).
    { rewrite <- (ident_unle k K8). apply (seq_read n s m gi H (unle k) g1 l1 it l2 g2 S Eg Ei). }
    rewrite R.
    cbn [seq_entry e_flags]. destruct (is_deleted (it_flags (l_it x))) eqn:D.
    + apply kget_dead; auto. intros y Hy Ly Ey. destruct (ND y Hy Ly) as (i & Hi & Gi & Idi).
      assert (i = unle k). { rewrite <- Ey, Idi. now rewrite unle_ident by lia. }
      subst i. assert (y = x) by congruence. subst y. unfold live in Ly. rewrite D in Ly. discriminate.
    + assert (Lx : live x = true) by (unfold live; now rewrite D).
      apply nget_In in Hx as Hin. destruct (in_combine_ex _ _ _ x (sf_ver _ _ _ _ F) Hin) as (v & Hc & Hv).
      assert (Idx : l_id x = k). { rewrite (sf_ids _ _ _ _ F _ _ Hx Lx). now apply ident_unle. }
      exists g1, l1, l2, g2, x, v. split; [exact Eg|]. split; [reflexivity|]. split; [reflexivity|].
      split; [rewrite <- Ei; now rewrite ident_unle|]. split; [exact Hin|]. split; [exact Lx|]. split; [exact Idx|].
      split; [reflexivity|]. split; [exact Hc|]. split; [exact Hv|]. rewrite <- Idx.
      apply kget_slot; auto; [apply F|]. rewrite nlen_flat. lia.
  - rewrite (seq_read_out n s m gi H k) by (auto; destruct (Hask K8); lia).
    apply kget_dead; auto. intros x Hx Lx Ex. destruct (ND x Hx Lx) as (i & Hi & _ & Idi).
    assert (i = unle k) by (rewrite <- Ex, Idi; now rewrite unle_ident by lia). lia.
Qed.

Lemma ksize_slivem dd G H : Forall2 (sver_ok dd) G H -> ksize (livem G H) = dsum G.
Proof.
  intros F. induction F as [|x v G H Hxv F IH]; cbn [livem dsum]; auto.
  destruct (live x); cbn [ksize]; [|lia]. destruct v as [k [v t]]. cbn [ksize].
  destruct Hxv as (_ & Hl & _). cbn [fst snd] in Hl. lia.
Qed.
