(* The chains of versions in the index files (sequential mode): an update keeps the slot
   of the record and appends the old version, flagged as deleted *)
From Coq Require Import Strings.String Strings.Byte List NArith ZArith Bool Lia ZifyBool ZifyN ZifyNat.
From Verif Require Import Bytes BytesFacts Crc32 Layout LayoutFacts Store Text TextFacts Commands SpecKV SpecSeq Machine Reach
  CrashModel SeqReach Ghost DataFacts UserInv UserReq SeqInv SeqSteps Scan ScanFacts ScanTop History SpecHist HistFacts SeqReq SeqRun.
Import ListNotations.
Open Scope N_scope.
Local Notation length := List.length.

(* the deleted record at a and its parents hold the versions L of k *)
Inductive chains (S : list (loc * ver)) (k : bytes) : N * N -> list (bytes * N) -> Prop :=
| cs_end : chains S k (0, 0) []
| cs_more x v L : In (x, v) S -> live x = false -> l_id x = k ->
    chains S k (it_pid (l_it x), it_poff (l_it x)) L -> chains S k (addr x) (snd v :: L).

Lemma chains_keep S S' k : (forall x v, In (x, v) S -> live x = false -> In (x, v) S') ->
  forall a L, chains S k a L -> chains S' k a L.
Proof. intros K. induction 1; [constructor|]. eapply cs_more; eauto. Qed.

Lemma kget_some_live G H k v : kget k (livem G H) = Some v -> Forall2 same_id G H ->
  exists x, In (x, (k, v)) (combine G H) /\ live x = true /\ l_id x = k.
Proof.
  intros K F. revert K. induction F as [|y w G H Hy F IH]; cbn [livem combine]; [discriminate|]. destruct (live y) eqn:Ly.
  - destruct w as [k1 v1]. cbn [kget]. destruct (bseqb_spec k1 k) as [->|N].
    + intros E. injection E as ->. exists y. split; [now left|]. split; [exact Ly|]. exact Hy.
    + intros E. destruct (IH E) as (x & I & L). exists x. split; [now right|exact L].
  - intros E. destruct (IH E) as (x & I & L). exists x. split; [now right|exact L].
Qed.

Lemma smove_same k G H G' H' : length G = length H -> smove k G H G' H' -> forall x v, live x = false \/ l_id x <> k ->
  In (x, v) (combine G H) -> In (x, v) (combine G' H').
Proof.
  intros LG M z v D. destruct M as [A x B H Lx|G H y w Ly E1 E2 E3 E4|A x B HA w HB y d w' LA Lx Ea Ei Ly Ew Ep Ld Ed Eq Nw].
  - assert (D' : z <> x) by (intros ->; destruct D; congruence). clear D. revert H LG. induction A as [|a A IH]; intros [|u H] LG; cbn [app combine In]; try discriminate; auto.
    + intros [I|I]; [injection I as -> ->; congruence|auto].
    + intros [I|I]; [auto|]. right. apply IH; auto; cbn [app length] in LG; lia.
  - rewrite combine_app by auto. intros I. apply in_app_iff. now left.
  - assert (D' : z <> x) by (intros ->; destruct D; congruence).
    assert (LB : length B = length HB) by (rewrite !app_length in LG; cbn [length] in LG; lia).
    rewrite !combine_app by auto. cbn [combine]. rewrite combine_app by auto. rewrite !in_app_iff. cbn [In]. rewrite !in_app_iff.
    intros [I|[I|I]]; auto. injection I as -> ->. congruence.
Qed.

Lemma smove_back k G H G' H' : length G = length H -> smove k G H G' H' -> forall x v, live x = true -> l_id x <> k ->
  In (x, v) (combine G' H') -> In (x, v) (combine G H).
Proof.
  intros LG M z v Lz D. destruct M as [A x B H Lx|G H y w Ly E1 E2 E3 E4|A x B HA w HB y d w' LA Lx Ea Ei Ly Ew Ep Ld Ed Eq Nw].
  - revert H LG. induction A as [|a A IH]; intros [|u H] LG; cbn [app combine In]; try discriminate; auto.
    + intros [I|I]; [injection I as <- <-; rewrite live_mflag in Lz; congruence|auto].
    + intros [I|I]; [auto|]. right. apply IH; auto; cbn [app length] in LG; lia.
  - rewrite combine_app by auto. rewrite in_app_iff. cbn [combine In]. intros [I|[I|[]]]; auto. injection I as -> ->. congruence.
  - assert (LB : length B = length HB) by (rewrite !app_length in LG; cbn [length] in LG; lia).
    rewrite !combine_app by auto. cbn [combine]. rewrite combine_app by auto. rewrite !in_app_iff. cbn [In combine]. rewrite !in_app_iff. cbn [In].
    intros [I|[I|[I|[I|[]]]]]; auto; injection I as -> ->; congruence.
Qed.

(* the versions h of k *)
Definition SHInv (G : list loc) (H : list ver) (k : bytes) (h : list (bytes * N)) : Prop :=
  match kget k (livem G H) with
  | None => h = []
  | Some v => exists x h', In (x, (k, v)) (combine G H) /\ live x = true /\ l_id x = k /\ h = v :: h' /\
      chains (combine G H) k (it_pid (l_it x), it_poff (l_it x)) h'
  end.

Definition slots (G : list loc) (H : list ver) : Prop :=
  Forall2 same_id G H /\ slot_ids G /\ nlen G < 18446744073709551616.

Lemma slots_get G H x v : slots G H -> In (x, v) (combine G H) -> live x = true -> kget (l_id x) (livem G H) = Some (snd v).
Proof. intros (S1 & S2 & S3). now apply kget_slot. Qed.

Lemma slots_one G H x v x' v' : slots G H -> In (x, v) (combine G H) -> In (x', v') (combine G H) -> live x = true -> live x' = true ->
  l_id x = l_id x' -> x = x'.
Proof.
  intros (S1 & S2 & S3) I I' L L' E. apply in_combine_l in I, I'. destruct (in_split _ _ I) as (A & B & EG). rewrite EG in *.
  destruct (slot_mid A x B S2 S3 L) as [F1 F2]. rewrite Forall_forall in F1, F2. apply in_app_iff in I'.
  destruct I' as [I'|[I'|I']]; auto; exfalso; [apply (F1 x')|apply (F2 x')]; auto.
Qed.

Lemma smove_others k k' G H G' H' : slots G H -> slots G' H' -> smove k G H G' H' -> k' <> k ->
  kget k' (livem G' H') = kget k' (livem G H).
Proof.
  intros S S' M N. assert (LG : length G = length H) by (eapply forall2_length; apply S).
  destruct (kget k' (livem G H)) as [v|] eqn:K.
  - destruct (kget_some_live _ _ _ _ K (proj1 S)) as (x & I & L & E). rewrite <- E. change v with (snd (k', v)).
    apply slots_get; auto. eapply smove_same; eauto. right. congruence.
  - destruct (kget k' (livem G' H')) as [v|] eqn:K'; auto.
    destruct (kget_some_live _ _ _ _ K' (proj1 S')) as (x & I & L & E).
    pose proof (smove_back _ _ _ _ _ LG M x _ L ltac:(congruence) I) as I2. pose proof (slots_get _ _ _ _ S I2 L). congruence.
Qed.

Lemma smoved_hist G H G' H' k h : slots G H -> slots G' H' -> smoved G H G' H' -> SHInv G H k h ->
  SHInv G' H' k (next_versions k (livem G H) (livem G' H') h).
Proof.
  intros S S' [[-> ->]|(k1 & M)] HI.
  { unfold SHInv, next_versions in *. destruct (kget k (livem G H)) as [v|]; [|reflexivity].
    destruct (same_version_spec v v); [exact HI|congruence]. }
  assert (LG : length G = length H) by (eapply forall2_length; apply S).
  assert (Ch : forall a L, chains (combine G H) k a L -> chains (combine G' H') k a L).
  { apply chains_keep. intros x v I L. eapply smove_same; eauto. }
  destruct (bseqb_spec k1 k) as [->|Nk].
  2:{ unfold SHInv, next_versions in *. rewrite (smove_others k1 k _ _ _ _ S S' M) by congruence.
      destruct (kget k (livem G H)) as [v|]; [|reflexivity]. destruct (same_version_spec v v); [|congruence].
      destruct HI as (x & h' & I & L & E & Eh & C). exists x, h'. split; [|auto]. eapply smove_same; eauto. right. congruence. }
  destruct M as [A x B H Lx|G H y w Ly E1 E2 E3 E4|A x B HA w HB y d w' LA Lx Ea Ei Ly Ew Ep Ld Ed Eq Nw].
  - assert (K : kget (l_id x) (livem (A ++ mflag x :: B) H) = None).
    { apply kget_dead; [apply S'|]. destruct (slot_mid A x B) as [F1 F2]; try apply S; auto. rewrite Forall_forall in F1, F2.
      intros z I Lz. apply in_app_iff in I. destruct I as [I|[I|I]]; auto. subst z. rewrite live_mflag in Lz. discriminate. }
    unfold SHInv, next_versions. now rewrite K.
  - assert (I : In (y, w) (combine (G ++ [y]) (H ++ [w]))) by (rewrite combine_app by auto; apply in_app_iff; right; now left).
    assert (K : kget (l_id y) (livem G H) = None).
    { apply kget_dead; [apply S|]. intros z Iz Lz Ez. destruct (in_nget _ _ Iz) as (j & Hj & J). pose proof S as (_ & SI & _). pose proof S' as (_ & _ & B').
      rewrite (SI j z J Lz), E1 in Ez. rewrite nlen_app in B'. apply ident_inj in Ez; lia. }
    pose proof (slots_get _ _ _ _ S' I Ly) as K'. unfold SHInv, next_versions. rewrite K, K'. exists y, [].
    split; [destruct w as [w0 w1]; cbn [fst snd] in *; congruence|]. split; auto. split; auto. split; auto. rewrite E3, E4. constructor.
  - set (G := A ++ x :: B) in *. set (H := HA ++ w :: HB) in *. set (G' := A ++ y :: (B ++ [d])) in *. set (H' := HA ++ w' :: HB ++ [w]) in *.
    assert (LB : length B = length HB) by (unfold G, H in LG; rewrite !app_length in LG; cbn [length] in LG; lia).
    assert (Ix : In (x, w) (combine G H)) by (unfold G, H; rewrite combine_app by auto; apply in_app_iff; right; now left).
    assert (Iy : In (y, w') (combine G' H')) by (unfold G', H'; rewrite combine_app by auto; apply in_app_iff; right; now left).
    assert (Id : In (d, w) (combine G' H')).
    { unfold G', H'. rewrite combine_app by auto. apply in_app_iff. right. right. fold (combine (B ++ [d]) (HB ++ [w])).
      rewrite combine_app by auto. apply in_app_iff. right. now left. }
    pose proof (slots_get _ _ _ _ S Ix Lx) as K. pose proof (slots_get _ _ _ _ S' Iy Ly) as K'. rewrite Ei in K'.
    unfold SHInv, next_versions in *. rewrite K, K' in *. destruct (same_version_spec (snd w') (snd w)) as [X|_]; [congruence|].
    destruct HI as (x0 & h' & I0 & L0 & Id0 & -> & C).
    assert (x0 = x) as -> by (eapply (slots_one _ _ _ _ _ _ S I0 Ix); auto).
    exists y, (snd w :: h'). split; [destruct w' as [w0 w1]; cbn [fst snd] in *; congruence|]. split; auto. split; auto. split; auto.
    rewrite Ep. eapply cs_more; eauto. rewrite Eq. apply Ch. exact C.
Qed.

Lemma sinv_slots n s m gi H : SInv n s m gi H -> slots (flat 0 gi) H.
Proof.
  intros U. pose proof (si_f _ _ _ _ _ U) as F. split; [eapply sver_same; apply F|]. split; [apply F|].
  rewrite nlen_flat. pose proof (tot_bound _ _ _ _ F). lia.
Qed.

(* the versions of an identifier *)
Lemma run_shist g n k es : sq_settings g -> forall c s gi H h, SA n s gi H -> calm g (plain es) (c, s) -> SHInv (flat 0 gi) H k h ->
  exists o c' s' gi' H', run_cevents g (plain es) (c, s) = Some (o, (c', s')) /\ SA n s' gi' H' /\
    snd (sq_run es (c, sq_of gi H)) = (c', sq_of gi' H') /\
    SHInv (flat 0 gi') H' k (sq_versions_from k es (c, sq_of gi H) h).
Proof.
  intros Hg. induction es as [|e es IH]; intros c s gi H h U C HI.
  - exists [], c, s, gi, H. cbn [plain map run_cevents sq_run sq_versions_from snd]. auto.
  - cbn [plain map calm fst snd] in C. destruct C as [C1 C2].
    destruct (event_sok g n e c s gi H Hg U C1) as (o1 & c1 & s1 & gi1 & H1 & E1 & U1 & _ & E2 & _ & _ & M).
    assert (HI1 : SHInv (flat 0 gi1) H1 k (next_versions k (livem (flat 0 gi) H) (livem (flat 0 gi1) H1) h)).
    { destruct U as (m & U & _), U1 as (m1 & U1 & _). apply smoved_hist; auto; eapply sinv_slots; eauto. }
    destruct (IH c1 s1 gi1 H1 _ U1 (C2 _ _ E1) HI1) as (o2 & c2 & s2 & gi2 & H2 & F1 & F2 & F3 & F4).
    exists (o1 ++ o2), c2, s2, gi2, H2. cbn [plain map run_cevents run_cevent sq_run sq_versions_from]. fold (plain es). rewrite E1, F1.
    rewrite E2. cbn [fst snd]. destruct (sq_run es (c1, sq_of gi1 H1)) as [r2 st2]. cbn [snd] in *. auto.
Qed.

Section Walk.
Context (n : N) (s : est) (m : list (N * N)) (gi : list (list item)) (H : list ver) (c : nscfg) (cmd k : bytes).
Context (U : SInv n s m gi H) (Fz : is_frozen c = false).
Let S := combine (flat 0 gi) H.

Lemma srec_get x v : In (x, v) S -> index_item_get_disk (dk s) (l_f x) (l_off x) 8 = Some (l_it x) /\
  l_f x < 4294967296 /\ l_off x < 4294967296 /\ 0 < l_off x /\ blen (l_id x) = 8 /\ sver_ok (dk_d (dk s)) x v.
Proof.
  intros I. pose proof (si_f _ _ _ _ _ U) as F. pose proof (forall2_combine _ _ _ _ _ (sf_ver _ _ _ _ F) I) as V.
  apply in_combine_l in I. pose proof (sf_wf _ _ _ _ F) as W. rewrite Forall_forall in W. destruct (W x I) as (W1 & W2 & W3).
  destruct (in_flat _ _ _ I) as (g1 & l1 & l2 & g2 & E & Hf & Ho). change (0 + nlen g1) with (nlen g1) in Hf.
  split; [rewrite Hf, Ho; apply (index_item_get_ok MODE_SEQ (dk s) g1 l1 (l_it x) l2 g2); auto; rewrite <- E; apply F|].
  pose proof (sf_small _ _ _ _ F) as B. rewrite E, nlen_app in B. cbn [nlen] in B.
  split; [lia|]. split; [exact W3|]. split; [rewrite Ho; lia|]. split; [exact W2|exact V].
Qed.

Lemma ssend_ok x v : In (x, v) S -> forall q, history_send (dk s) (l_it x) q = history_send_array q (snd (snd v)) (fst (snd v)).
Proof.
  intros I q. destruct (srec_get x v I) as (_ & _ & _ & _ & W8 & V1 & V2 & V3 & V4 & r & R1 & R2 & R3 & R4 & R5 & R6 & R7).
  apply in_combine_l in I. pose proof (sf_wf _ _ _ _ (si_f _ _ _ _ _ U)) as W. rewrite Forall_forall in W. destruct (W x I) as ((W1 & _) & _).
  unfold history_send. replace (it_idlen (l_it x)) with (blen (dr_id r)).
  2:{ change (it_id (l_it x)) with (l_id x) in W1. rewrite W1, V1, R2. reflexivity. }
  rewrite V2, (data_get_at _ _ _ r) by auto. now rewrite V4.
Qed.

Lemma scall_at x v : In (x, v) S -> l_id x = k ->
  command_history [cmd; k; enc_ekey (mkEkey (l_f x) (l_off x))] c s =
  Some (history_send (dk s) (l_it x) (mkEkey (it_pid (l_it x)) (it_poff (l_it x)))).
Proof.
  intros I E. destruct (srec_get _ _ I) as (D & B1 & B2 & B3 & B4 & _). rewrite E in B4.
  unfold command_history. set (q := enc_ekey _). change (argc [cmd; k; q]) with 3. change (negb (3 =? 2) && negb (3 =? 3)) with false.
  rewrite Fz. change (3 =? 2) with false. cbn iota. change (arg 2 [cmd; k; q]) with q. change (arg 1 [cmd; k; q]) with k.
  unfold q. rewrite blen_enc_ekey, dec_enc_ekey by (cbn [ek_indexid ek_offset]; auto). change (negb (8 =? 8)) with false. cbn iota.
  cbn [ek_indexid ek_offset]. replace (l_off x =? 0) with false by lia. rewrite andb_false_r. rewrite u8_short, B4, D by lia.
  assert (Ei : it_id (l_it x) = k) by exact E. rewrite Ei, <- B4, (nfirst_all (blen k)) by (rewrite nlen_length, blen_length; lia).
  rewrite bseqb_refl. reflexivity.
Qed.

(* what the record x and its parents tell *)
Lemma swalk_from : forall a L, chains S k a L -> forall x v j, In (x, v) S -> (it_pid (l_it x), it_poff (l_it x)) = a -> (length L <= j)%nat ->
  exists r rs, Some r = Some (history_send (dk s) (l_it x) (mkEkey (it_pid (l_it x)) (it_poff (l_it x)))) /\
    match next_key r with
    | None => Some [r]
    | Some e => option_map (cons r) (ask_versions (fun argv => command_history argv c s) cmd k (Some e) j)
    end = Some rs /\ all_told (snd v :: L) rs.
Proof.
  induction 1 as [|y w L Iy Ly Ky Ch IH]; intros x v j I Ep Hj.
  - injection Ep as E1 E2. exists (hist_reply None (snd v)), [hist_reply None (snd v)].
    rewrite (ssend_ok _ _ I), send_array_eq. cbn [ek_indexid ek_offset]. rewrite E1, E2. change (negb (0 =? 0) || negb (0 =? 0)) with false. cbn iota.
    rewrite next_key_none. split; [destruct v as [? []]; reflexivity|]. split; [reflexivity|]. cbn [all_told told]. auto.
  - injection Ep as E1 E2. cbn [length] in Hj. destruct j as [|j]; [lia|].
    destruct (srec_get _ _ Iy) as (_ & _ & _ & Oy & _).
    destruct (IH y w j Iy eq_refl ltac:(lia)) as (r2 & rs2 & R1 & R2 & R3). injection R1 as R1.
    set (e := enc_ekey (mkEkey (l_f y) (l_off y))).
    exists (hist_reply (Some e) (snd v)), (hist_reply (Some e) (snd v) :: rs2).
    rewrite (ssend_ok _ _ I), send_array_eq. cbn [ek_indexid ek_offset]. rewrite E1, E2. replace (l_off y =? 0) with false by lia. rewrite orb_true_r. fold e.
    split; [destruct v as [? []]; reflexivity|]. rewrite next_key_some by apply blen_enc_ekey.
    cbn [ask_versions]. assert (Q : command_history [cmd; k; e] c s = Some r2) by (unfold e; now rewrite (scall_at y w Iy Ky), <- R1).
    rewrite Q, R2. split; [reflexivity|].
    unfold all_told. eapply told_more; [apply (blen_enc_ekey (mkEkey (l_f y) (l_off y)))|reflexivity|exact R3].
Qed.

Lemma swalk_history h v : SHInv (flat 0 gi) H k h -> kget k (livem (flat 0 gi) H) = Some v -> forall j, (length h <= j)%nat ->
  exists rs, ask_versions (fun argv => command_history argv c s) cmd k None j = Some rs /\ all_told h rs.
Proof.
  intros HI K j Hj. unfold SHInv in HI. rewrite K in HI. destruct HI as (x & h' & I & Lx & Kx & -> & Ch).
  cbn [length] in Hj. destruct j as [|j]; [lia|]. destruct (swalk_from _ _ Ch x (k, v) j I eq_refl ltac:(lia)) as (r & rs & R1 & R2 & R3).
  exists rs. split; [|exact R3]. rewrite <- R2. cbn [ask_versions].
  destruct (srec_get _ _ I) as (D & _ & _ & _ & B4 & _). rewrite Kx in B4.
  assert (E : command_history [cmd; k] c s = Some r).
  { rewrite R1. unfold command_history. change (argc [cmd; k]) with 2. change (negb (2 =? 2) && negb (2 =? 3)) with false. rewrite Fz.
    change (2 =? 2) with true. cbn iota. change (arg 1 [cmd; k]) with k. rewrite u8_short by lia.
    assert (Ka : key_asked (tot gi) k).
    { intros _. left. destruct (in_nget _ _ (in_combine_l _ _ _ _ I)) as (i & Hi & Gi). rewrite nlen_flat in Hi.
      pose proof (tot_bound _ _ _ _ (si_f _ _ _ _ _ U)). rewrite <- Kx, (sf_ids _ _ _ _ (si_f _ _ _ _ _ U) i x Gi Lx), unle_ident; lia. }
    pose proof (seq_lookup n s m gi H k U Ka) as L. destruct (index_get s k) as [e|]; [|congruence].
    destruct L as (g1 & l1 & l2 & g2 & y & w & _ & _ & _ & _ & _ & Ly & Ky & -> & Iy & _).
    assert (y = x) as -> by (eapply (slots_one _ _ _ _ _ _ (sinv_slots _ _ _ _ _ U) Iy I); auto; congruence).
    cbn [seq_entry e_indexid e_idxoff e_id e_pid e_poff]. rewrite Kx, B4, D. reflexivity. }
  rewrite E. reflexivity.
Qed.
End Walk.

Lemma shistory_all g n c0 es o c s cmd k j : sreached g n c0 (plain es) o c s -> is_frozen c = false ->
  kget k (sq_map (sq_of_history c0 es)) <> None -> (length (sq_versions k c0 es) <= j)%nat ->
  exists rs, ask_versions (fun argv => command_history argv c s) cmd k None j = Some rs /\ all_told (sq_versions k c0 es) rs.
Proof.
  intros (Hg & s0 & C & K & R) Fz Kk Hj. pose proof (screated_inv _ _ C) as U.
  destruct (run_shist g n k es Hg c0 s0 _ _ [] U K) as (o1 & c1 & s1 & gi & H & R1 & (m & U1 & _) & E1 & HI); [reflexivity|].
  rewrite R in R1. injection R1 as <- <- <-. unfold sq_of_history in Kk.
  change (sq_of [[]] []) with sq_empty in *. rewrite E1 in Kk. cbn [snd sq_of sq_map] in Kk.
  destruct (kget k (livem (flat 0 gi) H)) as [v|] eqn:Kv; [|congruence].
  exact (swalk_history n s m gi H c cmd k U1 Fz _ _ HI Kv j Hj).
Qed.

(* a key that is not there *)
Lemma shistory_absent g n c0 es o c s cmd k : sreached g n c0 (plain es) o c s -> is_frozen c = false -> blen k <= 255 ->
  key_asked (x_nextentry (ix s)) k -> kget k (sq_map (sq_of_history c0 es)) = None ->
  command_history [cmd; k] c s = Some (hardsend "-Key not found").
Proof.
  intros R Fz Hk Ka K. destruct (sreached_plain _ _ _ _ _ _ _ R) as (_ & gi & H & (m & U & _) & E).
  unfold sq_of_history in K. rewrite E in K. cbn [snd sq_of sq_map] in K. rewrite (si_next _ _ _ _ _ U) in Ka.
  unfold command_history. change (argc [cmd; k]) with 2. change (negb (2 =? 2) && negb (2 =? 3)) with false. rewrite Fz.
  change (2 =? 2) with true. cbn iota. change (arg 1 [cmd; k]) with k. rewrite u8_short by auto.
  pose proof (seq_lookup n s m gi H k U Ka) as L. destruct (index_get s k) as [e|]; [|reflexivity].
  destruct L as (g1 & l1 & l2 & g2 & y & w & _ & _ & _ & _ & _ & _ & _ & _ & _ & _ & L). congruence.
Qed.
