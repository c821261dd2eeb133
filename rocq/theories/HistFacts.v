(* The chains of versions in the index files (user mode) *)
From Coq Require Import Strings.String Strings.Byte List NArith ZArith Bool Lia ZifyBool ZifyN ZifyNat.
From Verif Require Import Bytes BytesFacts Crc32 Layout LayoutFacts Store Text TextFacts Commands SpecKV Machine Reach
  Ghost DataFacts UserInv UserReq UserRun UserMove KvFacts CrashSpec CrashFacts Scan ScanFacts ScanRun ScanTop ScanMix History SpecHist.
Import ListNotations.
Open Scope N_scope.
Local Notation length := List.length.

Definition addr (x : loc) : N * N := (l_f x, l_off x).

(* the record at a and its parents hold the versions L of k, the oldest in the file f *)
Inductive chainv (S : list (loc * ver)) (k : bytes) (f : N) : N * N -> list (bytes * N) -> Prop :=
| ch_end x v a : In (x, v) S -> addr x = a -> fst v = k -> it_pid (l_it x) = 0 -> it_poff (l_it x) = 0 -> it_dataid (l_it x) = 0 ->
    l_f x = f -> chainv S k f a [snd v]
| ch_more x v a L : In (x, v) S -> addr x = a -> fst v = k -> it_dataid (l_it x) = l_f x -> L <> [] ->
    chainv S k f (it_pid (l_it x), it_poff (l_it x)) L -> chainv S k f a (snd v :: L).

Definition keeps (S S' : list (loc * ver)) : Prop :=
  forall x v, In (x, v) S -> exists x', In (x', v) S' /\ kept x x'.

Lemma chainv_keeps S S' k f : keeps S S' -> forall a L, chainv S k f a L -> chainv S' k f a L.
Proof.
  intros K. induction 1 as [x v a I Ea Ek E1 E2 E3 Ef|x v a L I Ea Ek E3 NL Ch IH].
  - destruct (K _ _ I) as (x' & I' & [->| ->]); eapply ch_end; eauto.
  - destruct (K _ _ I) as (x' & I' & [->| ->]); eapply ch_more; eauto.
Qed.

Lemma keeps_refl S : keeps S S.
Proof. intros x v I. exists x. split; auto. now left. Qed.

Lemma combine_app {A B} (a a' : list A) (b b' : list B) : length a = length b -> combine (a ++ a') (b ++ b') = combine a b ++ combine a' b'.
Proof. revert b; induction a as [|x a IH]; intros [|y b] L; try discriminate; cbn [app combine]; auto. f_equal. apply IH. auto. Qed.

Lemma keeps_grow G G1 N H X : Forall2 kept G G1 -> length G = length H -> keeps (combine G H) (combine (G1 ++ N) (H ++ X)).
Proof.
  intros F L. rewrite combine_app by (rewrite <- (forall2_length _ _ _ F); exact L). intros x v I.
  assert (E : exists x', In (x', v) (combine G1 H) /\ kept x x').
  { clear X N. revert H L I. induction F as [|y z G G1 K F IH]; intros [|w H] L I; cbn [combine] in *; try contradiction; try discriminate.
    destruct I as [I|I].
    - injection I as -> ->. exists z. split; auto. now left.
    - destruct (IH H (f_equal pred L) I) as (x' & I' & K'). exists x'. split; auto. now right. }
  destruct E as (x' & I' & K). exists x'. split; auto. apply in_app_iff. now left.
Qed.

Lemma gmove_keeps k G H G' H' : length G = length H -> gmove k G H G' H' -> keeps (combine G H) (combine G' H').
Proof.
  intros L M. destruct M as [A x B H0|G0 H0 y v|A x B H0 y v].
  - pose proof (keeps_grow (A ++ x :: B) (A ++ mflag x :: B) [] H0 [] (kept_flag A x B) L) as K. now rewrite !app_nil_r in K.
  - apply keeps_grow; auto. apply kept_refl.
  - change (mflag x :: B ++ [y]) with ((mflag x :: B) ++ [y]). rewrite app_assoc. apply keeps_grow; auto. apply kept_flag.
Qed.

(* the versions h of k *)
Definition HInv (G : list loc) (H : list ver) (k : bytes) (f : N) (h : list (bytes * N)) : Prop :=
  match kget k (livem G H) with
  | None => h = []
  | Some v => exists q x, nth_error G q = Some x /\ live x = true /\ l_id x = k /\ chainv (combine G H) k f (addr x) h /\ hd_error h = Some v
  end.

Lemma same_version_spec a b : reflect (a = b) (same_version a b).
Proof.
  unfold same_version. destruct a as [a1 a2], b as [b1 b2]. cbn [fst snd].
  destruct (bseqb_spec a1 b1) as [->|N1]; cbn [andb]; [|constructor; congruence].
  destruct (N.eqb_spec a2 b2) as [->|N2]; constructor; congruence.
Qed.

Lemma hd_nonempty {A} (h : list A) v : hd_error h = Some v -> h <> [].
Proof. intros E ->. discriminate. Qed.

Lemma chainv_fst S k f a L : chainv S k f a L -> L <> [].
Proof. intros []; discriminate. Qed.

Lemma live_mflag x : live (mflag x) = false.
Proof. unfold live, mflag. cbn [l_it snd]. now rewrite flag_deleted. Qed.

Lemma gmove_inv k G H G' H' : gmove k G H G' H' ->
  (exists A x B, live x = true /\ l_id x = k /\ A ++ x :: B = G /\ A ++ mflag x :: B = G' /\ H = H') \/
  (exists y v, live y = true /\ l_id y = k /\ fst v = k /\ Forall (fun z => live z = true -> l_id z <> k) G /\
     it_pid (l_it y) = 0 /\ it_poff (l_it y) = 0 /\ it_dataid (l_it y) = 0 /\ G ++ [y] = G' /\ H ++ [v] = H') \/
  (exists A x B y v, live x = true /\ l_id x = k /\ live y = true /\ l_id y = k /\ fst v = k /\
     it_pid (l_it y) = l_f x /\ it_poff (l_it y) = l_off x /\ it_dataid (l_it y) = l_f y /\
     (forall w, In (x, w) (combine (A ++ x :: B) H) -> fst (snd w) <> fst (snd v)) /\
     A ++ x :: B = G /\ A ++ mflag x :: B ++ [y] = G' /\ H ++ [v] = H').
Proof.
  intros M. destruct M as [A x B H0|G0 H0 y v|A x B H0 y v].
  - left. exists A, x, B. auto.
  - right. left. exists y, v. tauto.
  - right. right. exists A, x, B, y, v. tauto.
Qed.

(* where k has one file only for all its life, or its first record stays *)
Lemma event_hist g n e c s gi H k f h : g_ok g -> event_wf e -> UInv n s gi H -> files_lt s -> HInv (flat 0 gi) H k f h ->
  exists o c' s' gi' H' f', run_event g e (c, s) = Some (o, (c', s')) /\ UInv n s' gi' H' /\
    snd (kv_event e (c, livem (flat 0 gi) H)) = (c', livem (flat 0 gi') H') /\
    HInv (flat 0 gi') H' k f' (next_versions k (livem (flat 0 gi) H) (livem (flat 0 gi') H') h) /\
    (kget k (livem (flat 0 gi) H) <> None -> kget k (livem (flat 0 gi') H') <> None -> f' = f).
Proof.
  intros Hg We U FL HI. destruct (event_moved g n e c s gi H Hg We U FL) as (o & c' & s' & gi' & H' & E1 & U' & M & E4).
  set (G := flat 0 gi) in *. set (G' := flat 0 gi') in *.
  assert (LG : length G = length H) by (eapply forall2_length; apply U).
  assert (VS' : Forall2 same_id G' H') by (eapply ver_same; apply U').
  assert (LL' : live_last G') by apply U'.
  exists o, c', s', gi', H'.
  assert (Same : kget k (livem G' H') = kget k (livem G H) -> (ekey e <> Some k \/ (G' = G /\ H' = H)) ->
    HInv G' H' k f (next_versions k (livem G H) (livem G' H') h)).
  { intros K W. unfold HInv, next_versions in *. rewrite K. destruct (kget k (livem G H)) as [v|]; auto.
    destruct (same_version_spec v v) as [_|N]; [|congruence]. destruct W as [W|[-> ->]]; auto.
    destruct HI as (q & x & X1 & X2 & X3 & X4 & X5). exists q, x. split; [eapply gmoved_same; eauto; congruence|].
    split; auto. split; auto. split; auto. eapply chainv_keeps; eauto.
    destruct M as [[-> ->]|(k1 & _ & M)]; [apply keeps_refl|eapply gmove_keeps; eauto]. }
  assert (Old : ekey e <> Some k -> kget k (livem G' H') = kget k (livem G H)).
  { intros W. pose proof (kv_event_other e c (livem G H) k W) as Q. rewrite E4 in Q. exact Q. }
  destruct M as [[EG EH]|(k1 & Ew & M)].
  { exists f. split; [exact E1|]. split; [exact U'|]. split; [exact E4|]. split; auto. apply Same; auto. rewrite EG, EH. reflexivity. }
  destruct (bseqb_spec k1 k) as [->|Nk].
  2:{ exists f. split; [exact E1|]. split; [exact U'|]. split; [exact E4|]. split; auto. apply Same; [apply Old|left]; congruence. }
  pose proof (gmove_keeps _ _ _ _ _ LG M) as Kp. clear Same Old.
  assert (VS : Forall2 same_id G H) by (eapply ver_same; apply U).
  assert (LL : live_last G) by apply U.
  destruct (gmove_inv _ _ _ _ _ M) as [(A & x & B & Lx & Kx & EA & EC & ED)|[(y & v & Ly & Ky & Kv & Fr & P1 & P2 & P3 & EC & ED)|
    (A & x & B & y & v & Lx & Kx & Ly & Ky & Kv & P1 & P2 & P3 & Df & EA & EC & ED)]].
  - (* deleted *)
    assert (K0 : kget k (livem G' H') = None).
    { apply kget_none. rewrite livem_keys by auto. intros I. apply in_map_iff in I. destruct I as (z & Kz & I). apply filter_In in I.
      destruct I as [I Lz]. rewrite <- EC in I, LL'. rewrite <- EA in LL. destruct (live_last_mid _ _ _ LL Lx) as [L1 L2].
      apply in_app_iff in I. cbn [In] in I. rewrite Forall_forall in L1, L2. destruct I as [I|[<-|I]].
      - apply (L1 z I Lz). congruence.
      - rewrite (live_mflag x) in Lz. discriminate.
      - apply (L2 z I). congruence. }
    exists f. split; [exact E1|]. split; [exact U'|]. split; [exact E4|]. fold G G'. unfold HInv, next_versions. rewrite K0. split; congruence.
  - (* inserted *)
    destruct v as [kv0 w]. cbn [fst] in Kv. subst kv0.
    assert (K0 : kget k (livem G H) = None).
    { apply kget_none. rewrite livem_keys by auto. intros I. apply in_map_iff in I. destruct I as (z & Kz & I). apply filter_In in I.
      rewrite Forall_forall in Fr. destruct I as [I1 I2]. now apply (Fr z I1 I2). }
    assert (I1 : In (y, (k, w)) (combine G' H')).
    { rewrite <- EC, <- ED, combine_app by auto. apply in_app_iff. right. now left. }
    assert (K1 : kget k (livem G' H') = Some w) by (rewrite <- Ky; apply (kget_livem _ _ _ _ VS' LL' I1 Ly)).
    exists (l_f y). split; [exact E1|]. split; [exact U'|]. split; [exact E4|]. fold G G'. unfold HInv, next_versions. rewrite K1, K0.
    split; [|congruence]. exists (length G), y. split; [rewrite <- EC, nth_error_app2, Nat.sub_diag by lia; reflexivity|].
    split; auto. split; auto. split; [|reflexivity]. change w with (snd (k, w)). eapply ch_end; eauto.
  - (* updated *)
    destruct v as [kv0 w]. cbn [fst] in Kv. subst kv0.
    assert (Ix : In x G) by (rewrite <- EA; apply in_app_iff; right; now left).
    destruct (in_combine_ex _ _ _ _ VS Ix) as (wx & Iwx & _).
    assert (Kx0 : kget k (livem G H) = Some (snd wx)).
    { rewrite <- Kx. apply (kget_livem _ _ _ _ VS LL Iwx Lx). }
    assert (I1 : In (y, (k, w)) (combine G' H')).
    { rewrite <- EC, <- ED. change (mflag x :: B ++ [y]) with ((mflag x :: B) ++ [y]). rewrite app_assoc, combine_app.
      - apply in_app_iff. right. now left.
      - rewrite <- LG, <- EA, !app_length. reflexivity. }
    assert (K1 : kget k (livem G' H') = Some w) by (rewrite <- Ky; apply (kget_livem _ _ _ _ VS' LL' I1 Ly)).
    assert (Nv : w <> snd wx).
    { intros E. rewrite <- EA in Iwx. apply (Df wx Iwx). cbn [snd]. congruence. }
    unfold HInv in HI. rewrite Kx0 in HI. destruct HI as (q & x0 & X1 & X2 & X3 & X4 & X5).
    assert (x0 = x).
    { rewrite <- EA in X1, LL. destruct (live_last_mid _ _ _ LL Lx) as [L1 L2]. rewrite Forall_forall in L1, L2.
      apply nth_error_In in X1. apply in_app_iff in X1. destruct X1 as [I|[I|I]]; auto; exfalso; [apply (L1 x0 I X2)|apply (L2 x0 I)]; congruence. }
    subst x0. exists f. split; [exact E1|]. split; [exact U'|]. split; [exact E4|]. split; auto.
    fold G G'. unfold HInv, next_versions. rewrite K1, Kx0. destruct (same_version_spec w (snd wx)) as [|_]; [congruence|].
    exists (length (A ++ mflag x :: B)), y. split.
    { rewrite <- EC. change (mflag x :: B ++ [y]) with ((mflag x :: B) ++ [y]). rewrite app_assoc, nth_error_app2, Nat.sub_diag by lia. reflexivity. }
    split; auto. split; auto. split; [|reflexivity]. change w with (snd (k, w)). eapply ch_more; eauto.
    + eapply chainv_fst; eauto.
    + rewrite P1, P2. eapply chainv_keeps; eauto.
Qed.

Lemma run_hist g n k es : g_ok g -> Forall event_wf es -> forall c s gi H f h, UInv n s gi H ->
  files_fit g es (c, s) -> HInv (flat 0 gi) H k f h ->
  exists o c' s' gi' H' f', run_events g es (c, s) = Some (o, (c', s')) /\ UInv n s' gi' H' /\
    snd (kv_run es (c, livem (flat 0 gi) H)) = (c', livem (flat 0 gi') H') /\
    HInv (flat 0 gi') H' k f' (versions_from k es (c, livem (flat 0 gi) H) h) /\
    (stays k es (c, livem (flat 0 gi) H) -> f' = f).
Proof.
  intros Hg. induction es as [|e es IH]; intros W c s gi H f h U FF HI.
  - exists [], c, s, gi, H, f. cbn [run_events kv_run versions_from snd]. auto.
  - inversion W as [|? ? We Wes]; subst.
    destruct (event_hist g n e c s gi H k f h Hg We U (files_fit_now _ _ _ _ FF) HI) as (o1 & c1 & s1 & gi1 & H1 & f1 & E1 & U1 & E2 & HI1 & E3).
    destruct (IH Wes c1 s1 gi1 H1 f1 _ U1 (files_fit_step _ _ _ _ _ _ FF E1) HI1) as (o2 & c2 & s2 & gi2 & H2 & f2 & F1 & U2 & F2 & HI2 & F3).
    exists (o1 ++ o2), c2, s2, gi2, H2, f2. cbn [run_events kv_run versions_from stays]. rewrite E1, F1.
    destruct (kv_event e (c, livem (flat 0 gi) H)) as [r1 st1]. cbn [snd] in *. subst st1.
    destruct (kv_run es (c1, livem (flat 0 gi1) H1)) as [r2 st2]. cbn [snd] in *. subst st2.
    split; [reflexivity|]. split; [exact U2|]. split; [reflexivity|]. split; [exact HI2|].
    intros [S1 S2]. rewrite (F3 S2). apply E3; [exact S1|]. destruct es; apply S2.
Qed.

(* ---- what the command answers ---- *)
Lemma send_array_eq k ts p : history_send_array k ts p =
  hist_reply (if negb (ek_indexid k =? 0) || negb (ek_offset k =? 0) then Some (enc_ekey k) else None) (p, ts).
Proof.
  unfold history_send_array, hist_reply, bulk, arrayhdr. cbn [fst snd].
  destruct (negb (ek_indexid k =? 0) || negb (ek_offset k =? 0)).
  - rewrite blen_enc_ekey. change (dec 3) with (str "3"). change (dec 8) with (str "8"). rewrite <- !app_assoc. reflexivity.
  - change (dec 3) with (str "3"). rewrite <- !app_assoc. reflexivity.
Qed.

Lemma next_key_none x : next_key (hist_reply None x) = None.
Proof.
  unfold next_key, hist_reply, arrayhdr. change (dec 3) with (str "3"). rewrite <- !app_assoc.
  match goal with |- context [firstn 8 ?l] => set (r := l) end.
  assert (E : r = (str "*3" ++ CRLF ++ str "$-1" ++ firstn 1 CRLF) ++ skipn 1 CRLF ++ bulk (dec (snd x)) ++ bulk (fst x)) by reflexivity.
  clearbody r. subst r. rewrite firstn_exact by reflexivity. reflexivity.
Qed.

Lemma next_key_some e x : blen e = 8 -> next_key (hist_reply (Some e) x) = Some e.
Proof.
  intros He. unfold next_key, hist_reply, arrayhdr, bulk at 1 4. rewrite He. change (dec 3) with (str "3"). change (dec 8) with (str "8").
  rewrite <- !app_assoc. match goal with |- context [firstn 8 ?l] => set (r := l) end.
  set (p := str "*3" ++ CRLF ++ str "$8" ++ CRLF).
  assert (E : r = p ++ e ++ CRLF ++ bulk (dec (snd x)) ++ bulk (fst x)) by reflexivity.
  clearbody r. subst r. assert (Lp : length p = 8%nat) by reflexivity.
  rewrite (firstn_exact p), (skipn_exact p), bseqb_refl by auto.
  rewrite (firstn_exact e); [reflexivity|]. rewrite blen_length in He. lia.
Qed.

Lemma u8_short k : blen k <= 255 -> u8_key k = k.
Proof. intros L. unfold u8_key. rewrite N.mod_small by lia. rewrite blen_length, Nat2N.id. apply firstn_all. Qed.

Lemma forall2_combine {A B} (P : A -> B -> Prop) G H x v : Forall2 P G H -> In (x, v) (combine G H) -> P x v.
Proof.
  induction 1 as [|y w G H Hy F IH]; cbn [combine In]; [contradiction|]. intros [I|I]; auto. congruence.
Qed.

(* what the record x tells *)
Lemma send_ok n s gi H x v : UInv n s gi H -> In (x, v) (combine (flat 0 gi) H) -> it_dataid (l_it x) = l_f x ->
  forall k, history_send (dk s) (l_it x) k = history_send_array k (snd (snd v)) (fst (snd v)).
Proof.
  intros U I E k. assert (V : ver_ok (dk_d (dk s)) x v).
  { exact (forall2_combine _ _ _ _ _ (fi_ver _ _ _ _ (ui_f _ _ _ _ U)) I). }
  pose proof (fi_wf _ _ _ _ (ui_f _ _ _ _ U)) as W. rewrite Forall_forall in W.
  destruct (W x (in_combine_l _ _ _ _ I)) as ((W1 & _) & _).
  destruct V as (V1 & V2 & V3 & V4 & r & R1 & R2 & R3 & R4 & R5 & R6 & R7). unfold history_send.
  replace (it_idlen (l_it x)) with (blen (dr_id r)) by (change (it_id (l_it x)) with (l_id x) in W1; rewrite W1, V1, R2; reflexivity). rewrite E, V2. rewrite (data_get_at _ _ _ r) by auto. now rewrite V4.
Qed.

(* whatever the record tells, if it has no parent nothing is asked next *)
Lemma send_end d it : next_key (history_send d it (mkEkey 0 0)) = None.
Proof.
  unfold history_send. destruct (data_get _ _ _ _ _); [|reflexivity]. rewrite send_array_eq. apply next_key_none.
Qed.

Lemma rec_get n s gi H x v : UInv n s gi H -> files_lt s -> In (x, v) (combine (flat 0 gi) H) ->
  index_item_get_disk (dk s) (l_f x) (l_off x) (blen (l_id x)) = Some (l_it x) /\
  l_f x < 4294967296 /\ l_off x < 4294967296 /\ 0 < l_off x /\ blen (l_id x) <= 255.
Proof.
  intros U FL I. apply in_combine_l in I. pose proof (uinv_iok _ _ _ _ U FL) as IO.
  pose proof (fi_wf _ _ _ _ (ui_f _ _ _ _ U)) as W. rewrite Forall_forall in W. destruct (W x I) as (W1 & W2 & W3).
  pose proof (dec_item_get _ _ _ _ IO I) as D. assert (W4 := W1). destruct W4 as (E & B & _).
  change (it_id (l_it x)) with (l_id x) in E. rewrite E in D, B.
  split; [exact D|]. split; [eapply fid_lt; eauto|]. split; [exact W3|].
  destruct (in_flat _ _ _ I) as (g1 & l1 & l2 & g2 & _ & _ & Ho). lia.
Qed.

Definition last_told (f : N) (x : bytes * N) (r : bytes) : Prop := next_key r = None /\ (f = 0 -> r = hist_reply None x).

Lemma told_more last x y h r rs e : blen e = 8 -> r = hist_reply (Some e) x -> told last (y :: h) rs -> told last (x :: y :: h) (r :: rs).
Proof. intros He Hr T. cbn [told]. split; eauto. Qed.

Lemma chainv_head S k f a L : chainv S k f a L -> exists y w L', addr y = a /\ In (y, w) S /\ L = snd w :: L'.
Proof. destruct 1; eauto 7. Qed.

Section Walk.
Context (n : N) (s : est) (gi : list (list item)) (H : list ver) (c : nscfg) (cmd k : bytes) (f : N).
Context (U : UInv n s gi H) (FL : files_lt s) (Fz : is_frozen c = false) (Hk : blen k <= 255).
Let S := combine (flat 0 gi) H.

Lemma rec_key x v : In (x, v) S -> fst v = k -> l_id x = k.
Proof.
  intros I E. pose proof (forall2_combine _ _ _ _ _ (ver_same _ _ _ (fi_ver _ _ _ _ (ui_f _ _ _ _ U))) I) as F. unfold same_id in F. congruence.
Qed.

Lemma call_at x v : In (x, v) S -> fst v = k ->
  command_history [cmd; k; enc_ekey (mkEkey (l_f x) (l_off x))] c s =
  Some (history_send (dk s) (l_it x) (mkEkey (it_pid (l_it x)) (it_poff (l_it x)))).
Proof.
  intros I E. destruct (rec_get _ _ _ _ _ _ U FL I) as (D & B1 & B2 & B3 & B4). rewrite (rec_key _ _ I E) in D.
  unfold command_history. set (q := enc_ekey _). change (argc [cmd; k; q]) with 3. change (negb (3 =? 2) && negb (3 =? 3)) with false.
  rewrite Fz. change (3 =? 2) with false. cbn iota. change (arg 2 [cmd; k; q]) with q. change (arg 1 [cmd; k; q]) with k.
  unfold q. rewrite blen_enc_ekey, dec_enc_ekey by (cbn [ek_indexid ek_offset]; auto). change (negb (8 =? 8)) with false. cbn iota.
  cbn [ek_indexid ek_offset]. replace (l_off x =? 0) with false by lia. rewrite andb_false_r. rewrite u8_short by auto. rewrite D.
  assert (Ei : it_id (l_it x) = k) by (apply (rec_key _ _ I E)). rewrite Ei, (nfirst_all (blen k)) by (rewrite nlen_length, blen_length; lia). rewrite bseqb_refl. reflexivity.
Qed.

Lemma walk_chain : forall a L, chainv S k f a L -> forall j, (length L <= j)%nat -> 
  exists rs, ask_versions (fun argv => command_history argv c s) cmd k (Some (enc_ekey (mkEkey (fst a) (snd a)))) j = Some rs /\ told (last_told f) L rs.
Proof.
  induction 1 as [x v a I Ea Ek E1 E2 E3 Ef|x v a L I Ea Ek E3 NL Ch IH]; intros j Hj; cbn [length] in Hj; (destruct j as [|j]; [lia|]);
    cbn [ask_versions]; subst a; unfold addr; cbn [fst snd]; rewrite (call_at x v I Ek).
  - rewrite E1, E2, send_end. eexists. split; [reflexivity|]. cbn [told]. split; [reflexivity|]. split; [apply send_end|].
    intros F0. rewrite (send_ok _ _ _ _ _ _ U I) by congruence. rewrite send_array_eq. destruct v as [kv [v t]]. reflexivity.
  - destruct (chainv_head _ _ _ _ _ Ch) as (y & w & L' & Ey & Iy & EL).
    assert (Oy : 0 < it_poff (l_it x)).
    { destruct (rec_get _ _ _ _ _ _ U FL Iy) as (_ & _ & _ & B & _). unfold addr in Ey. congruence. }
    rewrite (send_ok _ _ _ _ _ _ U I E3), send_array_eq. cbn [ek_indexid ek_offset].
    replace (it_poff (l_it x) =? 0) with false by lia. rewrite orb_true_r. rewrite next_key_some by apply blen_enc_ekey.
    destruct (IH j ltac:(lia)) as (rs & R1 & R2). cbn [fst snd] in R1. rewrite R1. cbn [option_map]. eexists. split; [reflexivity|].
    rewrite EL in *. eapply told_more; [| |exact R2]; [apply (blen_enc_ekey (mkEkey (it_pid (l_it x)) (it_poff (l_it x))))|]. destruct v as [kv [v t]]. reflexivity.
Qed.

Lemma walk_history h v : HInv (flat 0 gi) H k f h -> kget k (livem (flat 0 gi) H) = Some v -> forall j, (length h <= j)%nat ->
  exists rs, ask_versions (fun argv => command_history argv c s) cmd k None j = Some rs /\ told (last_told f) h rs.
Proof.
  intros HI K j Hj. unfold HInv in HI. rewrite K in HI. destruct HI as (q & x & X1 & X2 & X3 & X4 & X5).
  destruct (walk_chain _ _ X4 j Hj) as (rs & R1 & R2). exists rs. split; [|exact R2]. rewrite <- R1. unfold addr. cbn [fst snd].
  destruct j as [|j]; [reflexivity|]. cbn [ask_versions].
  assert (Ix : In x (flat 0 gi)) by (eapply nth_error_In; eauto).
  destruct (in_combine_ex _ _ _ _ (ver_same _ _ _ (fi_ver _ _ _ _ (ui_f _ _ _ _ U))) Ix) as (w & Iw & Ew).
  assert (Kw : fst w = k) by (unfold same_id in Ew; congruence).
  rewrite (call_at x w Iw Kw).
  assert (E : command_history [cmd; k] c s = Some (history_send (dk s) (l_it x) (mkEkey (it_pid (l_it x)) (it_poff (l_it x))))).
  { unfold command_history. change (argc [cmd; k]) with 2. change (negb (2 =? 2) && negb (2 =? 3)) with false. rewrite Fz.
    change (2 =? 2) with true. cbn iota. change (arg 1 [cmd; k]) with k. rewrite u8_short by auto.
    pose proof (lookup_spec _ _ _ _ k U) as L. destruct (index_get s k) as [e|]; [|congruence].
    destruct L as (y & w' & Iy & Ly & Ky & -> & _). assert (y = x) as ->.
    { pose proof (fi_last _ _ _ _ (ui_f _ _ _ _ U)) as LL. destruct (in_split _ _ Ix) as (A & B & EG). rewrite EG in *.
      destruct (live_last_mid _ _ _ LL X2) as [L1 L2]. rewrite Forall_forall in L1, L2. apply in_app_iff in Iy.
      destruct Iy as [I|[I|I]]; auto; exfalso; [apply (L1 y I Ly)|apply (L2 y I)]; congruence. }
    cbn [entry_of e_indexid e_idxoff e_id e_pid e_poff]. destruct (rec_get _ _ _ _ _ _ U FL Iw) as (-> & _). reflexivity. }
  rewrite E. reflexivity.
Qed.
End Walk.

Lemma told_weaken (P Q : bytes * N -> bytes -> Prop) : (forall x r, P x r -> Q x r) -> forall h rs, told P h rs -> told Q h rs.
Proof.
  intros PQ. induction h as [|x h IH]; intros [|r rs] T; cbn [told] in *; try contradiction.
  destruct h as [|y h]; [destruct T; auto|]. destruct T as [T1 T2]. split; auto.
Qed.

Lemma reached_hist g n c0 es o c s k : reached g n c0 es o c s ->
  exists gi H f, UInv n s gi H /\ livem (flat 0 gi) H = kv_of c0 es /\ files_lt s /\ HInv (flat 0 gi) H k f (versions k c0 es).
Proof.
  intros R. destruct (reached_inv _ _ _ _ _ _ _ R) as (_ & _ & _ & _ & _ & _ & FL). destruct R as (Hg & W & s0 & Cr & FF & R).
  assert (R0 : reached g n c0 [] [] c0 s0).
  { split; [exact Hg|]. split; [constructor|]. exists s0. split; [exact Cr|]. split; [|reflexivity].
    intros j oj cj sj E. rewrite firstn_nil in E. apply (FF O oj cj sj). exact E. }
  destruct (reached_inv _ _ _ _ _ _ _ R0) as (_ & _ & gi & H & U & E & _).
  destruct (run_hist g n k es Hg W c0 s0 gi H 0 [] U FF) as (o1 & c1 & s1 & gi1 & H1 & f1 & R1 & U1 & E1 & HI & _).
  { unfold HInv. rewrite E. reflexivity. }
  rewrite R in R1. injection R1 as -> -> ->. change (kv_of c0 []) with (@nil (bytes * (bytes * N))) in E. rewrite E in *.
  exists gi1, H1, f1. split; [exact U1|]. split; [unfold kv_of; rewrite E1; reflexivity|]. split; [exact FL|exact HI].
Qed.

Lemma history_but_oldest g n c0 es o c s cmd k j : reached g n c0 es o c s -> is_frozen c = false -> kget k (kv_of c0 es) <> None ->
  (length (versions k c0 es) <= j)%nat ->
  exists rs, ask_versions (fun argv => command_history argv c s) cmd k None j = Some rs /\ told_but_oldest (versions k c0 es) rs.
Proof.
  intros R Fz K Hj. destruct (reached_hist _ _ _ _ _ _ _ k R) as (gi & H & f & U & E & FL & HI).
  destruct (kget k (kv_of c0 es)) as [v|] eqn:Kv; [|congruence]. rewrite <- E in Kv.
  destruct (kget_valid _ _ _ _ _ _ U Kv) as [_ Hk].
  destruct (walk_history n s gi H c cmd k f U FL Fz Hk _ _ HI Kv j Hj) as (rs & R1 & R2). exists rs. split; [exact R1|].
  eapply told_weaken; [|exact R2]. intros x r [X _]. exact X.
Qed.

Lemma chainv_file S k f a L : chainv S k f a L -> exists x v, In (x, v) S /\ l_f x = f.
Proof. induction 1; eauto. Qed.

Lemma versions_app k es1 : forall es2 st h,
  versions_from k (es1 ++ es2) st h = versions_from k es2 (snd (kv_run es1 st)) (versions_from k es1 st h).
Proof.
  induction es1 as [|e es1 IH]; intros es2 st h; cbn [app versions_from kv_run]; [reflexivity|].
  rewrite IH. destruct (kv_event e st) as [r st']. cbn [snd]. destruct (kv_run es1 st') as [r2 st2]. reflexivity.
Qed.

(* the key was inserted in the first file *)
Lemma history_all g n c0 es1 o1 c1 s1 es2 o2 c s cmd k j :
  reached g n c0 es1 o1 c1 s1 -> nlen (dk_i (dk s1)) = 1 ->
  Forall event_wf es2 -> files_fit g es2 (c1, s1) -> run_events g es2 (c1, s1) = Some (o2, (c, s)) ->
  stays k es2 (c1, kv_of c0 es1) -> is_frozen c = false -> (length (versions k c0 (es1 ++ es2)) <= j)%nat ->
  exists rs, ask_versions (fun argv => command_history argv c s) cmd k None j = Some rs /\ all_told (versions k c0 (es1 ++ es2)) rs.
Proof.
  intros R L1 W FF Run St Fz Hj. pose proof R as (Hg & _).
  destruct (reached_inv _ _ _ _ _ _ _ R) as (_ & Ec & _).
  destruct (reached_hist _ _ _ _ _ _ _ k R) as (gi & H & f & U & E & _ & HI).
  assert (St1 : kget k (kv_of c0 es1) <> None) by (destruct es2; apply St).
  assert (F0 : f = 0).
  { unfold HInv in HI. rewrite E in HI. destruct (kget k (kv_of c0 es1)); [|congruence].
    destruct HI as (q & x & _ & _ & _ & Ch & _). apply chainv_file in Ch. destruct Ch as (y & v & I & <-).
    apply in_combine_l in I. destruct (in_flat _ _ _ I) as (g1 & l1 & l2 & g2 & Eg & -> & _).
    pose proof (f_equal nlen (fi_files _ _ _ _ (ui_f _ _ _ _ U))) as Q. rewrite nlen_enc_ifs, L1, Eg, nlen_app in Q. cbn [nlen] in Q. lia. }
  assert (Ev : versions k c0 (es1 ++ es2) = versions_from k es2 (c1, livem (flat 0 gi) H) (versions k c0 es1)).
  { unfold versions. rewrite versions_app, E. unfold kv_of. f_equal. rewrite Ec. now destruct (kv_run es1 (c0, [])) as [? []]. }
  destruct (run_hist g n k es2 Hg W c1 s1 gi H f _ U FF HI) as (o3 & c3 & s3 & gi3 & H3 & f3 & R3 & U3 & E3 & HI3 & St3).
  rewrite Run in R3. injection R3 as <- <- <-. rewrite <- E in St. specialize (St3 St). subst f3 f. rewrite <- Ev in HI3.
  assert (K3 : kget k (livem (flat 0 gi3) H3) <> None).
  { replace (livem (flat 0 gi3) H3) with (snd (snd (kv_run es2 (c1, livem (flat 0 gi) H)))) by now rewrite E3.
    revert St. generalize (c1, livem (flat 0 gi) H). clear. induction es2 as [|e es IH]; intros st [S1 S2]; cbn [kv_run]; [exact S1|].
    specialize (IH _ S2). destruct (kv_event e st) as [r st']. cbn [snd] in IH. destruct (kv_run es st') as [r2 st2]. exact IH. }
  destruct (kget k (livem (flat 0 gi3) H3)) as [v|] eqn:Kv; [|congruence].
  destruct (kget_valid _ _ _ _ _ _ U3 Kv) as [_ Hk].
  assert (FL : files_lt s).
  { apply (FF (length es2) o2 c s). now rewrite firstn_all. }
  destruct (walk_history n s gi3 H3 c cmd k 0 U3 FL Fz Hk _ _ HI3 Kv j Hj) as (rs & R1 & R2). exists rs. split; [exact R1|].
  eapply told_weaken; [|exact R2]. intros x r [_ X]. auto.
Qed.

(* a key that is not there *)
Lemma history_absent g n c0 es o c s cmd k : reached g n c0 es o c s -> is_frozen c = false -> blen k <= 255 ->
  kget k (kv_of c0 es) = None -> command_history [cmd; k] c s = Some (hardsend "-Key not found").
Proof.
  intros R Fz Hk K. destruct (reached_inv _ _ _ _ _ _ _ R) as (_ & _ & gi & H & U & E & _).
  unfold command_history. change (argc [cmd; k]) with 2. change (negb (2 =? 2) && negb (2 =? 3)) with false. rewrite Fz.
  change (2 =? 2) with true. cbn iota. change (arg 1 [cmd; k]) with k. rewrite u8_short by auto.
  pose proof (lookup_spec _ _ _ _ k U) as L. destruct (index_get s k) as [e|]; [|reflexivity].
  destruct L as (y & w & _ & _ & _ & _ & _ & _ & L). rewrite E in L. congruence.
Qed.

Lemma run_only_total g n c0 es o c s es' : reached g n c0 es o c s -> Forall event_wf es' -> files_fit g es' (c, s) ->
  exists o' c' s', run_events g es' (c, s) = Some (o', (c', s')).
Proof.
  intros R W FF. destruct (reached_inv _ _ _ _ _ _ _ R) as (_ & _ & gi & H & U & _). destruct R as (Hg & _).
  destruct (run_ok g n es' Hg W c s gi H U FF) as (o' & c' & s' & _ & _ & _ & E & _). eauto.
Qed.

Lemma walks_frozen n argv c s s' : n_lock c = 2 ->
  command_scan n argv c s = command_scan n argv c s' /\ command_rscan n argv c s = command_rscan n argv c s' /\
  command_keycur argv c s = command_keycur argv c s' /\ command_history argv c s = command_history argv c s'.
Proof.
  intros H. assert (F : is_frozen c = true) by (unfold is_frozen; now rewrite H).
  unfold command_scan, command_rscan, scan_body, command_keycur, command_history. rewrite F. auto.
Qed.
