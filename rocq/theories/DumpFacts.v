(* index-dump: lemmas; the records of the index files against the log. *)
From Coq Require Import Strings.String Strings.Byte List NArith ZArith Bool Lia ZifyBool ZifyN ZifyNat.
From Verif Require Import Bytes BytesFacts Crc32 Crc32Facts Layout LayoutFacts Store Text TextFacts Commands System SpecKV Machine Reach CrashModel
  SpecFiles Ghost DataFacts TableFacts CheckFacts UserInv UserSteps UserLoad CrashPre UserReq UserRun UserMove KvFacts HistFacts DataLog RebuildFacts
  SpecSeq SeqReach SeqMap SeqInv SeqSteps SeqRun SeqFacts Tools SpecTools.
Import ListNotations.
Open Scope N_scope.
Local Notation length := List.length.
Ltac Zify.zify_post_hook ::= Z.div_mod_to_equations.

(* ---- versions and log ---- *)

Lemma move_cases w G H G' H' : Forall2 same_id G H -> live_last G -> Forall2 same_id G' H' -> live_last G' -> gmoved w G H G' H' ->
  (G' = G /\ H' = H) \/ exists k, w = Some k /\
    ((H' = H /\ kget k (livem G H) <> None /\ kget k (livem G' H') = None) \/
     (exists v, H' = H ++ [(k, v)] /\ kget k (livem G' H') = Some v /\
        match kget k (livem G H) with None => True | Some v0 => fst v0 <> fst v end)).
Proof.
  intros VS LL VS' LL' [M|(k & -> & M)]; [now left|right]. exists k. split; [reflexivity|].
  assert (LG : length G = length H) by (eapply forall2_length; exact VS).
  assert (LG' : length G' = length H') by (eapply forall2_length; exact VS').
  assert (Last : forall y v G1, G' = G1 ++ [y] -> H' = H ++ [v] -> l_id y = k -> live y = true -> kget k (livem G' H') = Some (snd v)).
  { intros y v G1 -> -> Kv Ly. rewrite <- Kv. apply (kget_livem _ _ y v VS' LL'); [|exact Ly].
    rewrite !app_length in LG'. cbn [length] in LG'. rewrite combine_app by lia. apply in_or_app. right. now left. }
  destruct (gmove_inv _ _ _ _ _ M) as [(A & x & B & Lx & Kx & EA & EC & ED)|[(y & v & Ly & Ky & Kv & Fr & P1 & P2 & P3 & EC & ED)|
    (A & x & B & y & v & Lx & Kx & Ly & Ky & Kv & P1 & P2 & P3 & Df & EA & EC & ED)]].
  - left. split; [congruence|]. split.
    + intros K. apply kget_none in K. rewrite livem_keys in K by auto. apply K. rewrite <- EA, <- Kx. apply in_map. apply filter_In.
      split; [|exact Lx]. apply in_or_app. right. now left.
    + apply kget_none. rewrite livem_keys by auto. intros I. apply in_map_iff in I. destruct I as (z & Kz & I). apply filter_In in I.
      destruct I as [I Lz]. rewrite <- EC in I. rewrite <- EA in LL. destruct (live_last_mid _ _ _ LL Lx) as [L1 L2].
      apply in_app_iff in I. cbn [In] in I. rewrite Forall_forall in L1, L2. destruct I as [I|[<-|I]].
      * apply (L1 z I Lz). congruence.
      * rewrite (live_mflag x) in Lz. discriminate.
      * apply (L2 z I). congruence.
  - right. exists (snd v). destruct v as [k0 v]. cbn [fst snd] in *. subst k0. split; [now rewrite ED|].
    split; [apply (Last y (k, v) G); auto|].
    assert (K : kget k (livem G H) = None).
    { apply kget_none. rewrite livem_keys by auto. intros I. apply in_map_iff in I. destruct I as (z & Kz & I). apply filter_In in I.
      rewrite Forall_forall in Fr. apply (Fr z); tauto. }
    now rewrite K.
  - right. exists (snd v). destruct v as [k0 v]. cbn [fst snd] in *. subst k0. split; [now rewrite ED|].
    split; [apply (Last y (k, v) (A ++ mflag x :: B)); auto; rewrite <- EC, <- app_assoc; reflexivity|].
    destruct (in_combine_ex same_id G H x VS) as (w0 & I0 & _); [rewrite <- EA; apply in_or_app; right; now left|].
    pose proof (kget_livem G H x w0 VS LL I0 Lx) as K. rewrite <- EA in I0.
    rewrite Kx in K. rewrite K. apply (Df w0 I0).
Qed.

Definition ver_of (w : wrote) : ver := (w_key w, (w_value w, w_ts w)).
Definition stored (w : wrote) : bool := negb (w_gone w).

Lemma set_differs p now c m k v ts r m' : kv_set p now c m k v ts = (r, m') -> accepted (QSet k v ts) (enc_reply r) = true ->
  r = RBulk k /\ m' = kput k v (stamp ts now) m /\ 0 < blen k /\ match kget k m with Some v0 => fst v0 <> v | None => True end.
Proof.
  intros E A. pose proof (RebuildFacts.set_cases p now c m k v ts) as C. rewrite E in C. destruct C as [(-> & -> & K)|(A' & _)]; [|congruence].
  split; [reflexivity|]. split; [reflexivity|]. split; [exact K|]. revert E. unfold kv_set.
  destruct (kget k m) as [[v0 t0]|]; [|auto]. cbn [fst]. destruct (bseqb_spec v0 v) as [->|N]; [|auto].
  destruct ts, (p_admin p); try (intros [=]; fail);
    repeat match goal with |- context [if ?b then _ else _] => destruct b; try (intros [=]; fail) end.
Qed.

Lemma step_versions p now q c G H G' H' r : Forall2 same_id G H -> live_last G -> Forall2 same_id G' H' -> live_last G' ->
  gmoved (match q with QSet k _ _ | QDel k _ => Some k | _ => None end) G H G' H' ->
  kv_step p now c q (livem G H) = (r, livem G' H') ->
  H' = H ++ map ver_of (filter stored (written now q (enc_reply r))).
Proof.
  intros VS LL VS' LL' M E. pose proof (move_cases _ _ _ _ _ VS LL VS' LL' M) as C. unfold written.
  destruct (accepted q (enc_reply r)) eqn:A.
  - destruct q as [k v ts|k ts|k|ks|k|k|k|k| |]; try discriminate A; cbn [kv_step] in E.
    + destruct (set_differs _ _ _ _ _ _ _ _ _ E A) as (-> & Em & Kl & Kd). destruct k as [|b k]; [cbn in Kl; lia|].
      cbn [filter stored w_gone negb map ver_of w_key w_value w_ts]. 
      assert (K' : kget (b :: k) (livem G' H') = Some (v, stamp ts now)) by (rewrite Em, kget_kput, bseqb_refl; reflexivity).
      destruct C as [[-> ->]|(k0 & [= <-] & [(-> & _ & K)|(v0 & -> & K & _)])].
      * rewrite K' in Kd. now elim Kd.
      * congruence.
      * rewrite K' in K. injection K as <-. reflexivity.
    + pose proof (RebuildFacts.del_cases p c (livem G H) k ts) as D. rewrite E in D. destruct D as [(-> & Em & Kn)|(A' & _)]; [|congruence].
      cbn [filter stored w_gone negb map]. rewrite app_nil_r.
      assert (K' : kget k (livem G' H') = None) by (rewrite Em, kget_kdel, bseqb_refl; reflexivity).
      destruct C as [[-> ->]|(k0 & [= <-] & [(-> & _ & _)|(v0 & -> & K & _)])]; auto. congruence.
  - cbn [filter map]. rewrite app_nil_r.
    assert (Em : forall k, match q with QSet k _ _ | QDel k _ => Some k | _ => None end = Some k -> livem G' H' = livem G H).
    { intros k0 Q. destruct q as [k v ts|k ts|k|ks|k|k|k|k| |]; try discriminate Q; cbn [kv_step] in E.
      - pose proof (RebuildFacts.set_cases p now c (livem G H) k v ts) as D. rewrite E in D. destruct D as [(-> & _)|(_ & D)]; [|exact D].
        change (enc_reply (RBulk k)) with (bulk k) in A. rewrite accepted_bulk in A. discriminate.
      - pose proof (RebuildFacts.del_cases p c (livem G H) k ts) as D. rewrite E in D. destruct D as [(-> & _)|(_ & D)]; [|exact D].
        discriminate A. }
    destruct C as [[-> ->]|(k0 & Q & [(-> & _ & _)|(v0 & -> & K & D)])]; auto. exfalso.
    rewrite (Em _ Q) in K. rewrite K in D. now apply D.
Qed.

Lemma run_versions g n es : settings_ok g -> Forall event_wf es -> forall c s gi H, UInv n s gi H -> files_fit g es (c, s) ->
  forall o c' s', run_events g es (c, s) = Some (o, (c', s')) ->
  exists gi' H', UInv n s' gi' H' /\ files_lt s' /\ snd (kv_run es (c, livem (flat 0 gi) H)) = (c', livem (flat 0 gi') H') /\
    H' = H ++ map ver_of (filter stored (written_by es o)).
Proof.
  intros Hg. induction es as [|e es IH]; intros Wes c s gi H U FF o c' s' R.
  - cbn [run_events] in R. injection R as <- <- <-. exists gi, H. split; [exact U|]. split; [exact (files_fit_now _ _ _ _ FF)|]. 
    cbn [kv_run written_by filter map]. now rewrite app_nil_r.
  - inversion Wes as [|e0 es0 We Wes' Eq]; subst. pose proof (files_fit_now _ _ _ _ FF) as FL.
    destruct (event_moved g n e c s gi H Hg We U FL) as (o1 & c1 & s1 & gi1 & H1 & E1 & U1 & M & E4).
    cbn [run_events] in R. rewrite E1 in R. destruct (run_events g es (c1, s1)) as [[o2 [c2 s2]]|] eqn:R2; [|discriminate].
    injection R as <- <- <-.
    destruct (IH Wes' c1 s1 gi1 H1 U1 (files_fit_step _ _ _ _ _ _ FF E1) _ _ _ R2) as (gi2 & H2 & U2 & F2 & K2 & V2).
    exists gi2, H2. split; [exact U2|]. split; [exact F2|]. split.
    { cbn [kv_run]. destruct (kv_event e (c, livem (flat 0 gi) H)) as [oe st]. cbn [snd] in E4. subst st.
      destruct (kv_run es (c1, livem (flat 0 gi1) H1)) as [o9 st9]. exact K2. }
    rewrite V2. destruct e as [p now q|c9|]; cbn [run_event ekey kv_event] in *.
    + destruct (run_req g p now q c s) as [r s9] eqn:RQ. injection E1 as <- <- <-.
      pose proof (req_ok g n s gi H p now q c U Hg We FL) as (Rr & _). rewrite RQ in Rr. cbn [fst] in Rr.
      destruct (kv_step p now c q (livem (flat 0 gi) H)) as [r' m'] eqn:K. cbn [fst snd] in *. injection E4 as ->.
      cbn [app written_by]. rewrite filter_app, map_app, app_assoc. f_equal. rewrite Rr.
      apply (step_versions p now q c (flat 0 gi) H (flat 0 gi1) H1 r').
      * eapply ver_same. apply U.
      * apply U.
      * eapply ver_same. apply U1.
      * apply U1.
      * destruct q; exact M.
      * exact K.
    + injection E1 as <- <- <-. destruct M as [[_ ->]|(k & Q & _)]; [reflexivity|discriminate].
    + destruct (reopen g s) as [s9|]; [|discriminate]. injection E1 as <- <- <-.
      destruct M as [[_ ->]|(k & Q & _)]; [reflexivity|discriminate].
Qed.

Lemma reached_versions g n c0 es o c s : reached g n c0 es o c s ->
  exists gi H, UInv n s gi H /\ files_lt s /\ livem (flat 0 gi) H = kv_of c0 es /\ H = map ver_of (filter stored (written_by es o)).
Proof.
  intros (Hg & W & s0 & C & FF & R).
  destruct (run_versions g n es Hg W c0 s0 [[]] [] (created_inv _ _ _ Hg C) FF _ _ _ R) as (gi & H & U & F & K & V).
  exists gi, H. split; [exact U|]. split; [exact F|]. split; [|exact V]. unfold kv_of.
  change (livem (flat 0 [[]]) []) with (@nil ver) in K. rewrite K. reflexivity.
Qed.

(* ---- the files ---- *)

Lemma named_get name fs : (forall i j, name i = name j -> i = j) -> forall i k, dget (name (i + k)) (named name i fs) = nget k fs.
Proof.
  intros Inj. induction fs as [|f fs IH]; intros i k; cbn [named dget nget]; [reflexivity|].
  destruct (N.eqb_spec k 0) as [->|N].
  - rewrite N.add_0_r, bseqb_refl. reflexivity.
  - destruct (bseqb (name i) (name (i + k))) eqn:E; [apply bseqb_eq, Inj in E; lia|].
    replace (i + k) with (i + 1 + (k - 1)) by lia. rewrite IH. now replace (N.pred k) with (k - 1) by lia.
Qed.

Lemma length_named name fs : forall i, length (named name i fs) = length fs.
Proof. induction fs; intros; cbn [named length]; auto. Qed.

Lemma consecutive_named name d : forall fs fuel i, (length fs <= fuel)%nat -> 
  (forall k f, nget k fs = Some f -> dget (name (i + k)) d = Some f) -> dget (name (i + nlen fs)) d = None ->
  consecutive name fuel i d = fs.
Proof.
  induction fs as [|f fs IH]; intros fuel i Hf Hk Hn; cbn [nlen] in Hn.
  - destruct fuel; [reflexivity|]. cbn [consecutive]. rewrite N.add_0_r in Hn. now rewrite Hn.
  - destruct fuel; [cbn in Hf; lia|]. cbn [consecutive]. pose proof (Hk 0 f eq_refl) as H0. rewrite N.add_0_r in H0. rewrite H0. f_equal.
    apply IH.
    + cbn in Hf. lia.
    + intros k f' K. replace (i + 1 + k) with (i + N.succ k) by lia. apply Hk. cbn [nget].
      destruct (N.eqb_spec (N.succ k) 0); [lia|]. now rewrite N.pred_succ.
    + now replace (i + 1 + nlen fs) with (i + N.succ (nlen fs)) by lia.
Qed.

Lemma consecutive_server name fs : (forall i j, name i = name j -> i = j) -> consecutive name (length (named name 0 fs)) 0 (named name 0 fs) = fs.
Proof.
  intros Inj. apply consecutive_named.
  - now rewrite length_named.
  - intros k f K. now rewrite (named_get name fs Inj 0 k).
  - rewrite (named_get name fs Inj 0). destruct (nget (nlen fs) fs) eqn:E; [|reflexivity]. apply nget_lt in E. lia.
Qed.

Lemma index_name_inj i j : index_name i = index_name j -> i = j.
Proof. unfold index_name. intros H. apply app_inv_head in H. now apply dec_inj. Qed.
Lemma data_name_inj i j : data_name i = data_name j -> i = j.
Proof. unfold data_name. intros H. apply app_inv_head in H. now apply dec_inj. Qed.

(* ---- the dump ---- *)

Fixpoint rows_shown (nr off : N) (l : list item) : list shown :=
  match l with [] => [] | it :: t => show (nr + 1) off it :: rows_shown (nr + 1) (off + itsz it) t end.

Lemma dump_items l : Forall item_wf l -> forall fuel pre nr acc, (length l < fuel)%nat ->
  dump_file fuel (pre ++ enc_items l) nr (blen pre) acc = DDone (acc ++ rows_shown nr (blen pre) l).
Proof.
  induction 1 as [|it l W F IH]; intros fuel pre nr acc Hf; (destruct fuel as [|fuel]; [cbn in Hf; lia|]); cbn [dump_file].
  - rewrite fread_eof by (rewrite app_nil_r; lia). cbn [rows_shown]. now rewrite app_nil_r.
  - rewrite enc_items_cons.
    assert (F1 : fread (pre ++ enc_item it ++ enc_items l) (blen pre) 1 = [n2b (it_idlen it)]).
    { rewrite fread_prefix by (rewrite blen_enc_item; lia). reflexivity. }
    rewrite F1. cbn iota zeta. change [n2b (it_idlen it)] with (le 1 (it_idlen it)). pose proof W as (W1 & W2 & _).
    rewrite unle_le1, u8_small by lia.
    rewrite fread_app by (rewrite blen_enc_item, W1; reflexivity). rewrite blen_enc_item, <- W1, N.eqb_refl, dec_enc_item by exact W.
    rewrite app_assoc. replace (blen pre + 34 + it_idlen it) with (blen (pre ++ enc_item it)) by (rewrite blen_app, blen_enc_item; lia).
    rewrite IH by (cbn in Hf; lia). cbn [rows_shown]. rewrite <- app_assoc. cbn [app]. f_equal. f_equal. f_equal. f_equal.
    rewrite blen_app, blen_enc_item. reflexivity.
Qed.

Lemma length_items l : (length l <= length (enc_items l))%nat.
Proof.
  induction l as [|it l IH]; [cbn; lia|]. rewrite enc_items_cons, app_length. cbn [length].
  pose proof (blen_enc_item it) as B. rewrite blen_length in B. lia.
Qed.

Lemma dump_ifs mode gi : Forall (Forall item_wf) gi -> forall f acc, dump_files (enc_ifs mode f gi) acc = DDone (acc ++ map (rows_shown 0 29) gi).
Proof.
  induction 1 as [|l gi W F IH]; intros f acc; cbn [enc_ifs dump_files map]; [now rewrite app_nil_r|].
  assert (V : index_file_valid (enc_if mode f l) = true).
  { unfold index_file_valid, enc_if.
    assert (R : fread (index_header f mode ++ enc_items l) 0 29 = index_header f mode)
      by (unfold fread; rewrite nskip_0; apply nfirst_app_exact'; now rewrite blen_index_header).
    rewrite R. reflexivity. }
  rewrite V. unfold enc_if at 2. rewrite <- (blen_index_header f mode) at 1.
  rewrite dump_items by (auto; pose proof (length_items l); unfold enc_if; rewrite app_length; lia).
  rewrite IH, blen_index_header, <- app_assoc. reflexivity.
Qed.

Lemma dump_server mode gi : gi <> [] -> Forall (Forall item_wf) gi ->
  index_dump (server_index (enc_ifs mode 0 gi)) = DDone (map (rows_shown 0 29) gi).
Proof.
  intros Hn W. unfold index_dump, server_index. rewrite consecutive_server by exact index_name_inj.
  destruct gi as [|l gi]; [congruence|]. cbn [enc_ifs]. exact (dump_ifs mode (l :: gi) W 0 []).
Qed.

Lemma shown_flat G : forall nr off f l, G = place f off l -> Forall item_wf l ->
  forall (dd : list bytes) H, Forall2 (fun x (v : ver) => l_id x = fst v /\ it_len (l_it x) = blen (fst (snd v)) /\
    it_crc (l_it x) = zdb_crc32 (fst (snd v)) /\ it_ts (l_it x) = snd (snd v)) G H ->
  Forall2 tells H (rows_shown nr off l) /\ Forall2 tells (livem G H) (filter not_deleted (rows_shown nr off l)).
Proof.
  intros nr off f l ->. revert nr off. induction l as [|it l IH]; intros nr off W dd H F; cbn [place rows_shown] in *.
  - inversion F; subst. split; constructor.
  - inversion F as [|? [k [v t]] ? H' (A1 & A2 & A3 & A4) F']; subst. inversion W as [|? ? W1 W2]; subst.
    destruct (IH (nr + 1) (off + itsz it) W2 dd H' F') as (T1 & T2).
    unfold l_id, l_it in A1, A2, A3, A4. cbn [fst snd] in A1, A2, A3, A4. destruct W1 as (W1 & _).
    assert (T : tells (k, (v, t)) (show (nr + 1) off it)).
    { unfold tells, show. cbn [sh_key sh_idlen sh_len sh_crc sh_ts]. rewrite W1, A1, A2, A3, A4.
      split; [|auto]. apply nfirst_all. rewrite blen_nlen. lia. }
    split; [constructor; auto|]. cbn [livem filter]. unfold live, l_it at 1. cbn [snd]. unfold not_deleted at 1. cbn [show sh_flags].
    rewrite is_deleted_odd. destruct (N.odd (it_flags it)); cbn [negb]; [exact T2|]. constructor; auto.
Qed.

Lemma filter_concat {A} (f : A -> bool) L : filter f (concat L) = concat (map (filter f) L).
Proof. induction L as [|l L IH]; cbn [concat map]; auto. now rewrite filter_app, IH. Qed.

Lemma shown_all gi : forall f H, Forall (Forall item_wf) gi -> Forall2 (fun x (v : ver) => l_id x = fst v /\ it_len (l_it x) = blen (fst (snd v)) /\
    it_crc (l_it x) = zdb_crc32 (fst (snd v)) /\ it_ts (l_it x) = snd (snd v)) (flat f gi) H ->
  Forall2 tells H (concat (map (rows_shown 0 29) gi)) /\ Forall2 tells (livem (flat f gi) H) (filter not_deleted (concat (map (rows_shown 0 29) gi))).
Proof.
  induction gi as [|l gi IH]; intros f H W F; cbn [flat map concat] in *.
  - inversion F; subst. split; constructor.
  - inversion W as [|? ? W1 W2]; subst. apply Forall2_app_inv_l in F. destruct F as (H1 & H2 & F1 & F2 & ->).
    destruct (shown_flat _ 0 29 f l eq_refl W1 [] H1 F1) as (A1 & A2). destruct (IH (f + 1) H2 W2 F2) as (B1 & B2).
    rewrite livem_app by (eapply forall2_length; eauto). rewrite filter_app. split; apply Forall2_app; auto.
Qed.

Lemma wf_items (P : loc -> Prop) gi : (forall x, P x -> item_wf (l_it x)) -> forall f, Forall P (flat f gi) -> Forall (Forall item_wf) gi.
Proof.
  intros PW. induction gi as [|l gi IH]; intros f F; constructor.
  - cbn [flat] in F. apply Forall_app in F. destruct F as [F _]. clear IH. revert F. generalize 29.
    induction l as [|it l IH]; intros off F; constructor; cbn [place] in F; inversion F; subst.
    + change it with (l_it (f, off, it)). auto.
    + eauto.
  - cbn [flat] in F. apply Forall_app in F. eapply IH. apply F.
Qed.

Lemma rows_numbered l : Forall item_wf l -> forall nr off, numbered (nr + 1) off (rows_shown nr off l).
Proof.
  induction 1 as [|it l (W & _) F IH]; intros nr off; cbn [rows_shown numbered]; auto.
  cbn [show sh_nr sh_at sh_idlen]. split; [reflexivity|]. split; [reflexivity|].
  replace (off + 34 + it_idlen it) with (off + itsz it) by (unfold itsz; lia). apply IH.
Qed.

Lemma numbered_all gi : Forall (Forall item_wf) gi -> Forall (numbered 1 29) (map (rows_shown 0 29) gi).
Proof. induction 1; cbn [map]; constructor; auto. now apply (rows_numbered x H 0 29). Qed.

Lemma dump_user g n c0 es o c s : reached g n c0 es o c s ->
  exists L, index_dump (server_index (dk_i (dk s))) = DDone L /\ nlen L = nlen (dk_i (dk s)) /\ Forall (numbered 1 29) L /\
    Forall2 tells (values_of (written_by es o)) (concat L) /\
    Forall2 tells (kv_of c0 es) (filter not_deleted (concat L)).
Proof.
  intros R. destruct (reached_versions _ _ _ _ _ _ _ R) as (gi & H & U & _ & K & V).
  pose proof (ui_f _ _ _ _ U) as F. exists (map (rows_shown 0 29) gi).
  assert (W : Forall (Forall item_wf) gi) by (apply (wf_items loc_wf gi (fun x P => proj1 P) 0), F).
  rewrite (fi_files _ _ _ _ F). split; [|split; [|split]].
  - apply dump_server; [|exact W]. intros ->. pose proof (ui_id _ _ _ _ U) as I. cbn [nlen] in I. lia.
  - rewrite nlen_map. symmetry. apply nlen_enc_ifs.
  - now apply numbered_all.
  - rewrite <- K. unfold values_of. change (fun w => (w_key w, (w_value w, w_ts w))) with ver_of. change (fun w => negb (w_gone w)) with stored.
    rewrite <- V. apply shown_all; [exact W|]. pose proof (fi_ver _ _ _ _ F) as FV. clear -FV.
    induction FV as [|x v G H X FV IH]; constructor; auto. destruct X as (A1 & A2 & A3 & A4 & _). auto.
Qed.

Lemma nlen_flat gi : forall f, nlen (flat f gi) = tot gi.
Proof.
  induction gi as [|l gi IH]; intros f; cbn [flat tot nlen]; auto. rewrite nlen_app, IH. f_equal.
  generalize 29. induction l as [|it l IHl]; intros off; cbn [place nlen]; auto. now rewrite IHl.
Qed.

Lemma dump_seq g n c0 es o c s : sreached g n c0 (plain es) o c s ->
  exists L, index_dump (server_index (dk_i (dk s))) = DDone L /\ nlen L = nlen (dk_i (dk s)) /\ Forall (numbered 1 29) L /\
    nlen (concat L) = sq_next (sq_of_history c0 es) /\
    Forall2 tells (sq_map (sq_of_history c0 es)) (filter not_deleted (concat L)).
Proof.
  intros R. destruct (splain_inv _ _ _ _ _ _ _ R) as (_ & _ & gi & H & (m & U & _) & K & _).
  pose proof (si_f _ _ _ _ _ U) as F. exists (map (rows_shown 0 29) gi).
  assert (W : Forall (Forall item_wf) gi) by (apply (wf_items sloc_wf gi (fun x P => proj1 P) 0), F).
  assert (A : Forall2 tells H (concat (map (rows_shown 0 29) gi)) /\ Forall2 tells (livem (flat 0 gi) H) (filter not_deleted (concat (map (rows_shown 0 29) gi)))).
  { apply shown_all; [exact W|]. pose proof (sf_ver _ _ _ _ F) as FV. clear -FV.
    induction FV as [|x v G H X FV IH]; constructor; auto. destruct X as (A1 & A2 & A3 & A4 & _). auto. }
  rewrite (sf_files _ _ _ _ F). split; [|split; [|split; [|split]]].
  - apply dump_server; [|exact W]. intros ->. pose proof (si_id _ _ _ _ _ U) as I. cbn [nlen] in I. lia.
  - rewrite nlen_map. symmetry. apply nlen_enc_ifs.
  - now apply numbered_all.
  - rewrite <- K. cbn [sq_of sq_next]. rewrite <- (nlen_flat gi 0). destruct A as [A _]. apply forall2_length in A.
    rewrite !nlen_length, <- A. f_equal. symmetry. eapply forall2_length. apply F.
  - rewrite <- K. apply A.
Qed.
