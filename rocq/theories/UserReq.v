(* Every request on a user-key namespace answers and acts as SpecKV says. *)
From Coq Require Import List NArith ZArith Bool Strings.Byte Strings.String Lia ZifyBool ZifyN ZifyNat.
From Verif Require Import Bytes BytesFacts Crc32 Crc32Facts Layout LayoutFacts Store Text TextFacts Commands SpecKV Machine Reach
  Ghost DataFacts TableFacts CheckFacts UserInv UserSteps UserLoad CrashPre.
Import ListNotations.
Open Scope N_scope.
Ltac Zify.zify_post_hook ::= Z.div_mod_to_equations.
Local Notation length := List.length.

Notation g_ok := settings_ok.

Lemma le4_u32 x : le 4 (u32 x) = le 4 x.
Proof. rewrite <- unle_le4. exact (le_unle (le 4 x)). Qed.

Lemma ins_hdr_norm s q : exists r, drec_wf r /\ enc_drec r = enc_drec (ins_hdr s q) /\
    dr_id r = q_id q /\ dr_datalen r = blen (q_data q) /\ dr_crc r = q_crc q /\ dr_flags r = q_flags q /\ dr_ts r = q_ts q
  \/ ~ (blen (q_id q) < 256 /\ blen (q_data q) < 4294967296 /\ q_crc q < 4294967296 /\ q_flags q < 256 /\ q_ts q < 4294967296).
Proof.
  exists (mkDrec (blen (q_id q)) (blen (q_data q)) (u32 (d_prev (dt s))) (q_crc q) (q_flags q) (q_ts q) (q_id q)).
  destruct (N.lt_ge_cases (blen (q_id q)) 256); [|right; lia].
  destruct (N.lt_ge_cases (blen (q_data q)) 4294967296); [|right; lia].
  destruct (N.lt_ge_cases (q_crc q) 4294967296); [|right; lia].
  destruct (N.lt_ge_cases (q_flags q) 256); [|right; lia].
  destruct (N.lt_ge_cases (q_ts q) 4294967296); [|right; lia].
  left. pose proof (u32_lt (d_prev (dt s))). repeat split; auto.
  unfold enc_drec, ins_hdr. cbn [dr_idlen dr_datalen dr_prev dr_crc dr_flags dr_ts dr_id]. now rewrite le4_u32.
Qed.

Lemma data_ready_insert n s gi H k v ts file : UInv n s gi H ->
  nget (d_dataid (dt s)) (dk_d (dk s)) = Some file ->
  blen k < 256 -> blen v < 4294967296 -> ts < 4294967296 ->
  data_ready (dk_d (dk (after_data s file (mkDreq v k 0 (zdb_crc32 v) ts)))) (x_indexid (ix s)) (blen file) k v ts.
Proof.
  intros U Hf Hk Hv Ht. set (q := mkDreq v k 0 (zdb_crc32 v) ts).
  destruct (ins_hdr_norm s q) as (r & [(R1 & R2 & R3 & R4 & R5 & R6 & R7)|X]).
  - exists r. repeat split; auto; try apply R1.
    destruct (data_at_insert s q file Hf) as (pre & post & P1 & P2).
    exists pre, post. rewrite R2. split; auto. cbn [after_data dk]. now rewrite <- (ui_did _ _ _ _ U).
  - exfalso. apply X. pose proof (zdb_crc32_W32 v). cbn [q q_id q_data q_crc q_flags q_ts]. lia.
Qed.

(* comparing with the stored value *)
Lemma unchanged_spec n d x v value : loc_wf x -> ver_ok (dk_d d) x v ->
  unchanged d (Some (entry_of n x)) value = bseqb (fst (snd v)) value.
Proof.
  intros W (V1 & V2 & V3 & V4 & r & R1 & R2 & R3 & R4 & R5 & R6 & R7).
  unfold unchanged, data_compare_matching. cbn [entry_of e_crc e_len e_off e_dataid e_id].
  rewrite V1, V2, V3. destruct (bseqb_spec (fst (snd v)) value) as [<-|E].
  - rewrite !N.eqb_refl. cbn [negb andb]. rewrite <- R2. rewrite (data_get_at d _ _ r _) by auto.
    rewrite nfirst_all by (rewrite blen_nlen; lia). apply bseqb_refl.
  - destruct (zdb_crc32 _ =? _); [|reflexivity]. cbn [andb].
    destruct (N.eqb_spec (blen (fst (snd v))) (blen value)) as [Hl|Hl]; [|reflexivity]. cbn [negb].
    rewrite <- R2. rewrite (data_get_at d _ _ r _) by auto.
    rewrite nfirst_all by (rewrite <- blen_nlen; lia). now apply bseqb_neq.
Qed.

Lemma loc_wf_in di dd gi H x : FInv di dd gi H -> In x (flat 0 gi) -> loc_wf x.
Proof. intros F Hx. pose proof (fi_wf _ _ _ _ F) as W. rewrite Forall_forall in W. auto. Qed.

Lemma room_dsize n s gi H : UInv n s gi H ->
  room (dk_d (dk s)) (x_indexid (ix s)) = dsize (dk s) (d_dataid (dt s)) - 28.
Proof.
  intros U. unfold room, dsize, dfile. rewrite (ui_did _ _ _ _ U).
  destruct (nget (x_indexid (ix s)) (dk_d (dk s))); lia.
Qed.

Lemma room_after s file q : nget (d_dataid (dt s)) (dk_d (dk s)) = Some file -> 28 <= blen file ->
  room (dk_d (dk (after_data s file q))) (d_dataid (dt s)) =
  blen file - 28 + 18 + blen (q_id q) + blen (q_data q).
Proof.
  intros Hf Hl. unfold room. cbn [after_data dk ins_disk dk_d].
  rewrite nget_nset_same by (now apply nget_lt in Hf).
  rewrite !blen_app, blen_enc_drec. cbn [ins_hdr dr_id]. lia.
Qed.

(* a value is written: data record, then index *)
Definition write_kv (s : est) (k v : bytes) (ts : N) (existing : option entry) : bytes * est :=
  let '(off, s1) := data_insert s (mkDreq v k 0 (zdb_crc32 v) ts) in
  if off =? 0 then (hardsend "-Cannot write data right now", s1)
  else
    match index_set s1 k (idxreq off (blen v) (zdb_crc32 v) 0 ts) existing with
    | (None, s2) => (hardsend "-Cannot write index right now", s2)
    | (Some _, s2) => (bulk k, s2)
    end.

Definition ex_ok (n : N) (gi : list (list item)) (H : list ver) (k : bytes) (ex : option entry) : Prop :=
  match ex with
  | None => kget k (livem (flat 0 gi) H) = None
  | Some e => exists x, In x (flat 0 gi) /\ live x = true /\ l_id x = k /\ e = entry_of n x
  end.

Lemma kdel_none k m : kget k m = None -> kdel k m = m.
Proof.
  intros H. unfold kdel. induction m as [|[k' v] m IH]; cbn [filter]; auto.
  cbn [kget] in H. cbn [fst]. destruct (bseqb k' k); [discriminate|]. cbn [negb]. now rewrite IH.
Qed.

Lemma livem_snoc G H x v : length G = length H -> live x = true -> livem (G ++ [x]) (H ++ [v]) = livem G H ++ [v].
Proof. intros L Hx. rewrite livem_app by auto. cbn [livem]. now rewrite Hx. Qed.

(* the map found after a crash, from m to m2; the key lose may be missing *)
Definition cut_map (lose : option bytes) (m m2 m' : kv) : Prop :=
  m' = m \/ m' = m2 \/ exists k, lose = Some k /\ kget k m <> None /\ m' = kdel k m.

Lemma live_kget di dd gi H x : FInv di dd gi H -> In x (flat 0 gi) -> live x = true ->
  kget (l_id x) (livem (flat 0 gi) H) <> None.
Proof.
  intros F I L E. apply kget_none in E. apply E. rewrite livem_keys by (eapply ver_same; apply F).
  apply in_map. now apply filter_In.
Qed.

(* what a request for key k does to the records *)
Definition mflag (x : loc) : loc := (l_f x, l_off x, flag (l_it x)).
Inductive gmove (k : bytes) : list loc -> list ver -> list loc -> list ver -> Prop :=
| gm_flag A x B H : live x = true -> l_id x = k -> gmove k (A ++ x :: B) H (A ++ mflag x :: B) H
| gm_new G H y v : live y = true -> l_id y = k -> fst v = k -> Forall (fun z => live z = true -> l_id z <> k) G ->
    it_pid (l_it y) = 0 -> it_poff (l_it y) = 0 -> it_dataid (l_it y) = 0 -> gmove k G H (G ++ [y]) (H ++ [v])
| gm_upd A x B H y v : live x = true -> l_id x = k -> live y = true -> l_id y = k -> fst v = k ->
    it_pid (l_it y) = l_f x -> it_poff (l_it y) = l_off x -> it_dataid (l_it y) = l_f y ->
    (forall w, In (x, w) (combine (A ++ x :: B) H) -> fst (snd w) <> fst (snd v)) ->
    gmove k (A ++ x :: B) H (A ++ mflag x :: B ++ [y]) (H ++ [v]).

Definition gmoved (who : option bytes) G H G' H' : Prop :=
  (G' = G /\ H' = H) \/ exists k, who = Some k /\ gmove k G H G' H'.

Lemma write_kv_ok n s gi H k v ts ex :
  UInv n s gi H -> ex_ok n gi H k ex -> 0 < blen k -> blen k <= 255 -> blen v < 4294967296 -> ts < 4294967296 ->
  dsize (dk s) (d_dataid (dt s)) <= 2 ^ 31 ->
  (forall w, kget k (livem (flat 0 gi) H) = Some w -> fst w <> v) ->
  exists s2 gi2, write_kv s k v ts ex = (bulk k, s2) /\ UInv n s2 gi2 (H ++ [(k, (v, ts))]) /\
    nlen gi2 = nlen gi /\ gmove k (flat 0 gi) H (flat 0 gi2) (H ++ [(k, (v, ts))]) /\
    livem (flat 0 gi2) (H ++ [(k, (v, ts))]) = kput k v ts (livem (flat 0 gi) H) /\
    tframe n (tb s) (tb s2) /\ dext (dk_d (dk s)) (dk_d (dk s2)) /\
    forall P : fsys -> Prop,
      (forall fs gi' H', loadable fs gi' H' -> dext (dk_d (dk s)) (snd fs) -> nlen gi' = nlen gi ->
         cut_map (Some k) (livem (flat 0 gi) H) (kput k v ts (livem (flat 0 gi) H)) (livem (flat 0 gi') H') -> P fs) ->
      cuts P (dk s) (dk s2).
Proof.
  intros U Hex K1 K2 Hv Hts Hds Hne. destruct (uinv_cur _ _ _ _ U) as (file & Hf & Hl).
  set (q := mkDreq v k 0 (zdb_crc32 v) ts).
  destruct (uinv_data n s gi H q file U Hf) as (D1 & U1 & E1).
  pose proof (data_ready_insert n s gi H k v ts file U Hf ltac:(lia) Hv Hts) as RD. fold q in RD.
  assert (Hds' : blen file <= 2147483648).
  { unfold dsize, dfile in Hds. rewrite Hf in Hds. change (2 ^ 31) with 2147483648 in Hds. lia. }
  pose proof (room_after s file q Hf Hl) as RM. cbn [q q_id q_data] in RM. fold q in RM.
  rewrite (ui_did _ _ _ _ U) in RM.
  unfold write_kv. fold q. rewrite D1. destruct (N.eqb_spec (blen file) 0) as [X|_]; [lia|].
  destruct (cur_split gi (x_indexid (ix s)) (ui_id _ _ _ _ U)) as (g & l & Eg & Hg).
  pose proof (ui_f _ _ _ _ U) as F.
  pose proof (fi_room _ _ _ _ F g l Eg) as RO. rewrite Hg in RO. rewrite (room_dsize _ _ _ _ U) in RO.
  assert (DS : dsize (dk s) (d_dataid (dt s)) = blen file) by (unfold dsize, dfile; now rewrite Hf).
  rewrite DS in RO.
  pose proof (forall2_length _ _ _ (fi_ver _ _ _ _ F)) as FL.
  destruct ex as [e|]; cbn [ex_ok] in Hex.
  - destruct Hex as (x & Hx & Lx & Ix & ->).
    assert (IS : isize (dk (after_data s file q)) (x_indexid (ix s)) = 29 + isz l).
    { unfold isize, ifile. cbn [after_data dk ins_disk dk_i]. rewrite (fi_files _ _ _ _ F), Eg, <- Hg, nget_enc_ifs.
      apply blen_enc_if. }
    destruct (uinv_index_update n (after_data s file q) gi H x k v ts (blen file) (x_indexid (ix s)))
      as (e' & s2 & g' & l' & R1 & R2 & R3 & R4 & R5 & R6 & R7 & R8 & R9 & R10); auto; try lia.
    + apply U.
    + rewrite R1. eexists. eexists. split; [reflexivity|]. split; [exact R2|].
      assert (NL : forall l2, nlen (g' ++ [l2]) = nlen gi).
      { intros l2. rewrite nlen_app. cbn [nlen]. rewrite R3. rewrite <- (ui_id _ _ _ _ U). lia. }
      split; [apply NL|]. split.
      { destruct R5 as (g1 & l1 & l2 & g2 & A & B & _ & _ & _ & _ & Q5 & Q6). rewrite flat_snoc, Q6, Q5, <- app_assoc. cbn [app].
        apply gm_upd; auto; try reflexivity.
        - intros w Hw. cbn [fst snd]. apply Hne.
          rewrite <- Q5 in Hw. rewrite <- Ix. eapply kget_livem; eauto; [eapply ver_same; apply F|apply F]. }
      set (it := new_item _ _ _ _ _ _ _ _ _) in *.
      assert (LM : livem (flat 0 (g' ++ [l' ++ [it]])) (H ++ [(k, (v, ts))]) = kput k v ts (livem (flat 0 gi) H)).
      { rewrite flat_snoc. rewrite livem_snoc; [|rewrite <- (forall2_length _ _ _ (fi_ver _ _ _ _ R10)); reflexivity|reflexivity].
        unfold kput. now rewrite R6. }
      split; [exact LM|].
      split; [exact R8|]. split; [rewrite R7; exact E1|].
      intros P HP. assert (M0 : forall m2, cut_map (Some k) (livem (flat 0 gi) H) m2 (livem (flat 0 gi) H)) by (left; reflexivity).
      eapply cuts_trans.
      { apply (data_cuts n s gi H q file P U Hf). intros fs L _ D. apply (HP fs gi H); auto. }
      destruct R5 as (g1 & l1 & l2 & g2 & A & B & Q1 & Q2 & Q3 & Q4 & _).
      assert (DI : dk_i (dk (after_data s file q)) = enc_ifs MODE_KV 0 (g1 ++ (l1 ++ l_it x :: l2) :: g2))
        by (rewrite <- Q1; apply F).
      eexists. split; [exact R9|]. split; [repeat constructor|].
      assert (FW : flag_write x = WrI (nlen g1) (29 + isz l1) (enc_item (flag (l_it x)))) by (unfold flag_write; congruence).
      rewrite FW.
      assert (IW : WrI (x_indexid (ix s)) (29 + isz l') (enc_item it) = WrI (nlen g') (29 + isz l') (enc_item it)) by congruence.
      rewrite IW.
      set (dd1 := dk_d (dk (after_data s file q))) in *.
      assert (FS : files (dk (after_data s file q)) = (enc_ifs MODE_KV 0 (g1 ++ (l1 ++ l_it x :: l2) :: g2), dd1))
        by (unfold files; rewrite DI; reflexivity).
      assert (LAST : files (dk s2) = (enc_ifs MODE_KV 0 (g' ++ [l' ++ [it]]), dd1)).
      { unfold files. rewrite R7. f_equal. apply (ui_f _ _ _ _ R2). }
      split.
      { rewrite FS, !apply_writes_cons. cbn [apply_write fst snd]. rewrite wrfile_over by reflexivity.
        rewrite <- Q4, wrfile_append. exact LAST. }
      intros V C. apply (flag_cuts _ _ _ _ _ _ _ _ _ _ FS) in C. destruct C as [->|(V1 & C1 & ->)].
      { apply (HP _ gi H); auto. apply (uinv_loadable n). exact U1. }
      rewrite <- Q4 in *. apply append_cuts in C1. destruct C1 as [->| ->].
      * apply (HP _ (g' ++ [l']) H); auto.
        -- split; [exact R10|]. split; [rewrite NL; pose proof (ui_id _ _ _ _ U); lia|]. left. rewrite NL. split; apply U1.
        -- right. right. exists k. split; [reflexivity|]. split; [|exact R6]. rewrite <- Ix. eapply live_kget; eauto.
      * rewrite <- LAST. apply (HP _ (g' ++ [l' ++ [it]]) (H ++ [(k, (v, ts))])); auto.
        -- apply (uinv_loadable n). exact R2.
        -- cbn [files snd]. rewrite R7. exact E1.
        -- right. left. exact LM.
  - destruct (uinv_index_insert n (after_data s file q) g l H k v ts (blen file) 0)
      as (e' & s2 & R1 & R2 & R3 & R4 & R5); auto; try lia; try (rewrite <- Eg; auto); try (rewrite Hg; auto); try lia.
    rewrite R1. eexists. eexists. split; [reflexivity|]. split; [exact R2|].
    split; [rewrite Eg, !nlen_app; reflexivity|]. split.
    { rewrite Eg, flat_snoc. apply gm_new; auto. rewrite <- Eg. apply Forall_forall. intros z Hz Lz Ez.
      rewrite <- Ez in Hex. eapply live_kget; eauto. }
    set (it := new_item _ _ _ _ _ _ _ _ _) in *.
    assert (LM : livem (flat 0 (g ++ [l ++ [it]])) (H ++ [(k, (v, ts))]) = kput k v ts (livem (flat 0 gi) H)).
    { rewrite flat_snoc. rewrite livem_snoc; [|rewrite <- Eg; exact FL|reflexivity].
      unfold kput. rewrite kdel_none by auto. now rewrite Eg. }
    split; [exact LM|]. split; [exact R4|]. split; [rewrite R3; exact E1|].
    intros P HP. assert (M0 : forall m2, cut_map (Some k) (livem (flat 0 gi) H) m2 (livem (flat 0 gi) H)) by (left; reflexivity).
    eapply cuts_trans.
    { apply (data_cuts n s gi H q file P U Hf). intros fs L _ D. apply (HP fs gi H); auto. }
    eexists. split; [exact R5|]. split; [repeat constructor|].
    set (dd1 := dk_d (dk (after_data s file q))) in *.
    assert (FS : files (dk (after_data s file q)) = (enc_ifs MODE_KV 0 (g ++ [l]), dd1)).
    { unfold files. f_equal. rewrite <- Eg. apply F. }
    assert (LAST : files (dk s2) = (enc_ifs MODE_KV 0 (g ++ [l ++ [it]]), dd1)).
    { unfold files. rewrite R3. f_equal. apply (ui_f _ _ _ _ R2). }
    split.
    { rewrite FS, !apply_writes_cons. cbn [apply_write fst snd]. rewrite wrfile_append. exact LAST. }
    intros V C. rewrite FS in *. apply append_cuts in C. destruct C as [->| ->].
    + rewrite <- FS. apply (HP _ gi H); auto. apply (uinv_loadable n). exact U1.
    + rewrite <- LAST. apply (HP _ (g ++ [l ++ [it]]) (H ++ [(k, (v, ts))])); auto.
      * apply (uinv_loadable n). exact R2.
      * cbn [files snd]. rewrite R3. exact E1.
      * rewrite Eg, !nlen_app. reflexivity.
      * right. left. exact LM.
Qed.

(* reads *)
Lemma get_single_ok n s gi H k : UInv n s gi H ->
  get_single s k = enc_reply (get_reply (kget k (livem (flat 0 gi) H))).
Proof.
  intros U. pose proof (lookup_spec n s gi H k U) as L. unfold get_single.
  destruct (index_get s k) as [e|]; [|now rewrite L].
  destruct L as (x & v & L1 & L2 & L3 & -> & L5 & L6 & ->). destruct v as [k' [v t]].
  destruct L6 as (V1 & V2 & V3 & V4 & r & R1 & R2 & R3 & R4 & R5 & R6 & R7). cbn [fst snd] in *.
  cbn [entry_of e_off e_len e_dataid e_id]. rewrite V1, V2. rewrite <- R2 at 1.
  rewrite (data_get_at _ _ _ r _) by auto. reflexivity.
Qed.

Lemma args_validate_2 a k : blen a =? 0 = false ->
  args_validate [a; k] 2 = if blen k =? 0 then Some (hardsend "-Invalid argument") else None.
Proof.
  intros Ha. unfold args_validate, real_args_validate, argc. cbn [nlen].
  change (negb (N.succ (N.succ 0) =? 2)) with false. cbn iota. cbn [existsb]. rewrite Ha. cbn [orb].
  now destruct (blen k =? 0).
Qed.

Lemma read_command_ok a k c f fr m : blen a =? 0 = false ->
  f k = enc_reply (fr (kget k m)) ->
  read_command [a; k] c f = enc_reply (kv_read c k fr m).
Proof.
  intros Ha E. unfold read_command, kv_read. rewrite args_validate_2 by auto.
  unfold arg. cbn [nth]. destruct (blen k =? 0); [reflexivity|]. unfold MAX_KEY_LENGTH.
  destruct (255 <? blen k); [reflexivity|]. unfold is_frozen, NS_LOCK_READ_WRITE.
  destruct (n_lock c =? 2); [reflexivity|]. exact E.
Qed.

Lemma stamp_set k v ts now a : ots_ok ts ->
  timestamp_from_set (match ts with None => [a; k; v] | Some t => [a; k; v; dec t] end) 3 now = stamp ts now.
Proof.
  intros H. unfold timestamp_from_set, stamp, argc. destruct ts as [t|]; cbn [nlen].
  - change (N.succ (N.succ (N.succ (N.succ 0))) =? N.of_nat 3) with false. cbn iota.
    unfold arg. cbn [nth]. cbn [ots_ok] in H. rewrite atoll_dec by exact H. apply z_u32_of_N.
  - reflexivity.
Qed.

Lemma stamp_lt ts now : stamp ts now < 4294967296.
Proof. unfold stamp. change (2 ^ 32) with 4294967296. lia. Qed.

Lemma set_handler_eq argv now ex s : blen (arg 1 argv) =? 0 = false ->
  set_handler_userkey argv now ex s =
  if unchanged (dk s) ex (arg 2 argv) then (NIL, s)
  else write_kv s (arg 1 argv) (arg 2 argv) (timestamp_from_set argv 3 now) ex.
Proof. intros H. unfold set_handler_userkey. rewrite H. reflexivity. Qed.

(* files from which a restart finds one of the allowed maps *)
Definition crash_to (s : est) (gi : list (list item)) (H : list ver) (lose : option bytes) (m2 : kv) (fs : fsys) : Prop :=
  exists gi' H', loadable fs gi' H' /\ dext (dk_d (dk s)) (snd fs) /\ nlen gi' <= nlen gi + 1 /\
    cut_map lose (livem (flat 0 gi) H) m2 (livem (flat 0 gi') H').

Definition step_ok (n : N) (s : est) (gi : list (list item)) (H : list ver) (lose who : option bytes) (out : bytes * est) (spec : reply * kv) : Prop :=
  fst out = enc_reply (fst spec) /\
  cuts (crash_to s gi H lose (snd spec)) (dk s) (dk (snd out)) /\
  exists gi' H' X, UInv n (snd out) gi' H' /\ H' = H ++ X /\
    livem (flat 0 gi') H' = snd spec /\ tframe n (tb s) (tb (snd out)) /\
    dext (dk_d (dk s)) (dk_d (dk (snd out))) /\
    gmoved who (flat 0 gi) H (flat 0 gi') H' /\
    nlen gi <= nlen gi' /\ nlen gi' <= nlen gi + 1.

Lemma crash_none n s gi H lose m2 : UInv n s gi H -> crash_to s gi H lose m2 (files (dk s)).
Proof.
  intros U. exists gi, H. split; [now apply (uinv_loadable n)|]. split; [apply dext_refl|]. split; [lia|]. left. reflexivity.
Qed.

Lemma step_same n s gi H b r lose who : UInv n s gi H -> b = enc_reply r ->
  step_ok n s gi H lose who (b, s) (r, livem (flat 0 gi) H).
Proof.
  intros U E. split; auto. split; [apply cuts_refl; now apply (crash_none n)|]. exists gi, H, []. rewrite app_nil_r.
  split; [exact U|]. split; [reflexivity|]. split; [reflexivity|]. split; [apply tframe_refl|].
  split; [apply dext_refl|]. split; [left; auto|]. lia.
Qed.

(* the index file count stays within 32 bits *)
Definition files_lt (s : est) : Prop := nlen (dk_i (dk s)) < 4294967296.

Lemma nlen_files n s gi H : UInv n s gi H -> nlen (dk_i (dk s)) = nlen gi.
Proof. intros U. rewrite (fi_files _ _ _ _ (ui_f _ _ _ _ U)). apply nlen_enc_ifs. Qed.

Lemma kget_empty di dd gi H : FInv di dd gi H -> kget [] (livem (flat 0 gi) H) = None.
Proof.
  intros F. apply kget_none. rewrite livem_keys by (eapply ver_same; apply F).
  intros Hi. apply in_map_iff in Hi. destruct Hi as (x & Hx & Hi). apply filter_In in Hi. destruct Hi as [Hi _].
  destruct (loc_wf_in _ _ _ _ _ F Hi) as (_ & W & _). rewrite Hx in W. cbn [blen] in W. lia.
Qed.

Lemma blen_0 (k : bytes) : blen k = 0 -> k = [].
Proof. destruct k; auto. cbn [blen]. lia. Qed.

Lemma set_ok g n s gi H p now c k v ts :
  UInv n s gi H -> g_ok g -> blen v <= 8388608 -> ots_ok ts -> files_lt s ->
  step_ok n s gi H (Some k) (Some k) (command_set g p now (argv_of (QSet k v ts)) c s)
    (kv_set p now c (livem (flat 0 gi) H) k v ts).
Proof.
  intros U Hg Hv Hts Hfl. set (m := livem (flat 0 gi) H).
  assert (A : forall i, arg i (argv_of (QSet k v ts)) =
     match i with 0 => str "SET" | 1 => k | 2 => v | 3 => match ts with Some t => dec t | None => [] end | _ => [] end%nat).
  { intros i. destruct ts, i as [|[|[|[|[|i]]]]]; try reflexivity; destruct i; reflexivity. }
  unfold command_set, kv_set. rewrite !A.
  assert (EA : (if argc (argv_of (QSet k v ts)) =? 4 then admin_authorized p
       else args_validate_null (argv_of (QSet k v ts)) 3)
     = match ts, p_admin p with Some _, false => Some (hardsend "-Permission denied") | _, _ => None end).
  { destruct ts; reflexivity. }
  rewrite EA.
  assert (step_ok n s gi H (Some k) (Some k)
   (if MAX_KEY_LENGTH <? blen k then (hardsend "-Key too large", s)
      else if negb (p_writable p) then (hardsend "-Namespace is in read-only mode", s)
      else if is_frozen c then (error_frozen, s)
      else if is_locked c then (error_locked, s)
      else
        let existing := if blen k =? 0 then None else index_get s k in
        let floating := match existing with Some e => e_len e | None => 0 end in
        if (match existing with Some _ => n_worm c | None => false end)
        then (hardsend "-Namespace is protected by worm mode", s)
        else if negb (n_maxsize c =? 0)
                && (add64 (n_maxsize c) floating <? add64 (x_datasize (ix s)) (blen v))
        then (hardsend "-No space left on this namespace", s)
        else
          let s1 := if g_datasize g <? dsize (dk s) (d_dataid (dt s)) + blen v
                    then jump_next s else s in
          if x_mode (ix s) =? MODE_KV then set_handler_userkey (argv_of (QSet k v ts)) now existing s1
          else set_handler_sequential (argv_of (QSet k v ts)) now existing s1)
   (if 255 <? blen k then (RErr "Key too large", m)
      else if negb (p_writable p) then (err_readonly, m)
      else if n_lock c =? 2 then (err_frozen, m)
      else if negb (n_lock c =? 0) then (err_locked, m)
      else if (match kget k m with Some _ => n_worm c | None => false end)
      then (RErr "Namespace is protected by worm mode", m)
      else if over_quota (n_maxsize c) m k v then (RErr "No space left on this namespace", m)
      else if blen k =? 0 then (RErr "Invalid argument, key needed", m)
      else if (match kget k m with Some (v', _) => bseqb v' v | None => false end) then (RNil, m)
      else (RBulk k, kput k v (stamp ts now) m))) as MAIN.
  2:{ destruct ts as [t|]; [|exact MAIN]. destruct (p_admin p); [exact MAIN|]. apply step_same; auto. }
  unfold MAX_KEY_LENGTH, is_frozen, is_locked, NS_LOCK_READ_WRITE, NS_LOCK_UNLOCKED.
  destruct (N.ltb_spec 255 (blen k)) as [_|Hk]; [apply step_same; auto|].
  destruct (p_writable p); cbn [negb]; [|apply step_same; auto].
  destruct (n_lock c =? 2); [apply step_same; auto|].
  destruct (negb (n_lock c =? 0)); [apply step_same; auto|].
  set (ex := if blen k =? 0 then None else index_get s k). cbn zeta.
  assert (EX : match ex with
     | Some e => exists x w, In x (flat 0 gi) /\ live x = true /\ l_id x = k /\ e = entry_of n x /\
          ver_ok (dk_d (dk s)) x w /\ kget k m = Some (snd w) /\ e_len e = blen (fst (snd w))
     | None => kget k m = None end).
  { unfold ex. destruct (N.eqb_spec (blen k) 0) as [E|E].
    - apply blen_0 in E. subst k. eapply kget_empty. apply U.
    - pose proof (lookup_spec n s gi H k U) as L. destruct (index_get s k) as [e|]; [|exact L].
      destruct L as (x & w & L1 & L2 & L3 & L4 & L5 & L6 & L7).
      exists x, w. repeat (split; auto). rewrite L4. cbn [entry_of e_len]. apply L6. }
  assert (EW : match ex with Some _ => n_worm c | None => false end
             = match kget k m with Some _ => n_worm c | None => false end).
  { destruct ex as [e|]; [|now rewrite EX]. destruct EX as (x & w & _ & _ & _ & _ & _ & -> & _). reflexivity. }
  rewrite EW. destruct (match kget k m with Some _ => n_worm c | None => false end); [apply step_same; auto|].
  assert (EQ : negb (n_maxsize c =? 0)
     && (add64 (n_maxsize c) (match ex with Some e => e_len e | None => 0 end) <? add64 (x_datasize (ix s)) (blen v))
     = over_quota (n_maxsize c) m k v).
  { unfold over_quota. f_equal. rewrite (ui_dsz _ _ _ _ U), add64_u64.
    rewrite <- (ksize_livem (dk_d (dk s)) (flat 0 gi) H) by apply U. fold m.
    unfold oldlen, add64, u64. destruct ex as [e|].
    - destruct EX as (x & w & _ & _ & _ & _ & _ & -> & ->). destruct w as [? [? ?]]. reflexivity.
    - rewrite EX. reflexivity. }
  rewrite EQ. destruct (over_quota (n_maxsize c) m k v); [apply step_same; auto|].
  rewrite (ui_mode _ _ _ _ U), N.eqb_refl.
  set (s1 := if g_datasize g <? dsize (dk s) (d_dataid (dt s)) + blen v then jump_next s else s).
  assert (S1 : exists gi1, UInv n s1 gi1 H /\ flat 0 gi1 = flat 0 gi /\ tb s1 = tb s /\
     dext (dk_d (dk s)) (dk_d (dk s1)) /\ dsize (dk s1) (d_dataid (dt s1)) <= 2 ^ 31 /\
     nlen gi <= nlen gi1 /\ nlen gi1 <= nlen gi + 1 /\
     forall m2, cuts (crash_to s gi H (Some k) m2) (dk s) (dk s1)).
  { unfold s1. destruct Hg as [_ Hg]. change (2 ^ 31) with 2147483648 in *.
    destruct (N.ltb_spec (g_datasize g) (dsize (dk s) (d_dataid (dt s)) + blen v)) as [Hj|Hj].
    - unfold files_lt in Hfl. rewrite (nlen_files _ _ _ _ U) in Hfl.
      destruct (uinv_jump n s gi H U Hfl) as (J1 & J2 & J3 & J4 & J5 & J6).
      exists (gi ++ [[]]). rewrite flat_jump. split; [exact J1|]. split; [reflexivity|]. split; [exact J2|].
      split; [exact J3|]. split; [rewrite J5, J6; lia|]. split; [rewrite nlen_app; cbn [nlen]; lia|].
      split; [rewrite nlen_app; cbn [nlen]; lia|]. intros m2. apply (jump_cuts n s gi H _ U Hfl).
      intros fs gi' L FE NE DE. exists gi', H. split; [exact L|]. split; [exact DE|]. split; [exact NE|]. left. now rewrite FE.
    - exists gi. split; [exact U|]. split; [reflexivity|]. split; [reflexivity|]. split; [apply dext_refl|].
      split; [lia|]. split; [lia|]. split; [lia|]. intros m2. apply cuts_refl. now apply (crash_none n). }
  destruct S1 as (gi1 & U1 & F1 & T1 & D1 & Z1 & N1 & N2 & C1).
  assert (STAY : forall b r, b = enc_reply r -> step_ok n s gi H (Some k) (Some k) (b, s1) (r, m)).
  { intros b r E. split; auto. split; [apply C1|]. exists gi1, H, []. rewrite app_nil_r. cbn [snd].
    split; [exact U1|]. split; [reflexivity|]. split; [unfold m; now rewrite F1|].
    split; [rewrite T1; apply tframe_refl|]. split; [exact D1|]. split; [left; auto|]. lia. }
  destruct (N.eqb_spec (blen k) 0) as [E0|E0].
  { unfold set_handler_userkey. rewrite A, E0. cbn. apply STAY. reflexivity. }
  rewrite set_handler_eq by (rewrite A; now apply N.eqb_neq). rewrite !A.
  assert (EU : unchanged (dk s1) ex v = match kget k m with Some (v', _) => bseqb v' v | None => false end).
  { destruct ex as [e|]; [|now rewrite EX].
    destruct EX as (x & w & X1 & X2 & X3 & -> & X5 & -> & X7). rewrite (unchanged_spec n _ x w).
    - now destruct w as [? [? ?]].
    - eapply loc_wf_in; eauto. apply U.
    - eapply ver_ok_ext; eauto. }
  rewrite EU. destruct (match kget k m with Some (v', _) => bseqb v' v | None => false end) eqn:Same.
  { apply STAY. reflexivity. }
  replace (timestamp_from_set (argv_of (QSet k v ts)) 3 now) with (stamp ts now)
    by (symmetry; destruct ts; apply (stamp_set k v _ now (str "SET") Hts)).
  destruct (write_kv_ok n s1 gi1 H k v (stamp ts now) ex) as (s2 & gi2 & R1 & R2 & R3 & R3b & R4 & R5 & R6 & R7); auto; try lia.
  - unfold ex_ok. rewrite F1. destruct ex as [e|]; [|exact EX].
    destruct EX as (x & w & X1 & X2 & X3 & X4 & _). exists x. auto.
  - apply stamp_lt.
  - rewrite F1. fold m. intros w Ew. rewrite Ew in Same. destruct w as [v' t']. cbn [fst]. intros ->. rewrite bseqb_refl in Same. discriminate.
  - rewrite R1. split; [reflexivity|]. split.
    { eapply cuts_trans; [apply C1|]. cbn [snd]. apply R7. intros fs gi' H' L DE NE CM. exists gi', H'.
      split; [exact L|]. split; [eapply dext_trans; eauto|]. split; [lia|]. rewrite F1 in CM. exact CM. }
    exists gi2, (H ++ [(k, (v, stamp ts now))]), [(k, (v, stamp ts now))].
    cbn [snd]. split; [exact R2|]. split; [reflexivity|]. split; [rewrite R4, F1; reflexivity|].
    split; [rewrite <- T1; exact R5|]. split; [eapply dext_trans; eauto|].
    split; [right; exists k; split; [reflexivity|]; rewrite <- F1; exact R3b|]. lia.
Qed.

Lemma del_ok n s gi H p now c k ts :
  UInv n s gi H -> ots_ok ts ->
  step_ok n s gi H None (Some k) (command_del p now (argv_of (QDel k ts)) c s)
    (kv_del p c (livem (flat 0 gi) H) k ts).
Proof.
  intros U Hts. set (m := livem (flat 0 gi) H).
  assert (A : arg 1 (argv_of (QDel k ts)) = k) by (destruct ts; reflexivity).
  unfold command_del, kv_del. rewrite !A.
  assert (step_ok n s gi H None (Some k)
   (if MAX_KEY_LENGTH <? blen k then (hardsend "-Invalid key", s)
      else if negb (p_writable p) then (hardsend "-Namespace is in read-only mode", s)
      else if is_frozen c then (error_frozen, s)
      else if is_locked c then (error_locked, s)
      else
        match index_get s k with
        | None => (hardsend "-Key not found", s)
        | Some e =>
            if n_worm c then (hardsend "-Cannot delete a key when namespace is in worm mode", s)
            else
              let ts := timestamp_from_set (argv_of (QDel k ts)) 2 now in
              let '(ok, s1) := data_delete s (e_id e) ts in
              if ok then
                let '(ok2, s2) := index_entry_delete s1 e in
                if ok2 then (hardsend "+OK", s2) else (hardsend "-Cannot delete key (index)", s2)
              else (hardsend "-Cannot delete key (data)", s1)
        end)
   (if 255 <? blen k then (RErr "Invalid key", m)
      else if negb (p_writable p) then (err_readonly, m)
      else if n_lock c =? 2 then (err_frozen, m)
      else if negb (n_lock c =? 0) then (err_locked, m)
      else match kget k m with
           | None => (RErr "Key not found", m)
           | Some _ => if n_worm c then (RErr "Cannot delete a key when namespace is in worm mode", m)
                       else (ROk, kdel k m)
           end)) as MAIN.
  { unfold MAX_KEY_LENGTH, is_frozen, is_locked, NS_LOCK_READ_WRITE, NS_LOCK_UNLOCKED.
    destruct (N.ltb_spec 255 (blen k)) as [_|Hk]; [apply step_same; auto|].
    destruct (p_writable p); cbn [negb]; [|apply step_same; auto].
    destruct (n_lock c =? 2); [apply step_same; auto|].
    destruct (negb (n_lock c =? 0)); [apply step_same; auto|].
    pose proof (lookup_spec n s gi H k U) as L. destruct (index_get s k) as [e|].
    2:{ fold m in L. rewrite L. apply step_same; auto. }
    destruct L as (x & w & L1 & L2 & L3 & -> & L5 & L6 & L7). fold m in L7. rewrite L7.
    destruct (n_worm c); [apply step_same; auto|].
    destruct (uinv_cur _ _ _ _ U) as (file & Hf & Hl).
    cbn zeta. unfold data_delete. set (q := mkDreq _ _ _ _ _).
    destruct (uinv_data n s gi H q file U Hf) as (D1 & U1 & E1). rewrite D1.
    destruct (N.eqb_spec (blen file) 0) as [X|_]; [lia|]. cbn [negb].
    destruct (uinv_index_delete n _ gi H x k U1 L1 L2 L3) as (s2 & gi2 & R1 & R2 & R3 & R4 & R5 & R6 & R7 & R8).
    rewrite R1. split; [reflexivity|]. split.
    { cbn [snd]. eapply cuts_trans.
      - apply (data_cuts n s gi H q file _ U Hf). intros fs L _ D. exists gi, H.
        split; [exact L|]. split; [exact D|]. split; [lia|]. left. reflexivity.
      - destruct R4 as (g1 & l1 & l2 & g2 & A' & B' & Q1 & Q2 & Q3 & Q4 & _).
        eexists. split; [exact R8|]. split; [repeat constructor|].
        assert (FW : flag_write x = WrI (nlen g1) (29 + isz l1) (enc_item (flag (l_it x)))) by (unfold flag_write; congruence).
        rewrite FW. set (dd1 := dk_d (dk (after_data s file q))) in *.
        assert (FS : files (dk (after_data s file q)) = (enc_ifs MODE_KV 0 (g1 ++ (l1 ++ l_it x :: l2) :: g2), dd1)).
        { unfold files. f_equal. rewrite <- Q1. apply U1. }
        assert (LAST : files (dk s2) = (enc_ifs MODE_KV 0 (g1 ++ (l1 ++ flag (l_it x) :: l2) :: g2), dd1)).
        { unfold files. rewrite R6, <- Q4. f_equal. apply (ui_f _ _ _ _ R2). }
        split.
        { rewrite FS, !apply_writes_cons. cbn [apply_write fst snd]. rewrite wrfile_over by reflexivity. exact LAST. }
        intros V C. apply (flag_cuts _ _ _ _ _ _ _ _ _ _ FS) in C. destruct C as [->|(V1 & C1 & ->)].
        + exists gi, H. split; [apply (uinv_loadable n); exact U1|]. split; [exact E1|]. split; [lia|]. left. reflexivity.
        + inversion C1; subst. cbn [apply_writes fold_left]. rewrite <- LAST.
          eexists; exists H. split; [apply (uinv_loadable n); exact R2|]. split; [cbn [files snd]; rewrite R6; exact E1|].
          split; [lia|]. right. left. exact R5. }
    exists gi2, H, []. rewrite app_nil_r. cbn [snd].
    split; [exact R2|]. split; [reflexivity|]. split; [exact R5|]. split; [exact R7|].
    split; [rewrite R6; exact E1|]. split; [|lia]. right. exists k. split; [reflexivity|].
    destruct R4 as (g1 & l1 & l2 & g2 & A' & B' & _ & _ & _ & _ & Q5 & Q6). rewrite Q5, Q6. now apply gm_flag. }
  destruct ts as [t|].
  - change (argc (argv_of (QDel k (Some t))) =? 3) with true. cbn iota. unfold admin_authorized.
    destruct (p_admin p); [exact MAIN|apply step_same; auto].
  - change (argc (argv_of (QDel k None)) =? 3) with false. cbn iota. cbn [argv_of].
    rewrite args_validate_2 by reflexivity. destruct (N.eqb_spec (blen k) 0) as [E|E].
    + rewrite E. apply step_same; auto.
    + destruct (blen k) eqn:EB; [lia|]. rewrite <- EB in *. exact MAIN.
Qed.

Lemma mget_concat n s gi H ks : UInv n s gi H ->
  List.concat (map (get_single s) ks) =
  (fix go l := match l with [] => [] | r :: t => enc_reply r ++ go t end)
    (map (fun k => get_reply (kget k (livem (flat 0 gi) H))) ks).
Proof.
  intros U. induction ks as [|k ks IH]; cbn [map List.concat]; auto.
  rewrite IH, (get_single_ok n s gi H k U). reflexivity.
Qed.

Lemma nlen_map {A B} (f : A -> B) l : nlen (map f l) = nlen l.
Proof. rewrite !nlen_length, map_length. reflexivity. Qed.

Lemma req_ok g n s gi H p now q c :
  UInv n s gi H -> g_ok g -> req_wf q -> files_lt s ->
  step_ok n s gi H (match q with QSet k _ _ => Some k | _ => None end)
    (match q with QSet k _ _ | QDel k _ => Some k | _ => None end) (run_req g p now q c s) (kv_step p now c q (livem (flat 0 gi) H)).
Proof.
  intros U Hg Hq Hfl. destruct q as [k v ts|k ts|k|ks|k|k|k|k| |]; cbn [run_req kv_step req_wf] in *.
  - destruct Hq. apply set_ok; auto.
  - apply del_ok; auto.
  - apply step_same; auto. unfold command_get. cbn [argv_of].
    apply read_command_ok; [reflexivity|]. now apply (get_single_ok n).
  - apply step_same; auto. unfold command_mget, argc. cbn [argv_of nlen tl].
    destruct (N.eqb_spec (nlen ks) 0) as [E|E].
    + rewrite E. reflexivity.
    + destruct (N.ltb_spec (N.succ (nlen ks)) 2) as [X|_]; [lia|].
      unfold MAX_KEY_LENGTH. destruct (existsb _ ks); [reflexivity|].
      unfold is_frozen, NS_LOCK_READ_WRITE. destruct (n_lock c =? 2); [reflexivity|].
      cbn [enc_reply]. rewrite (mget_concat n s gi H) by auto.
      unfold arrayhdr. rewrite nlen_map, <- !app_assoc. replace (N.succ (nlen ks) - 1) with (nlen ks) by lia. reflexivity.
  - apply step_same; auto. unfold command_exists. cbn [argv_of]. apply read_command_ok; [reflexivity|].
    pose proof (lookup_spec n s gi H k U) as L. destruct (index_get s k) as [e|].
    + destruct L as (x & w & _ & _ & _ & _ & _ & _ & ->). reflexivity.
    + now rewrite L.
  - apply step_same; auto. unfold command_check. cbn [argv_of]. apply read_command_ok; [reflexivity|].
    pose proof (lookup_spec n s gi H k U) as L. destruct (index_get s k) as [e|]; [|now rewrite L].
    destruct L as (x & w & _ & _ & _ & -> & _ & L6 & ->).
    destruct L6 as (V1 & V2 & V3 & V4 & r & R1 & R2 & R3 & R4 & R5 & R6 & R7).
    cbn [entry_of e_off e_dataid]. rewrite (data_check_at _ _ _ r (fst (snd w))) by auto.
    rewrite R4, N.eqb_refl. reflexivity.
  - apply step_same; auto. unfold command_length. cbn [argv_of]. apply read_command_ok; [reflexivity|].
    pose proof (lookup_spec n s gi H k U) as L. destruct (index_get s k) as [e|]; [|now rewrite L].
    destruct L as (x & w & _ & _ & _ & -> & _ & L6 & ->). destruct L6 as (_ & V2 & _).
    cbn [entry_of e_len]. rewrite V2. now destruct w as [? [? ?]].
  - apply step_same; auto. unfold command_keytime. cbn [argv_of]. apply read_command_ok; [reflexivity|].
    pose proof (lookup_spec n s gi H k U) as L. destruct (index_get s k) as [e|]; [|now rewrite L].
    destruct L as (x & w & _ & _ & _ & -> & _ & L6 & ->). destruct L6 as (_ & _ & _ & V4 & _).
    cbn [entry_of e_ts]. rewrite V4. now destruct w as [? [? ?]].
  - unfold command_nsjump, admin_authorized. destruct (p_admin p); [|apply step_same; auto].
    unfold files_lt in Hfl. rewrite (nlen_files _ _ _ _ U) in Hfl.
    destruct (uinv_jump n s gi H U Hfl) as (J1 & J2 & J3 & J4 & J5 & J6).
    split; [reflexivity|]. split.
    { apply (jump_cuts n s gi H _ U Hfl). intros fs gi' L FE NE DE. exists gi', H.
      split; [exact L|]. split; [exact DE|]. split; [exact NE|]. left. now rewrite FE. }
    exists (gi ++ [[]]), H, []. rewrite app_nil_r, flat_jump. cbn [snd].
    split; [exact J1|]. split; [reflexivity|]. split; [reflexivity|]. split; [rewrite J2; apply tframe_refl|].
    split; [exact J3|]. split; [left; auto|]. rewrite nlen_app. cbn [nlen]. lia.
  - apply step_same; auto. unfold command_dbsize. rewrite (ui_cnt _ _ _ _ U).
    rewrite <- (kcount_livem (flat 0 gi) H) by (eapply forall2_length; apply U). reflexivity.
Qed.
