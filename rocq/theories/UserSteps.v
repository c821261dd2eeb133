(* The invariant is kept by each elementary change: data appended, record flagged,
   record appended, jump to the next file. *)
From Coq Require Import List NArith ZArith Bool Strings.Byte Lia ZifyBool ZifyN ZifyNat.
From Verif Require Import Bytes BytesFacts Crc32 Crc32Facts Layout LayoutFacts Store Commands SpecKV
  Ghost DataFacts TableFacts CheckFacts UserInv.
Import ListNotations.
Open Scope N_scope.
Ltac Zify.zify_post_hook ::= Z.div_mod_to_equations.

(* ---- files ---- *)
Lemma room_ext dd dd' f : dext dd dd' -> room dd f <= room dd' f.
Proof.
  intros E. unfold room. destruct (nget f dd) as [file|] eqn:F; [|lia].
  destruct (E _ _ F) as (x & ->). rewrite blen_app. lia.
Qed.

Lemma finv_dext di dd dd' gi H : FInv di dd gi H -> dext dd dd' -> FInv di dd' gi H.
Proof.
  intros [F1 F2 F3 F4 F5 F6 F7] E. constructor; auto.
  - clear - F5 E. induction F5; constructor; auto. eapply ver_ok_ext; eauto.
  - intros g l Hg. specialize (F7 g l Hg). pose proof (room_ext dd dd' (nlen g) E). lia.
Qed.

Lemma finv_jump di dd gi H : FInv di dd gi H -> nlen gi < 4294967296 ->
  FInv (enc_ifs MODE_KV 0 (gi ++ [[]])) dd (gi ++ [[]]) H.
Proof.
  intros [F1 F2 F3 F4 F5 F6 F7] Hn. constructor; rewrite ?flat_jump; auto.
  - rewrite nlen_app. cbn [nlen]. lia.
  - intros g l Hg. apply app_inj_tail in Hg. destruct Hg as [<- <-]. cbn [isz]. lia.
Qed.

Lemma snoc_case {A} (g1 : list A) y g2 g l : g1 ++ y :: g2 = g ++ [l] ->
  (g2 = [] /\ g = g1 /\ l = y) \/ (exists g2', g2 = g2' ++ [l] /\ g = g1 ++ y :: g2').
Proof.
  intros E. destruct (exists_last (l := y :: g2)) as (h & z & Hz); [discriminate|].
  rewrite Hz, app_assoc in E. apply app_inj_tail in E. destruct E as [E ->].
  destruct h as [|y' h].
  - cbn [app] in Hz. injection Hz as -> ->. left. rewrite app_nil_r in E. auto.
  - cbn [app] in Hz. injection Hz as <- ->. right. exists h. auto.
Qed.

Lemma isz_flag l1 it l2 : isz (l1 ++ flag it :: l2) = isz (l1 ++ it :: l2).
Proof. rewrite !isz_app. reflexivity. Qed.

Lemma nlen_mid {A} (a : list A) x y b : nlen (a ++ x :: b) = nlen (a ++ y :: b).
Proof. rewrite !nlen_app. reflexivity. Qed.

Lemma cur_flag g1 l1 it l2 g2 g l : g1 ++ (l1 ++ it :: l2) :: g2 = g ++ [l] ->
  exists g' l', g1 ++ (l1 ++ flag it :: l2) :: g2 = g' ++ [l'] /\ nlen g' = nlen g /\ isz l' = isz l.
Proof.
  intros E. apply snoc_case in E. destruct E as [(-> & -> & ->)|(g2' & -> & ->)].
  - exists g1, (l1 ++ flag it :: l2). repeat split; auto. apply isz_flag.
  - exists (g1 ++ (l1 ++ flag it :: l2) :: g2'), l. rewrite <- app_assoc. repeat split; auto.
    apply nlen_mid.
Qed.

Lemma live_flag f o it : live (f, o, flag it) = false.
Proof. unfold live. cbn [l_it snd]. now rewrite flag_deleted. Qed.

Lemma finv_flag di dd g1 l1 it l2 g2 H A B :
  FInv di dd (g1 ++ (l1 ++ it :: l2) :: g2) H ->
  flat 0 (g1 ++ (l1 ++ it :: l2) :: g2) = A ++ (nlen g1, 29 + isz l1, it) :: B ->
  flat 0 (g1 ++ (l1 ++ flag it :: l2) :: g2) = A ++ (nlen g1, 29 + isz l1, flag it) :: B ->
  FInv (enc_ifs MODE_KV 0 (g1 ++ (l1 ++ flag it :: l2) :: g2)) dd (g1 ++ (l1 ++ flag it :: l2) :: g2) H.
Proof.
  intros [F1 F2 F3 F4 F5 F6 F7] EA EB. rewrite EA in *. constructor; rewrite ?EB; auto.
  - rewrite (nlen_mid _ _ (l1 ++ it :: l2)). auto.
  - apply Forall_app in F3. destruct F3 as [FA FB]. inversion FB as [|? ? Fx FB']; subst.
    apply Forall_app. split; auto. constructor; auto. destruct Fx as (W & W2 & W3).
    split; [now apply flag_wf|]. split; auto.
  - eapply live_last_flag; eauto. apply live_flag.
  - apply Forall2_app_inv_l in F5. destruct F5 as (HA & HB & FA & FB & ->).
    inversion FB as [|? v ? HB' Hv FB']; subst. apply Forall2_app; auto.
  - eapply chain_flag; [| |eauto]; reflexivity.
  - intros g l Hg. destruct (snoc_case _ _ _ _ _ Hg) as [(-> & -> & ->)|(g2' & -> & ->)].
    + rewrite isz_flag. apply F7. reflexivity.
    + rewrite (nlen_mid _ _ (l1 ++ it :: l2)). apply F7. now rewrite <- app_assoc.
Qed.

Lemma finv_append di dd g l H it v :
  FInv di dd (g ++ [l]) H ->
  (forall x, In x (flat 0 (g ++ [l])) -> live x = true -> l_id x <> it_id it) ->
  loc_wf (nlen g, 29 + isz l, it) ->
  ver_ok dd (nlen g, 29 + isz l, it) v ->
  it_prev it = last_off 0 (flat 0 (g ++ [l])) ->
  18 * (isz l + itsz it) <= 34 * room dd (nlen g) ->
  FInv (enc_ifs MODE_KV 0 (g ++ [l ++ [it]])) dd (g ++ [l ++ [it]]) (H ++ [v]).
Proof.
  intros [F1 F2 F3 F4 F5 F6 F7] Hk W V P R.
  constructor; rewrite ?flat_snoc; change (0 + nlen g) with (nlen g); auto.
  - rewrite nlen_app in *. exact F2.
  - apply Forall_app. split; auto.
  - apply live_last_snoc; auto.
  - apply Forall2_app; auto.
  - rewrite chain_app. cbn [chain l_it snd]. auto.
  - intros g' l' Hg. apply app_inj_tail in Hg. destruct Hg as [<- <-]. rewrite isz_app. cbn [isz]. lia.
Qed.

Lemma last_off_lt G p : p < 4294967296 -> Forall loc_wf G -> last_off p G < 4294967296.
Proof.
  intros Hp F. revert p Hp. induction F as [|x G Hx F IH]; cbn [last_off]; auto.
  intros. apply IH. apply Hx.
Qed.

(* ---- jump ---- *)
Definition jump_writes (m f : N) : list dwrite :=
  [MkI f; WrI f 0 (index_header f m); MkD f; WrD f 0 (data_header f)].

Definition jump_ix (f : N) (x : index) : index :=
  index_seqid_push (x_nextentry x) f
    (x_set_updated false (index_set_id f (x_set_next (x_nextentry x) 0 x))).

Lemma jump_ok m s gi : dk_i (dk s) = enc_ifs m 0 gi -> x_mode (ix s) = m ->
  x_indexid (ix s) + 1 = nlen gi -> nlen gi < 4294967296 -> nlen (dk_d (dk s)) = nlen gi ->
  jump_next s =
    mkEst (tb s) (jump_ix (nlen gi) (ix s)) (mkData (nlen gi) (d_prev (dt s)))
      (mkDisk (enc_ifs m 0 (gi ++ [[]])) (dk_d (dk s) ++ [data_header (nlen gi)])
         (dk_log (dk s) ++ jump_writes m (nlen gi)) (dk_io (dk s))).
Proof.
  intros Hi Hm Hx Hn Hd. unfold jump_next, index_jump_next. rewrite Hx, u32_small by auto.
  assert (Sx : x_mode (index_set_id (nlen gi) (x_set_next (x_nextentry (ix s)) 0 (ix s))) = m).
  { unfold index_set_id. destruct (dirty_resize_shape (nlen gi)
      (x_set_indexid (nlen gi) (x_set_next (x_nextentry (ix s)) 0 (ix s)))) as (a & b & ->). exact Hm. }
  assert (Sn : x_nextentry (x_set_updated false (index_set_id (nlen gi) (x_set_next (x_nextentry (ix s)) 0 (ix s))))
    = x_nextentry (ix s)).
  { unfold index_set_id. destruct (dirty_resize_shape (nlen gi)
      (x_set_indexid (nlen gi) (x_set_next (x_nextentry (ix s)) 0 (ix s)))) as (a & b & ->). reflexivity. }
  assert (Si : x_indexid (jump_ix (nlen gi) (ix s)) = nlen gi).
  { unfold jump_ix, index_set_id, index_seqid_push. destruct (dirty_resize_shape (nlen gi)
      (x_set_indexid (nlen gi) (x_set_next (x_nextentry (ix s)) 0 (ix s)))) as (a & b & ->).
    cbn [x_set_updated x_set_dirty x_seq]. now destruct (x_seq _). }
  cbn zeta. rewrite Sx, Sn. fold (jump_ix (nlen gi) (ix s)).
  unfold data_jump_next, set_dk, set_ix, set_dt. cbn [ix tb dt dk]. rewrite Si.
  assert (E1 : do_write (MkI (nlen gi)) (dk s)
    = mkDisk (enc_ifs m 0 gi ++ [[]]) (dk_d (dk s)) (dk_log (dk s) ++ [MkI (nlen gi)]) (dk_io (dk s))).
  { unfold do_write. cbn [apply_write fst snd]. unfold mkfile. rewrite Hi, nlen_enc_ifs, N.eqb_refl. reflexivity. }
  rewrite E1. unfold isize, ifile. cbn [dk_i].
  assert (G1 : forall b, nget (nlen gi) (enc_ifs m 0 gi ++ [b]) = Some b).
  { intros b. rewrite <- (nlen_enc_ifs m 0 gi) at 1. apply nget_app_r. }
  rewrite G1. cbn [blen].
  assert (E2 : do_write (WrI (nlen gi) 0 (index_header (nlen gi) m))
      (mkDisk (enc_ifs m 0 gi ++ [[]]) (dk_d (dk s)) (dk_log (dk s) ++ [MkI (nlen gi)]) (dk_io (dk s)))
    = mkDisk (enc_ifs m 0 (gi ++ [[]])) (dk_d (dk s))
       ((dk_log (dk s) ++ [MkI (nlen gi)]) ++ [WrI (nlen gi) 0 (index_header (nlen gi) m)]) (dk_io (dk s))).
  { unfold do_write. cbn [apply_write fst snd dk_i dk_d dk_log dk_io]. unfold wrfile. rewrite G1.
    change (fwrite [] 0) with (fwrite [] (blen [])). rewrite fwrite_end. cbn [app].
    rewrite <- (nlen_enc_ifs m 0 gi) at 1. rewrite nset_app_r.
    rewrite enc_ifs_app. cbn [enc_ifs]. unfold enc_if, enc_items. cbn [map concat].
    rewrite app_nil_r. reflexivity. }
  rewrite E2. rewrite data_init_disk_new by (cbn [dk_d]; auto). cbn [dk_i dk_d dk_log dk_io].
  unfold data_open_final, dfile. cbn [dk_d].
  assert (G2 : nget (nlen gi) (dk_d (dk s) ++ [data_header (nlen gi)]) = Some (data_header (nlen gi)))
    by (rewrite <- Hd; apply nget_app_r).
  rewrite G2.
  assert (L : forall k, data_find_last k (data_header (nlen gi)) 28 (d_prev (dt s)) = d_prev (dt s)).
  { intros [|k]; cbn [data_find_last]; [reflexivity|].
    rewrite fread_eof by (rewrite blen_data_header; lia). reflexivity. }
  rewrite L. unfold jump_writes. rewrite <- !app_assoc. reflexivity.
Qed.

Lemma jump_ix_fields f x :
  let y := jump_ix f x in
  x_ns y = x_ns x /\ x_mode y = x_mode x /\ x_indexid y = f /\ x_prev y = x_prev x /\ x_nextentry y = x_nextentry x /\
  x_entries y = x_entries x /\ x_datasize y = x_datasize x /\ x_size y = x_size x.
Proof.
  cbn zeta. unfold jump_ix, index_set_id, index_seqid_push.
  destruct (dirty_resize_shape f (x_set_indexid f (x_set_next (x_nextentry x) 0 x))) as (a & b & ->).
  cbn [x_set_updated x_set_dirty x_set_indexid x_set_next x_seq]. destruct (x_seq x); cbn; auto 10.
Qed.

Lemma uinv_jump n s gi H : UInv n s gi H -> nlen gi < 4294967296 ->
  UInv n (jump_next s) (gi ++ [[]]) H /\ tb (jump_next s) = tb s /\
  dext (dk_d (dk s)) (dk_d (dk (jump_next s))) /\
  dk_log (dk (jump_next s)) = dk_log (dk s) ++ jump_writes MODE_KV (nlen gi) /\
  d_dataid (dt (jump_next s)) = nlen gi /\ dsize (dk (jump_next s)) (nlen gi) = 28.
Proof.
  intros U Hn. pose proof (ui_f _ _ _ _ U) as F.
  rewrite (jump_ok MODE_KV s gi); [| apply F | apply U | apply U | auto | apply U].
  destruct (jump_ix_fields (nlen gi) (ix s)) as (J1&J2&J3&J4&J5&J6&J7&J8).
  pose proof (dext_snoc (dk_d (dk s)) (data_header (nlen gi))) as E.
  destruct U as [U1 U2 U3 U4 U5 U6 U7 U8 U9 U10 U11 U12 U13 U14 U15].
  split; [|split; [|split; [|split; [|split]]]].
  - constructor; cbn [tb ix dt dk dk_i dk_d dk_log dk_io d_dataid]; rewrite ?flat_jump; try congruence.
    + eapply finv_dext; [|exact E]. eapply finv_jump; eauto.
    + rewrite J3. intros. lia.
    + rewrite J3, nlen_app. reflexivity.
    + rewrite !nlen_app. cbn [nlen]. rewrite U8. reflexivity.
    + rewrite <- U8. now apply dhdr_ok_snoc.
  - reflexivity.
  - exact E.
  - reflexivity.
  - reflexivity.
  - unfold dsize, dfile. cbn [dk dk_d]. rewrite <- U8, nget_app_r. apply blen_data_header.
Qed.

(* ---- data appended ---- *)
Lemma uinv_cur n s gi H : UInv n s gi H ->
  exists file, nget (d_dataid (dt s)) (dk_d (dk s)) = Some file /\ 28 <= blen file.
Proof.
  intros U. destruct (nget_Some (d_dataid (dt s)) (dk_d (dk s))) as (file & Hf).
  { rewrite (ui_did _ _ _ _ U), (ui_dn _ _ _ _ U), <- (ui_id _ _ _ _ U). lia. }
  exists file. split; auto. destruct (ui_dhdr _ _ _ _ U _ _ Hf) as (r & ->).
  rewrite blen_app, blen_data_header. lia.
Qed.

Definition after_data (s : est) (file : bytes) (q : dreq) : est :=
  mkEst (tb s) (ix s) (mkData (d_dataid (dt s)) (blen file)) (ins_disk s file q).

Lemma uinv_data n s gi H q file : UInv n s gi H -> nget (d_dataid (dt s)) (dk_d (dk s)) = Some file ->
  data_insert s q = (blen file, after_data s file q) /\ UInv n (after_data s file q) gi H /\
  dext (dk_d (dk s)) (dk_d (dk (after_data s file q))).
Proof.
  intros U Hf. pose proof (dext_insert s q file Hf) as E. split; [|split; auto].
  - apply data_insert_ok; auto. apply U.
  - destruct U as [U1 U2 U3 U4 U5 U6 U7 U8 U9 U10 U11 U12 U13 U14 U15].
    constructor; cbn [after_data tb ix dt dk ins_disk dk_i dk_d dk_log dk_io d_dataid]; auto.
    + eapply finv_dext; [exact U1|exact E].
    + now rewrite nlen_nset.
    + eapply dhdr_ok_ext; [exact U9| |]; [exact E|]. cbn [ins_disk dk_d]. now rewrite nlen_nset.
Qed.

(* ---- record appended ---- *)
Definition new_item (s : est) (k : bytes) (off len crc dataid ts pid poff : N) : item :=
  mkItem (blen k) off len (x_prev (ix s)) 0 dataid ts crc pid poff k.

Lemma not_live_of_none G H k : Forall2 same_id G H -> kget k (livem G H) = None ->
  forall x, In x G -> live x = true -> l_id x <> k.
Proof.
  intros F Hg x Hx L E. apply kget_none in Hg. apply Hg. rewrite livem_keys by auto.
  rewrite <- E. apply in_map. now apply filter_In.
Qed.

(* what data_insert left for the index to refer to *)
Definition data_ready (dd : list bytes) (f off : N) (k v : bytes) (ts : N) : Prop :=
  exists r, drec_wf r /\ dr_id r = k /\ dr_datalen r = blen v /\
    dr_crc r = zdb_crc32 v /\ dr_flags r = 0 /\ dr_ts r = ts /\ data_at dd f off r v.

Lemma uinv_index_insert n s g l H k v ts off did :
  UInv n s (g ++ [l]) H -> kget k (livem (flat 0 (g ++ [l])) H) = None ->
  0 < blen k -> blen k <= 255 -> blen v < 4294967296 -> ts < 4294967296 ->
  off < 4294967296 -> did < 4294967296 -> 29 + isz l < 4294967296 ->
  data_ready (dk_d (dk s)) (nlen g) off k v ts ->
  18 * (isz l + (34 + blen k)) <= 34 * room (dk_d (dk s)) (nlen g) ->
  let it := new_item s k off (blen v) (zdb_crc32 v) did ts 0 0 in
  exists e s2,
    index_set s k (idxreq off (blen v) (zdb_crc32 v) did ts) None = (Some e, s2) /\
    UInv n s2 (g ++ [l ++ [it]]) (H ++ [(k, (v, ts))]) /\
    dk_d (dk s2) = dk_d (dk s) /\ tframe n (tb s) (tb s2) /\
    dk_log (dk s2) = dk_log (dk s) ++ [WrI (nlen g) (29 + isz l) (enc_item it)].
Proof.
  intros U Hk K1 K2 Hv Hts Hoff Hdid Hsz (r & R1 & R2 & R3 & R4 & R5 & R6 & R7) Hroom it.
  pose proof (ui_f _ _ _ _ U) as F.
  assert (Hx : x_indexid (ix s) = nlen g).
  { pose proof (ui_id _ _ _ _ U) as X. rewrite nlen_app in X. cbn [nlen] in X. lia. }
  assert (Hg : nlen g < 4294967296).
  { pose proof (fi_small _ _ _ _ F) as X. rewrite nlen_app in X. cbn [nlen] in X. lia. }
  assert (Hprev : x_prev (ix s) < 4294967296).
  { rewrite (ui_prev _ _ _ _ U). apply last_off_lt; [lia|apply F]. }
  assert (NL : forall x, In x (flat 0 (g ++ [l])) -> live x = true -> l_id x <> k).
  { apply not_live_of_none with H; auto. eapply ver_same. apply F. }
  pose proof (zdb_crc32_W32 v) as Hcrc. pose proof (uinv_next _ _ _ _ U) as Hne.
  unfold index_set. rewrite (ui_mode _ _ _ _ U), N.eqb_refl. unfold index_insert_entry_memkey.
  rewrite (index_append_ok MODE_KV s k _ g l); [| apply F | apply U | exact Hx].
  unfold idxreq. rewrite !u32_small by lia. cbn zeta.
  unfold e_set_loc, e_set_flags, insert_memory_memkey, index_item_from_set.
  cbn [e_ns e_id e_off e_idxoff e_len e_flags e_dataid e_indexid e_crc e_pid e_poff e_ts].
  fold it. cbn [tb ix dt dk].
  eexists; eexists; split; [reflexivity|].
  assert (EL : entry_of n (nlen g, 29 + isz l, it) =
    mkEntry n k off (29 + isz l) (blen v) 0 (nlen g) (nlen g) (zdb_crc32 v) 0 0 ts) by reflexivity.
  assert (LV : live (nlen g, 29 + isz l, it) = true) by reflexivity.
  destruct U as [U1 U2 U3 U4 U5 U6 U7 U8 U9 U10 U11 U12 U13 U14 U15].
  split; [|split; [|split]].
  - constructor; cbn [set_ix set_tb tb ix dt dk dk_i dk_d dk_log dk_io x_set_next x_set_stats x_set_updated x_set_prev
      x_ns x_mode x_indexid x_nextentry x_nextid x_prev x_updated x_seq x_entries x_datasize x_size]; auto;
      rewrite ?flat_snoc; change (0 + nlen g) with (nlen g).
    + eapply finv_append; eauto.
      * split; [|split]; cbn [l_it l_id l_off fst snd it_id it new_item]; auto.
        unfold item_wf. cbn [it new_item it_idlen it_off it_len it_prev it_flags it_dataid it_ts it_crc it_pid it_poff it_id]. lia.
      * unfold ver_ok. cbn [l_it l_id l_f l_off fst snd it new_item it_id it_len it_crc it_ts it_off].
        repeat split; auto. exists r. repeat split; auto; apply R1.
    + rewrite nlen_app in *. exact U6.
    + rewrite nlen_app in *. exact U8.
    + rewrite entries_app. cbn [entries filter]. unfold entries at 2. cbn [filter]. rewrite LV. cbn [map].
      rewrite EL, U3, Hx. apply tinv_append; auto.
      cbn [e_id]. intros Hi. unfold entries in Hi. rewrite map_map in Hi. apply in_map_iff in Hi.
      destruct Hi as (x & Hx1 & Hx2). apply filter_In in Hx2. destruct Hx2. apply (NL x); auto.
    + rewrite last_off_app. reflexivity.
    + rewrite U12, add64_u64, cnt_app, cnt_cons, LV. reflexivity.
    + rewrite U13, add64_u64, dsum_app. cbn [dsum]. rewrite LV. cbn [l_it snd it new_item it_len].
      now rewrite N.add_0_r.
    + rewrite U14, add64_u64, msum_app. cbn [msum]. rewrite LV. cbn [l_id snd it new_item it_id].
      now rewrite N.add_0_r.
    + rewrite Hne, nlen_app. cbn [nlen]. split; lia.
  - reflexivity.
  - cbn [set_ix set_tb tb x_set_updated x_set_prev x_ns]. rewrite U3.
    match goal with |- tframe _ _ (table_append _ ?e) => apply (tframe_append (tb s) e) end.
  - reflexivity.
Qed.

(* ---- record replaced ---- *)
Lemma entries_ids n G : map e_id (entries n G) = map l_id (filter live G).
Proof. unfold entries. rewrite map_map. reflexivity. Qed.

Lemma filter_idem_snoc k (L : list entry) e : e_id e = k ->
  filter (fun x => negb (bseqb (e_id x) k)) (filter (fun x => negb (bseqb (e_id x) k)) L ++ [e])
  = filter (fun x => negb (bseqb (e_id x) k)) L.
Proof.
  intros He. rewrite filter_app. cbn [filter]. rewrite He, bseqb_refl. cbn [negb]. rewrite app_nil_r.
  apply filter_filter_imp. auto.
Qed.

Definition flag_write (x : loc) : dwrite := WrI (l_f x) (l_off x) (enc_item (flag (l_it x))).

Lemma flagged_ids A x x' B k : live_last (A ++ x :: B) -> live x = true -> live x' = false -> l_id x = k ->
  forall y, In y (A ++ x' :: B) -> live y = true -> l_id y <> k.
Proof.
  intros HL Hx Hx' <- y Hy Ly. destruct (live_last_mid _ _ _ HL Hx) as [HA HB].
  rewrite Forall_forall in HA, HB. apply in_app_iff in Hy. destruct Hy as [Hy|[<-|Hy]]; auto. congruence.
Qed.

(* the file numbers in the request are not used *)
Lemma uinv_index_update_any n s gi H x0 k v ts off m did i :
  UInv n s gi H -> In x0 (flat 0 gi) -> live x0 = true -> l_id x0 = k ->
  m + 1 = nlen gi ->
  blen v < 4294967296 -> ts < 4294967296 -> off < 4294967296 -> isize (dk s) m < 4294967296 ->
  data_ready (dk_d (dk s)) m off k v ts ->
  18 * (isize (dk s) m - 29 + (34 + blen k)) <= 34 * room (dk_d (dk s)) m ->
  let it := new_item s k off (blen v) (zdb_crc32 v) m ts (l_f x0) (l_off x0) in
  exists e s2 g l,
    index_set s k (mkEntry 0 [] (u32 off) 0 (u32 (blen v)) 0 did i (zdb_crc32 v) 0 0 ts) (Some (entry_of n x0)) = (Some e, s2) /\
    UInv n s2 (g ++ [l ++ [it]]) (H ++ [(k, (v, ts))]) /\
    nlen g = m /\ 29 + isz l = isize (dk s) m /\
    (exists g1 l1 l2 g2 A B,
      gi = g1 ++ (l1 ++ l_it x0 :: l2) :: g2 /\ l_f x0 = nlen g1 /\ l_off x0 = 29 + isz l1 /\
      g ++ [l] = g1 ++ (l1 ++ flag (l_it x0) :: l2) :: g2 /\
      flat 0 gi = A ++ x0 :: B /\ flat 0 (g ++ [l]) = A ++ (l_f x0, l_off x0, flag (l_it x0)) :: B) /\
    livem (flat 0 (g ++ [l])) H = kdel k (livem (flat 0 gi) H) /\
    dk_d (dk s2) = dk_d (dk s) /\ tframe n (tb s) (tb s2) /\
    dk_log (dk s2) = dk_log (dk s) ++ [flag_write x0; WrI m (29 + isz l) (enc_item it)] /\
    FInv (enc_ifs MODE_KV 0 (g ++ [l])) (dk_d (dk s)) (g ++ [l]) H.
Proof.
  intros U Hin Hlive Hid Hm Hv Hts Hoff Hsz (r & R1 & R2 & R3 & R4 & R5 & R6 & R7) Hroom it.
  pose proof (ui_f _ _ _ _ U) as F.
  destruct (flat_pick _ _ Hin) as (g1 & l1 & l2 & g2 & A & B & Egi & Ef & Eo & EA & EB).
  destruct (cur_split gi m Hm) as (g0 & l0 & Eg0 & Hg0).
  assert (Ecur := Eg0). rewrite Egi in Ecur. apply cur_flag in Ecur.
  destruct Ecur as (g & l & Ecur & Hg & Hl). rewrite Hg0 in Hg.
  assert (Esz : isize (dk s) m = 29 + isz l).
  { unfold isize, ifile. rewrite (fi_files _ _ _ _ F), Eg0, <- Hg0, nget_enc_ifs, blen_enc_if. lia. }
  rewrite Esz in *.
  assert (Hx : x_indexid (ix s) = m) by (pose proof (ui_id _ _ _ _ U); lia).
  assert (Hm32 : m < 4294967296) by (pose proof (fi_small _ _ _ _ F); lia).
  assert (Hprev : x_prev (ix s) < 4294967296).
  { rewrite (ui_prev _ _ _ _ U). apply last_off_lt; [lia|apply F]. }
  assert (W0 : loc_wf x0) by (pose proof (fi_wf _ _ _ _ F) as W; rewrite Forall_forall in W; auto).
  destruct W0 as (W1 & W2 & W3).
  pose proof (zdb_crc32_W32 v) as Hcrc.
  pose proof (ver_same _ _ _ (fi_ver _ _ _ _ F)) as S2.
  pose proof (fi_last _ _ _ _ F) as LL.
  assert (Lf : live (l_f x0, l_off x0, flag (l_it x0)) = false) by apply live_flag.
  assert (K1 : 0 < blen k) by (rewrite <- Hid; auto).
  assert (K2 : blen k < 256).
  { rewrite <- Hid. destruct W1 as (W1 & W1' & _). unfold l_id. unfold l_it in *. lia. }
  assert (Hf32 : l_f x0 < 4294967296).
  { pose proof (fi_small _ _ _ _ F) as X. rewrite Egi, nlen_app in X. cbn [nlen] in X. lia. }
  assert (FL : FInv (enc_ifs MODE_KV 0 (g ++ [l])) (dk_d (dk s)) (g ++ [l]) H).
  { rewrite <- Ecur. eapply finv_flag with (A := A) (B := B).
    - rewrite <- Egi. exact F.
    - rewrite <- Egi, EA. f_equal. f_equal. rewrite <- Ef, <- Eo. now destruct x0 as [[? ?] ?].
    - rewrite EB, Ef, Eo. reflexivity. }
  assert (EB' : flat 0 (g ++ [l]) = A ++ (l_f x0, l_off x0, flag (l_it x0)) :: B) by (rewrite <- Ecur; exact EB).
  assert (LM : livem (flat 0 (g ++ [l])) H = kdel k (livem (flat 0 gi) H)).
  { rewrite EB', EA, <- Hid. rewrite EA in S2, LL. apply livem_flag; auto. }
  unfold index_set. rewrite (ui_mode _ _ _ _ U), N.eqb_refl. unfold index_update_entry_memkey.
  rewrite (delete_disk_ok MODE_KV s (entry_of n x0) g1 l1 (l_it x0) l2 g2);
    [| rewrite <- Egi; apply F | apply U | exact W1 | exact Ef | exact Eo | reflexivity | reflexivity].
  unfold update_memory_memkey, update_memory_entry. cbn [tb ix dt dk set_ix set_tb].
  destruct (dirty_set_shape (nlen g1) (ix s)) as (da & db & Ed). rewrite Ed, Ecur.
  rewrite (index_append_ok MODE_KV _ k _ g l);
    [| reflexivity | reflexivity |
     exact (eq_trans Hx (eq_sym Hg))].
  rewrite !u32_small by lia. cbn zeta.
  unfold e_set_loc, index_item_from_set, set_tb, set_ix.
  cbn [e_ns e_id e_off e_idxoff e_len e_flags e_dataid e_indexid e_crc e_pid e_poff e_ts entry_of
       tb ix dt dk x_set_stats x_set_dirty x_set_updated x_set_prev x_ns x_indexid x_prev x_entries x_datasize x_size].
  rewrite Hx. fold (new_item s k off (blen v) (zdb_crc32 v) m ts (l_f x0) (l_off x0)). fold it.
  destruct U as [U1 U2 U3 U4 U5 U6 U7 U8 U9 U10 U11 U12 U13 U14 U15].
  eexists; eexists; exists g, l; split; [reflexivity|].
  assert (LV : live (nlen g, 29 + isz l, it) = true) by reflexivity.
  assert (Kin : In k (map e_id (entries n (flat 0 gi)))).
  { rewrite entries_ids, <- Hid. apply in_map. now apply filter_In. }
  split; [|split; [exact Hg|split; [reflexivity|split; [|split; [exact LM|split; [reflexivity|split; [|split; [|exact FL]]]]]]]].
  - constructor; cbn [tb ix dt dk dk_i dk_d dk_log dk_io x_set_next x_set_stats x_set_updated x_set_prev x_set_dirty
      x_ns x_mode x_indexid x_nextentry x_nextid x_prev x_updated x_seq x_entries x_datasize x_size]; auto;
      rewrite ?flat_snoc; change (0 + nlen g) with (nlen g).
    + eapply finv_append; eauto.
      * intros y Hy Ly. rewrite EB' in Hy. rewrite EA in LL. eapply flagged_ids; eauto.
      * split; [|split]; cbn [l_it l_id l_off fst snd it_id it new_item]; auto; try lia.
        unfold item_wf. cbn [it new_item it_idlen it_off it_len it_prev it_flags it_dataid it_ts it_crc it_pid it_poff it_id]. lia.
      * unfold ver_ok. cbn [l_it l_id l_f l_off fst snd it new_item it_id it_len it_crc it_ts it_off].
        rewrite Hg. repeat split; auto. exists r. repeat split; auto; apply R1.
      * cbn [it new_item it_prev]. rewrite U11, EA, EB'. symmetry. apply last_off_flag. reflexivity.
      * rewrite Hg. change (itsz it) with (34 + blen k). lia.
    + rewrite nlen_app, Hg. cbn [nlen]. lia.
    + rewrite U8, nlen_app, Hg. cbn [nlen]. lia.
    + rewrite U3. assert (En : entry_of n (nlen g, 29 + isz l, it) =
        mkEntry n (l_id x0) off (29 + isz l) (blen v) 0 m (nlen g) (zdb_crc32 v) (l_f x0) (l_off x0) ts).
      { unfold entry_of. cbn [l_it l_id l_f l_off fst snd it new_item it_id it_len it_crc it_ts it_off it_flags it_pid it_poff].
        rewrite Hg, Hid. reflexivity. }
      rewrite entries_app. unfold entries at 2. cbn [filter]. rewrite LV. cbn [map]. rewrite EB'.
      rewrite (entries_flag n A x0) by (auto; rewrite <- EA; auto). rewrite <- EA, Hid.
      rewrite En, Hid.
      match goal with |- TInv (table_update (table_update _ _ _ (fun _ => ?e1)) _ _ (fun _ => ?e2)) _ _ =>
        rewrite <- (filter_idem_snoc k (entries n (flat 0 gi)) e1) by reflexivity end.
      apply tinv_update; auto.
      * apply tinv_update; auto.
      * rewrite map_app. apply in_app_iff. right. left. reflexivity.
    + rewrite last_off_app. reflexivity.
    + rewrite U12, EB', EA, !cnt_app, !cnt_cons, LV, Hlive, Lf. cbn [cnt filter nlen]. f_equal.
      change (cnt []) with 0. lia.
    + rewrite U13, EA. rewrite !dsum_app, EB', !dsum_app. cbn [dsum]. rewrite LV, Hlive, Lf.
      replace (dsum A + (it_len (l_it x0) + dsum B)) with (it_len (l_it x0) + (dsum A + dsum B)) by lia.
      rewrite sub64_u64, add64_u64. cbn [l_it snd it new_item it_len]. f_equal. lia.
    + rewrite U14, EB', EA, !msum_app. cbn [msum]. rewrite LV, Hlive, Lf. cbn [l_id snd it new_item it_id].
      rewrite Hid. f_equal. lia.
    + destruct U15 as [N1 N2]. rewrite EA in N1, N2. rewrite EB', !nlen_app in *. cbn [nlen] in *. split; [lia|].
      intros Z. apply N2 in Z. destruct A; discriminate.
  - exists g1, l1, l2, g2, A, B. repeat split; auto.
  - rewrite U3. eapply tframe_trans; apply tframe_update; reflexivity.
  - cbn [dk dk_log]. rewrite <- app_assoc. cbn [app]. unfold flag_write. rewrite Ef, Eo, Hg. reflexivity.
Qed.

Lemma uinv_index_update n s gi H x0 k v ts off m :
  UInv n s gi H -> In x0 (flat 0 gi) -> live x0 = true -> l_id x0 = k ->
  m + 1 = nlen gi ->
  blen v < 4294967296 -> ts < 4294967296 -> off < 4294967296 -> isize (dk s) m < 4294967296 ->
  data_ready (dk_d (dk s)) m off k v ts ->
  18 * (isize (dk s) m - 29 + (34 + blen k)) <= 34 * room (dk_d (dk s)) m ->
  let it := new_item s k off (blen v) (zdb_crc32 v) m ts (l_f x0) (l_off x0) in
  exists e s2 g l,
    index_set s k (idxreq off (blen v) (zdb_crc32 v) 0 ts) (Some (entry_of n x0)) = (Some e, s2) /\
    UInv n s2 (g ++ [l ++ [it]]) (H ++ [(k, (v, ts))]) /\
    nlen g = m /\ 29 + isz l = isize (dk s) m /\
    (exists g1 l1 l2 g2 A B,
      gi = g1 ++ (l1 ++ l_it x0 :: l2) :: g2 /\ l_f x0 = nlen g1 /\ l_off x0 = 29 + isz l1 /\
      g ++ [l] = g1 ++ (l1 ++ flag (l_it x0) :: l2) :: g2 /\
      flat 0 gi = A ++ x0 :: B /\ flat 0 (g ++ [l]) = A ++ (l_f x0, l_off x0, flag (l_it x0)) :: B) /\
    livem (flat 0 (g ++ [l])) H = kdel k (livem (flat 0 gi) H) /\
    dk_d (dk s2) = dk_d (dk s) /\ tframe n (tb s) (tb s2) /\
    dk_log (dk s2) = dk_log (dk s) ++ [flag_write x0; WrI m (29 + isz l) (enc_item it)] /\
    FInv (enc_ifs MODE_KV 0 (g ++ [l])) (dk_d (dk s)) (g ++ [l]) H.
Proof. exact (uinv_index_update_any n s gi H x0 k v ts off m 0 0). Qed.

(* ---- record deleted ---- *)
Lemma uinv_index_delete n s gi H x0 k :
  UInv n s gi H -> In x0 (flat 0 gi) -> live x0 = true -> l_id x0 = k ->
  exists s2 gi',
    index_entry_delete s (entry_of n x0) = (true, s2) /\
    UInv n s2 gi' H /\ nlen gi' = nlen gi /\
    (exists g1 l1 l2 g2 A B,
      gi = g1 ++ (l1 ++ l_it x0 :: l2) :: g2 /\ l_f x0 = nlen g1 /\ l_off x0 = 29 + isz l1 /\
      gi' = g1 ++ (l1 ++ flag (l_it x0) :: l2) :: g2 /\
      flat 0 gi = A ++ x0 :: B /\ flat 0 gi' = A ++ (l_f x0, l_off x0, flag (l_it x0)) :: B) /\
    livem (flat 0 gi') H = kdel k (livem (flat 0 gi) H) /\
    dk_d (dk s2) = dk_d (dk s) /\ tframe n (tb s) (tb s2) /\
    dk_log (dk s2) = dk_log (dk s) ++ [flag_write x0].
Proof.
  intros U Hin Hlive Hid. pose proof (ui_f _ _ _ _ U) as F.
  destruct (flat_pick _ _ Hin) as (g1 & l1 & l2 & g2 & A & B & Egi & Ef & Eo & EA & EB).
  assert (W0 : loc_wf x0) by (pose proof (fi_wf _ _ _ _ F) as W; rewrite Forall_forall in W; auto).
  destruct W0 as (W1 & W2 & W3).
  pose proof (ver_same _ _ _ (fi_ver _ _ _ _ F)) as S2.
  pose proof (fi_last _ _ _ _ F) as LL.
  assert (Lf : live (l_f x0, l_off x0, flag (l_it x0)) = false) by apply live_flag.
  set (gi' := g1 ++ (l1 ++ flag (l_it x0) :: l2) :: g2) in *.
  assert (FL : FInv (enc_ifs MODE_KV 0 gi') (dk_d (dk s)) gi' H).
  { unfold gi'. eapply finv_flag with (A := A) (B := B).
    - rewrite <- Egi. exact F.
    - rewrite <- Egi, EA. f_equal. f_equal. rewrite <- Ef, <- Eo. now destruct x0 as [[? ?] ?].
    - fold gi'. rewrite EB, Ef, Eo. reflexivity. }
  assert (LM : livem (flat 0 gi') H = kdel k (livem (flat 0 gi) H)).
  { rewrite EB, EA, <- Hid. rewrite EA in S2, LL. apply livem_flag; auto. }
  assert (NL : nlen gi' = nlen gi) by (rewrite Egi; apply nlen_mid).
  unfold index_entry_delete.
  rewrite (delete_disk_ok MODE_KV s (entry_of n x0) g1 l1 (l_it x0) l2 g2);
    [| rewrite <- Egi; apply F | apply U | exact W1 | exact Ef | exact Eo | reflexivity | reflexivity].
  unfold index_entry_delete_memory. cbn [tb ix dt dk set_ix set_tb].
  destruct (dirty_set_shape (nlen g1) (ix s)) as (da & db & Ed). rewrite Ed. fold gi'.
  cbn [x_set_stats x_set_dirty x_mode]. rewrite (ui_mode _ _ _ _ U), N.eqb_refl.
  destruct U as [U1 U2 U3 U4 U5 U6 U7 U8 U9 U10 U11 U12 U13 U14 U15].
  cbn [e_len e_id entry_of x_ns x_entries x_datasize x_size]. rewrite Hid.
  eexists; exists gi'; split; [reflexivity|].
  split; [|split; [exact NL|split; [|split; [exact LM|split; [reflexivity|split]]]]].
  - constructor; cbn [set_ix set_tb tb ix dt dk dk_i dk_d dk_log dk_io x_set_next x_set_stats x_set_updated x_set_prev x_set_dirty
      x_ns x_mode x_indexid x_nextentry x_nextid x_prev x_updated x_seq x_entries x_datasize x_size]; auto;
      try congruence.
    + rewrite U3, EB. rewrite (entries_flag n A x0) by (auto; rewrite <- EA; auto). rewrite <- EA, Hid.
      now apply tinv_remove.
    + rewrite U11, EA, EB. symmetry. apply last_off_flag. reflexivity.
    + rewrite U12, EB, EA, !cnt_app, !cnt_cons, Hlive, Lf.
      replace (cnt A + (1 + cnt B)) with (1 + (cnt A + cnt B)) by lia. rewrite sub64_u64. reflexivity.
    + rewrite U13, EA, EB, !dsum_app. cbn [dsum]. rewrite Hlive, Lf.
      replace (dsum A + (it_len (l_it x0) + dsum B)) with (it_len (l_it x0) + (dsum A + dsum B)) by lia.
      rewrite sub64_u64. reflexivity.
    + rewrite U14, EB, EA, !msum_app. cbn [msum]. rewrite Hlive, Lf, Hid.
      replace (msum A + (ENTRY_SIZEOF + blen k + msum B)) with (ENTRY_SIZEOF + blen k + (msum A + msum B)) by lia.
      rewrite sub64_u64. reflexivity.
    + destruct U15 as [N1 N2]. rewrite EA in N1, N2. rewrite EB, !nlen_app in *. cbn [nlen] in *. split; [lia|].
      intros Z. apply N2 in Z. destruct A; discriminate.
  - exists g1, l1, l2, g2, A, B. repeat split; auto.
  - cbn [set_ix set_tb tb ix x_set_dirty x_ns]. rewrite U3. apply tframe_remove.
  - cbn [set_ix set_tb dk dk_log]. unfold flag_write. now rewrite Ef, Eo.
Qed.
