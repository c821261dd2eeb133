(* The invariant of a sequential namespace is kept by each elementary change. *)
From Coq Require Import List NArith ZArith Bool Strings.Byte Lia ZifyBool ZifyN ZifyNat.
From Verif Require Import Bytes BytesFacts Crc32 Crc32Facts Layout LayoutFacts Store Commands SpecKV SpecSeq
  Ghost DataFacts TableFacts CheckFacts UserInv UserSteps UserLoad CrashPre SeqMap SeqInv.
Import ListNotations.
Open Scope N_scope.
Ltac Zify.zify_post_hook ::= Z.div_mod_to_equations.

(* ---- files ---- *)
Lemma sfinv_dext di dd dd' gi H : SFInv di dd gi H -> dext dd dd' -> SFInv di dd' gi H.
Proof.
  intros [F1 F2 F3 F4 F5 F6 F7] E. constructor; auto.
  - clear - F5 E. induction F5; constructor; auto. eapply sver_ok_ext; eauto.
  - intros g l Hg. specialize (F7 g l Hg). pose proof (room_ext dd dd' (nlen g) E). lia.
Qed.

Lemma sfinv_jump di dd gi H : SFInv di dd gi H -> nlen gi < 4294967296 ->
  SFInv (enc_ifs MODE_SEQ 0 (gi ++ [[]])) dd (gi ++ [[]]) H.
Proof.
  intros [F1 F2 F3 F4 F5 F6 F7] Hn. constructor; rewrite ?flat_jump; auto.
  - rewrite nlen_app. cbn [nlen]. lia.
  - intros g l Hg. apply app_inj_tail in Hg. destruct Hg as [<- <-]. cbn [nlen]. lia.
Qed.

Lemma forall2_split {A B} (P : A -> B -> Prop) a x b H : Forall2 P (a ++ x :: b) H ->
  exists h v k, H = h ++ v :: k /\ length a = length h /\ Forall2 P a h /\ P x v /\ Forall2 P b k.
Proof.
  intros F. apply Forall2_app_inv_l in F. destruct F as (h & r & F1 & F2 & ->).
  inversion F2 as [|? v ? k Hv F3]; subst. exists h, v, k. split; [reflexivity|].
  split; [eapply forall2_length; eauto|]. auto.
Qed.

Lemma livem_mid A x B HA v HB : length A = length HA ->
  livem (A ++ x :: B) (HA ++ v :: HB) = livem A HA ++ (if live x then [v] else []) ++ livem B HB.
Proof. intros L. rewrite livem_app by auto. cbn [livem]. now destruct (live x). Qed.

Lemma slot_ids_set A x x' B : slot_ids (A ++ x :: B) -> (live x' = true -> l_id x' = ident (nlen A)) ->
  slot_ids (A ++ x' :: B).
Proof.
  intros S Hx i y Hi Ly. destruct (N.lt_trichotomy i (nlen A)) as [X|[->|X]].
  - apply S; auto. rewrite nget_app1 in * by auto. exact Hi.
  - rewrite nget_app_r in Hi. injection Hi as <-. auto.
  - apply S; auto. change (x' :: B) with ([x'] ++ B) in Hi. change (x :: B) with ([x] ++ B).
    rewrite app_assoc in *. rewrite nget_app2 in * by (rewrite nlen_app; cbn [nlen]; lia).
    rewrite !nlen_app in *. exact Hi.
Qed.

Lemma slot_ids_snoc G x : slot_ids G -> (live x = true -> l_id x = ident (nlen G)) -> slot_ids (G ++ [x]).
Proof.
  intros S Hx i y Hi Ly. destruct (N.lt_ge_cases i (nlen G)) as [X|X].
  - apply S; auto. now rewrite nget_app1 in Hi.
  - pose proof (nget_lt _ _ _ Hi) as L. rewrite nlen_app in L. cbn [nlen] in L.
    replace i with (nlen G) in * by lia. rewrite nget_app_r in Hi. injection Hi as <-. auto.
Qed.

(* a record is replaced in place *)
Lemma sfinv_over di dd g1 l1 it l2 g2 HA v HB it' v' :
  SFInv di dd (g1 ++ (l1 ++ it :: l2) :: g2) (HA ++ v :: HB) -> nlen HA = tot g1 + nlen l1 ->
  item_wf it' -> blen (it_id it') = 8 -> it_prev it' = it_prev it ->
  (live (nlen g1, 29 + isz l1, it') = true -> it_id it' = ident (tot g1 + nlen l1)) ->
  sver_ok dd (nlen g1, 29 + isz l1, it') v' ->
  SFInv (enc_ifs MODE_SEQ 0 (g1 ++ (l1 ++ it' :: l2) :: g2)) dd (g1 ++ (l1 ++ it' :: l2) :: g2) (HA ++ v' :: HB).
Proof.
  intros [F1 F2 F3 F4 F5 F6 F7] HL W W8 Wp Wi Wv.
  assert (I8 : blen (it_id it) = 8).
  { rewrite flat_split in F3. apply Forall_app in F3. destruct F3 as [_ F3]. apply Forall_inv in F3. apply F3. }
  assert (LA : nlen (flat 0 g1 ++ place (nlen g1) 29 l1) = tot g1 + nlen l1).
  { rewrite nlen_app, nlen_flat, nlen_place. reflexivity. }
  assert (IT : itsz it' = itsz it) by (unfold itsz; lia).
  rewrite flat_split in *. change (0 + nlen g1) with (nlen g1) in *. rewrite <- LA in *.
  set (A := flat 0 g1 ++ place (nlen g1) 29 l1) in *.
  assert (EB : flat 0 (g1 ++ (l1 ++ it' :: l2) :: g2) = A ++ (nlen g1, 29 + isz l1, it') ::
     (place (nlen g1) (29 + isz l1 + itsz it) l2 ++ flat (nlen g1 + 1) g2)).
  { rewrite flat_split, IT. reflexivity. }
  set (B := place (nlen g1) (29 + isz l1 + itsz it) l2 ++ flat (nlen g1 + 1) g2) in *.
  constructor; rewrite ?EB; auto.
  - rewrite (nlen_mid _ _ (l1 ++ it :: l2)). exact F2.
  - apply Forall_app in F3. destruct F3 as [FA FB]. apply Forall_app. split; auto.
    constructor; [|now apply Forall_inv_tail in FB]. apply Forall_inv in FB. destruct FB as (_ & _ & X). split; auto.
  - eapply slot_ids_set; [exact F4|]. exact Wi.
  - apply forall2_split in F5. destruct F5 as (h & w & k & E & L & Fa & Fx & Fb).
    assert (nlen h = nlen HA) by (rewrite HL, !nlen_length; lia).
    destruct (split_eq _ _ _ _ (eq_sym E)) as [-> E2]; [lia|]. injection E2 as -> ->.
    apply Forall2_app; auto.
  - eapply chain_flag; [| |exact F6]; [reflexivity|exact Wp].
  - intros g l Hg. destruct (snoc_case _ _ _ _ _ Hg) as [(-> & -> & ->)|(g2' & -> & ->)].
    + rewrite (nlen_mid _ _ it). apply F7. reflexivity.
    + rewrite (nlen_mid _ _ (l1 ++ it :: l2)). apply F7. now rewrite <- app_assoc.
Qed.

(* a record is appended *)
Lemma sfinv_append di dd g l H it v :
  SFInv di dd (g ++ [l]) H ->
  sloc_wf (nlen g, 29 + isz l, it) ->
  (live (nlen g, 29 + isz l, it) = true -> it_id it = ident (tot (g ++ [l]))) ->
  sver_ok dd (nlen g, 29 + isz l, it) v ->
  it_prev it = last_off 0 (flat 0 (g ++ [l])) ->
  26 * (nlen l + 1) <= room dd (nlen g) ->
  SFInv (enc_ifs MODE_SEQ 0 (g ++ [l ++ [it]])) dd (g ++ [l ++ [it]]) (H ++ [v]).
Proof.
  intros [F1 F2 F3 F4 F5 F6 F7] W Hi V P R.
  constructor; rewrite ?flat_snoc; change (0 + nlen g) with (nlen g); auto.
  - rewrite nlen_app in *. exact F2.
  - apply Forall_app. split; auto.
  - apply slot_ids_snoc; auto. rewrite nlen_flat. exact Hi.
  - apply Forall2_app; auto.
  - rewrite chain_app. cbn [chain l_it snd]. auto.
  - intros g' l' Hg. apply app_inj_tail in Hg. destruct Hg as [<- <-]. rewrite nlen_app. cbn [nlen]. lia.
Qed.

Lemma slast_off_lt G p : p < 4294967296 -> Forall sloc_wf G -> last_off p G < 4294967296.
Proof.
  intros Hp F. revert p Hp. induction F as [|x G Hx F IH]; cbn [last_off]; auto.
  intros. apply IH. apply Hx.
Qed.

(* ---- what a restart can load ---- *)
Definition sloadable (fs : fsys) (gi : list (list item)) (H : list ver) : Prop :=
  SFInv (fst fs) (snd fs) gi H /\ 0 < nlen gi /\ dd_openable (snd fs) (nlen gi).

Lemma sinv_loadable n s m gi H : SInv n s m gi H -> sloadable (files (dk s)) gi H.
Proof.
  intros U. split; [apply U|]. split; [pose proof (si_id _ _ _ _ _ U); lia|]. left. split; apply U.
Qed.

(* the specification state *)
Definition sq_of (gi : list (list item)) (H : list ver) : sqs := mkSq (tot gi) (livem (flat 0 gi) H).

(* ---- jump ---- *)
Lemma jump_ix_seq f x m : x_seq x = Some m ->
  let y := jump_ix f x in
  x_ns y = x_ns x /\ x_mode y = x_mode x /\ x_indexid y = f /\ x_prev y = x_prev x /\
  x_seq y = Some (m ++ [(x_nextentry x, f)]) /\ x_nextentry y = x_nextentry x /\
  x_entries y = x_entries x /\ x_datasize y = x_datasize x /\ x_size y = x_size x.
Proof.
  intros Hs. cbn zeta. unfold jump_ix, index_set_id, index_seqid_push.
  destruct (dirty_resize_shape f (x_set_indexid f (x_set_next (x_nextentry x) 0 x))) as (a & b & ->).
  cbn [x_set_updated x_set_dirty x_set_indexid x_set_next x_seq]. rewrite Hs. cbn. auto 10.
Qed.

(* the current index file has a record, or is the only one *)
Definition settled_g (gi : list (list item)) : Prop := forall g l, gi = g ++ [l] -> l <> [] \/ g = [].

Lemma sinv_jump n s m gi H : SInv n s m gi H -> nlen gi < 4294967296 -> settled_g gi ->
  exists m', SInv n (jump_next s) m' (gi ++ [[]]) H /\ anchored m' (gi ++ [[]]) /\ tb (jump_next s) = tb s /\
  dext (dk_d (dk s)) (dk_d (dk (jump_next s))) /\ dsize (dk (jump_next s)) (d_dataid (dt (jump_next s))) = 28 /\
  forall P : fsys -> Prop,
    (forall fs gi', sloadable fs gi' H -> flat 0 gi' = flat 0 gi -> nlen gi' <= nlen gi + 1 ->
       dext (dk_d (dk s)) (snd fs) -> P fs) -> scuts P (dk s) (dk (jump_next s)).
Proof.
  intros U Hn Se. pose proof (si_f _ _ _ _ _ U) as F.
  destruct (cur_split gi (x_indexid (ix s)) (si_id _ _ _ _ _ U)) as (g & l & Eg & Hg).
  assert (Hc : l <> [] \/ m = [(0, 0)]).
  { destruct (Se g l Eg) as [X| ->]; [now left|]. destruct l; [|left; discriminate]. right.
    apply (so_one _ _ (si_map _ _ _ _ _ U)). exact Eg. }
  destruct (seq_ok_jump m gi g l (si_map _ _ _ _ _ U) Eg Hc) as [M1 M2].
  exists (m ++ [(tot gi, nlen gi)]).
  assert (CUTS : forall P : fsys -> Prop,
    (forall fs gi', sloadable fs gi' H -> flat 0 gi' = flat 0 gi -> nlen gi' <= nlen gi + 1 ->
       dext (dk_d (dk s)) (snd fs) -> P fs) -> scuts P (dk s) (dk (jump_next s))).
  { intros P HP. apply cuts_scuts. apply (jump_cuts_gen MODE_SEQ s gi); try apply U; auto.
    - apply (HP _ gi); [now apply (sinv_loadable n s m)|reflexivity|lia|apply dext_refl].
    - intros dd E O. apply (HP _ (gi ++ [[]])); [|apply flat_jump|rewrite nlen_app; cbn [nlen]; lia|exact E].
      split; [|split; [|exact O]]; cbn [fst snd].
      + eapply sfinv_dext; [|exact E]. eapply sfinv_jump; eauto.
      + rewrite nlen_app. cbn [nlen]. lia. }
  revert CUTS. rewrite (jump_ok MODE_SEQ s gi); [| apply F | apply U | apply U | auto | apply U]. intros CUTS.
  destruct (jump_ix_seq (nlen gi) (ix s) m (si_seq _ _ _ _ _ U)) as (J1&J2&J3&J4&J5&J6&J7&J8&J9).
  pose proof (dext_snoc (dk_d (dk s)) (data_header (nlen gi))) as E.
  destruct U as [U1 U2 U3 U4 U5 U6 U7 U8 U9 U10 U11 U12 U13 U14 U15 U16].
  split; [|split; [|split; [|split; [|split]]]].
  - constructor; cbn [tb ix dt dk dk_i dk_d dk_log dk_io d_dataid]; rewrite ?flat_jump; try congruence.
    + eapply sfinv_dext; [|exact E]. eapply sfinv_jump; eauto.
    + rewrite J3, nlen_app. reflexivity.
    + rewrite !nlen_app. cbn [nlen]. rewrite U9. reflexivity.
    + rewrite <- U9. now apply dhdr_ok_snoc.
    + rewrite J6, U12, tot_app. cbn [tot nlen]. lia.
  - exact M2.
  - reflexivity.
  - exact E.
  - unfold dsize, dfile. cbn [dk dk_d dt d_dataid]. rewrite <- U9, nget_app_r. apply blen_data_header.
  - exact CUTS.
Qed.

(* ---- data appended ---- *)
Lemma sinv_cur n s m gi H : SInv n s m gi H ->
  exists file, nget (d_dataid (dt s)) (dk_d (dk s)) = Some file /\ 28 <= blen file.
Proof.
  intros U. destruct (nget_Some (d_dataid (dt s)) (dk_d (dk s))) as (file & Hf).
  { rewrite (si_did _ _ _ _ _ U), (si_dn _ _ _ _ _ U), <- (si_id _ _ _ _ _ U). lia. }
  exists file. split; auto. destruct (si_dhdr _ _ _ _ _ U _ _ Hf) as (r & ->).
  rewrite blen_app, blen_data_header. lia.
Qed.

Lemma sinv_data n s m gi H q file : SInv n s m gi H -> nget (d_dataid (dt s)) (dk_d (dk s)) = Some file ->
  data_insert s q = (blen file, after_data s file q) /\ SInv n (after_data s file q) m gi H /\
  dext (dk_d (dk s)) (dk_d (dk (after_data s file q))) /\
  forall P : fsys -> Prop,
    (forall fs, sloadable fs gi H -> dext (dk_d (dk s)) (snd fs) -> P fs) -> scuts P (dk s) (dk (after_data s file q)).
Proof.
  intros U Hf. pose proof (dext_insert s q file Hf) as E. split; [|split; [|split; [exact E|]]].
  - apply data_insert_ok; auto. apply U.
  - destruct U as [U1 U2 U3 U4 U5 U6 U7 U8 U9 U10 U11 U12 U13 U14 U15 U16].
    constructor; cbn [after_data tb ix dt dk ins_disk dk_i dk_d dk_log dk_io d_dataid]; auto.
    + eapply sfinv_dext; [exact U1|exact E].
    + now rewrite nlen_nset.
    + eapply dhdr_ok_ext; [exact U10| |]; [exact E|]. cbn [ins_disk dk_d]. now rewrite nlen_nset.
  - intros P HP. apply cuts_scuts. apply data_cuts_gen; auto.
    + apply HP; [now apply (sinv_loadable n s m)|apply dext_refl].
    + intros b. assert (D : dext (dk_d (dk s)) (nset (d_dataid (dt s)) (file ++ b) (dk_d (dk s)))) by (now apply dext_nset).
      apply HP; [|exact D]. split; [|split]; cbn [fst snd].
      * eapply sfinv_dext; [apply U|exact D].
      * pose proof (si_id _ _ _ _ _ U). lia.
      * left. rewrite nlen_nset. split; [apply U|]. eapply dhdr_ok_ext; [apply (si_dhdr _ _ _ _ _ U)|exact D|]. now rewrite nlen_nset.
Qed.

(* ---- record appended ---- *)
Lemma sinv_index_insert n s m g l H v ts off :
  let k := ident (tot (g ++ [l])) in
  SInv n s m (g ++ [l]) H -> anchored m (g ++ [l]) ->
  blen v < 4294967296 -> ts < 4294967296 -> off < 4294967296 -> 29 + isz l < 4294967296 ->
  data_ready (dk_d (dk s)) (nlen g) off k v ts ->
  26 * (nlen l + 1) <= room (dk_d (dk s)) (nlen g) ->
  let it := new_item s k off (blen v) (zdb_crc32 v) (nlen g) ts 0 0 in
  exists e s2,
    index_set s k (idxreq off (blen v) (zdb_crc32 v) (nlen g) ts) None = (Some e, s2) /\
    SInv n s2 m (g ++ [l ++ [it]]) (H ++ [(k, (v, ts))]) /\ anchored m (g ++ [l ++ [it]]) /\
    dk_d (dk s2) = dk_d (dk s) /\ tb s2 = tb s /\
    livem (flat 0 (g ++ [l ++ [it]])) (H ++ [(k, (v, ts))]) = livem (flat 0 (g ++ [l])) H ++ [(k, (v, ts))] /\
    dk_log (dk s2) = dk_log (dk s) ++ [WrI (nlen g) (29 + isz l) (enc_item it)].
Proof.
  intros k U An Hv Hts Hoff Hsz (r & R1 & R2 & R3 & R4 & R5 & R6 & R7) Hroom it.
  pose proof (si_f _ _ _ _ _ U) as F.
  assert (Hx : x_indexid (ix s) = nlen g).
  { pose proof (si_id _ _ _ _ _ U) as X. rewrite nlen_app in X. cbn [nlen] in X. lia. }
  assert (Hg : nlen g < 4294967296).
  { pose proof (sf_small _ _ _ _ F) as X. rewrite nlen_app in X. cbn [nlen] in X. lia. }
  assert (Hprev : x_prev (ix s) < 4294967296).
  { rewrite (si_prev _ _ _ _ _ U). apply slast_off_lt; [lia|apply F]. }
  assert (K8 : blen k = 8) by (unfold k, ident; rewrite blen_le; reflexivity).
  pose proof (tot_bound _ _ _ _ F) as TB.
  pose proof (zdb_crc32_W32 v) as Hcrc.
  assert (FL : length (flat 0 (g ++ [l])) = length H) by (eapply forall2_length; apply F).
  unfold index_set. rewrite (si_mode _ _ _ _ _ U). change (MODE_SEQ =? MODE_KV) with false. cbn iota.
  unfold index_insert_entry_sequential.
  rewrite (index_append_ok MODE_SEQ s k _ g l); [| apply F | apply U | exact Hx].
  unfold idxreq. rewrite !u32_small by lia. cbn zeta.
  unfold e_set_loc, e_set_flags, index_item_from_set.
  cbn [e_ns e_id e_off e_idxoff e_len e_flags e_dataid e_indexid e_crc e_pid e_poff e_ts].
  fold it. cbn [tb ix dt dk].
  eexists; eexists; split; [reflexivity|].
  assert (LV : live (nlen g, 29 + isz l, it) = true) by reflexivity.
  destruct (seq_ok_append m g l it (si_map _ _ _ _ _ U) An) as [M1 M2].
  destruct U as [U1 U2 U3 U4 U5 U6 U7 U8 U9 U10 U11 U12 U13 U14 U15 U16].
  split; [|split; [exact M2|split; [reflexivity|split; [reflexivity|split; [|reflexivity]]]]].
  - constructor; cbn [insert_memory_seq set_ix set_tb tb ix dt dk dk_i dk_d dk_log dk_io x_set_next x_set_stats x_set_updated x_set_prev
      x_ns x_mode x_indexid x_nextentry x_nextid x_prev x_updated x_seq x_entries x_datasize x_size e_len]; auto;
      rewrite ?flat_snoc; change (0 + nlen g) with (nlen g).
    + eapply sfinv_append; eauto.
      * split; [|split]; cbn [l_it l_id l_off fst snd it_id it new_item]; auto.
        unfold item_wf. cbn [it new_item it_idlen it_off it_len it_prev it_flags it_dataid it_ts it_crc it_pid it_poff it_id]. lia.
      * unfold sver_ok. cbn [l_it l_id l_f l_off fst snd it new_item it_id it_len it_crc it_ts it_off it_dataid].
        repeat split; auto. exists r. repeat split; auto; apply R1.
    + rewrite nlen_app in *. exact U7.
    + rewrite nlen_app in *. exact U9.
    + rewrite U12, !tot_app. cbn [tot]. rewrite nlen_app. cbn [nlen]. rewrite tot_app in TB. cbn [tot] in TB.
      rewrite u64_small by lia. lia.
    + rewrite last_off_app. reflexivity.
    + rewrite U14, add64_u64, cnt_app, cnt_cons, LV. reflexivity.
    + rewrite U15, add64_u64, dsum_app. cbn [dsum]. rewrite LV. cbn [l_it snd it new_item it_len].
      now rewrite N.add_0_r.
    + rewrite U16, add64_u64, msum_app. cbn [msum]. rewrite LV. cbn [l_id snd it new_item it_id].
      now rewrite N.add_0_r.
  - rewrite flat_snoc, livem_app by auto. cbn [livem]. change (0 + nlen g) with (nlen g). rewrite LV. reflexivity.
Qed.

(* ---- record deleted ---- *)
Lemma kset_keep k v ts m : ~ In k (map fst m) -> kset k v ts m = m.
Proof.
  intros H. unfold kset. induction m as [|[a b] m IH]; cbn [map fst] in *; auto.
  destruct (bseqb_spec a k) as [E|E]; [exfalso; apply H; now left|]. rewrite IH; auto. intros X. apply H. now right.
Qed.

Lemma livem_other G H k : Forall2 same_id G H -> Forall (fun y => live y = true -> l_id y <> k) G ->
  ~ In k (map fst (livem G H)).
Proof.
  intros F D. rewrite livem_keys by auto. intros Hi. apply in_map_iff in Hi. destruct Hi as (x & E & Hi).
  apply filter_In in Hi. destruct Hi as [Hi Lx]. rewrite Forall_forall in D. now apply (D x).
Qed.

(* a stored record, with everything before and after it *)
Record at_slot (dd : list bytes) (gi : list (list item)) (H : list ver) (k : bytes)
  g1 l1 it l2 g2 A B HA (v : ver) HB : Prop := {
  as_gi : gi = g1 ++ (l1 ++ it :: l2) :: g2;
  as_k : k = ident (tot g1 + nlen l1);
  as_A : A = flat 0 g1 ++ place (nlen g1) 29 l1;
  as_flat : flat 0 gi = A ++ (nlen g1, 29 + isz l1, it) :: B;
  as_H : H = HA ++ v :: HB;
  as_len : length A = length HA;
  as_ver : sver_ok dd (nlen g1, 29 + isz l1, it) v;
  as_id : it_id it = k;
  as_wf : sloc_wf (nlen g1, 29 + isz l1, it);
  as_live : live (nlen g1, 29 + isz l1, it) = true;
  as_a : Forall (fun y => live y = true -> l_id y <> k) A;
  as_b : Forall (fun y => live y = true -> l_id y <> k) B;
  as_sa : Forall2 same_id A HA;
  as_sb : Forall2 same_id B HB;
  as_get : kget k (livem (flat 0 gi) H) = Some (snd v)
}.

Lemma found_at n s m gi H k e : SInv n s m gi H -> sfound n s gi H k e ->
  exists g1 l1 it l2 g2 A B HA v HB, at_slot (dk_d (dk s)) gi H k g1 l1 it l2 g2 A B HA v HB /\
    e = seq_entry n (nlen g1, 29 + isz l1, it).
Proof.
  intros U (g1 & l1 & l2 & g2 & x & w & Eg & Ef & Eo & Ek & Hin & Lx & Ei & Ee & Hc & Hw & Hk).
  pose proof (si_f _ _ _ _ _ U) as F. pose proof (tot_bound _ _ _ _ F) as TB.
  destruct x as [[f o] it]. cbn [l_f l_off l_it fst snd] in *. subst f o. clear Hc Hw.
  set (A := flat 0 g1 ++ place (nlen g1) 29 l1).
  set (B := place (nlen g1) (29 + isz l1 + itsz it) l2 ++ flat (nlen g1 + 1) g2).
  assert (EF : flat 0 gi = A ++ (nlen g1, 29 + isz l1, it) :: B).
  { rewrite Eg, flat_split. change (0 + nlen g1) with (nlen g1). reflexivity. }
  pose proof (sf_ver _ _ _ _ F) as V. rewrite EF in V. apply forall2_split in V.
  destruct V as (HA & v & HB & EH & L & FA & Fx & FB).
  destruct (slot_mid A (nlen g1, 29 + isz l1, it) B) as [MA MB].
  { rewrite <- EF. apply F. }
  { rewrite <- EF, nlen_flat. lia. }
  { exact Lx. }
  unfold l_id in Ei. cbn [snd] in Ei. unfold l_id in MA, MB. cbn [snd] in MA, MB. rewrite Ei in MA, MB.
  pose proof (sf_wf _ _ _ _ F) as W. rewrite EF in W. apply Forall_app in W. destruct W as [_ W]. apply Forall_inv in W.
  exists g1, l1, it, l2, g2, A, B, HA, v, HB. split; [|exact Ee]. constructor; auto.
  - eapply sver_same; eauto.
  - eapply sver_same; eauto.
  - rewrite EF, EH, livem_mid by auto. rewrite Lx. cbn [app].
    assert (N0 : ~ In k (map fst (livem A HA))) by (apply livem_other; auto; eapply sver_same; eauto).
    clear - N0 Fx Ei. induction (livem A HA) as [|[a b] m IH]; cbn [app kget map fst] in *.
    + destruct v as [a b]. destruct Fx as (Fx & _). unfold l_id in Fx. cbn [fst snd] in *.
      rewrite <- Fx, Ei, bseqb_refl. reflexivity.
    + destruct (bseqb_spec a k) as [E|E]; [exfalso; apply N0; now left|]. apply IH. intros X. apply N0. now right.
Qed.

Lemma sinv_index_delete n s m gi H k g1 l1 it l2 g2 A B HA v HB :
  SInv n s m gi H -> at_slot (dk_d (dk s)) gi H k g1 l1 it l2 g2 A B HA v HB ->
  let gi' := g1 ++ (l1 ++ flag it :: l2) :: g2 in
  exists s2, index_entry_delete s (seq_entry n (nlen g1, 29 + isz l1, it)) = (true, s2) /\
    SInv n s2 m gi' H /\ map nlen gi' = map nlen gi /\
    livem (flat 0 gi') H = kdel k (livem (flat 0 gi) H) /\
    dk_d (dk s2) = dk_d (dk s) /\ tb s2 = tb s /\
    dk_log (dk s2) = dk_log (dk s) ++ [WrI (nlen g1) (29 + isz l1) (enc_item (flag it))] /\
    flat 0 gi' = A ++ (nlen g1, 29 + isz l1, flag it) :: B.
Proof.
  intros U [Eg Ek EA EF EH LH Hv Hid W Lx MA MB SA SB _] gi'.
  pose proof (si_f _ _ _ _ _ U) as F. destruct W as (W1 & W2 & W3). cbn [l_it l_id l_off fst snd] in W1, W2, W3.
  assert (Lf : live (nlen g1, 29 + isz l1, flag it) = false) by apply live_flag.
  assert (EB : flat 0 gi' = A ++ (nlen g1, 29 + isz l1, flag it) :: B).
  { unfold gi'. rewrite Eg, flat_split in EF. change (0 + nlen g1) with (nlen g1) in EF. rewrite flat_split. change (0 + nlen g1) with (nlen g1).
    rewrite EA in *. apply (split_eq _ _ (flat 0 g1 ++ place (nlen g1) 29 l1)) in EF; [|reflexivity].
    destruct EF as [_ EF]. injection EF as EF. rewrite <- EF. reflexivity. }
  assert (NM : map nlen gi' = map nlen gi).
  { unfold gi'. rewrite Eg, !map_app. cbn [map]. now rewrite (nlen_mid _ _ it). }
  assert (NL : nlen gi' = nlen gi) by (rewrite Eg; apply nlen_mid).
  assert (FL : SFInv (enc_ifs MODE_SEQ 0 gi') (dk_d (dk s)) gi' H).
  { unfold gi'. rewrite EH. rewrite Eg, EH in F. eapply sfinv_over; eauto.
    - rewrite nlen_length, <- LH, <- nlen_length, EA, nlen_app, nlen_flat, nlen_place. reflexivity.
    - now apply flag_wf.
    - intros X. congruence. }
  unfold index_entry_delete.
  rewrite (delete_disk_ok MODE_SEQ s _ g1 l1 it l2 g2);
    [| rewrite <- Eg; apply F | apply U | exact W1 | reflexivity | reflexivity | reflexivity | reflexivity].
  unfold index_entry_delete_memory. cbn [tb ix dt dk set_ix set_tb].
  destruct (dirty_set_shape (nlen g1) (ix s)) as (da & db & Ed). rewrite Ed. fold gi'.
  cbn [x_set_stats x_set_dirty x_mode]. rewrite (si_mode _ _ _ _ _ U). change (MODE_SEQ =? MODE_KV) with false. cbn iota.
  cbn [e_len e_id seq_entry x_ns x_entries x_datasize x_size].
  destruct U as [U1 U2 U3 U4 U5 U6 U7 U8 U9 U10 U11 U12 U13 U14 U15 U16].
  eexists; split; [reflexivity|].
  split; [|split; [exact NM|split; [|split; [reflexivity|split; [reflexivity|split; [reflexivity|exact EB]]]]]].
  - constructor; cbn [set_ix set_tb tb ix dt dk dk_i dk_d dk_log dk_io x_set_next x_set_stats x_set_updated x_set_prev x_set_dirty
      x_ns x_mode x_indexid x_nextentry x_nextid x_prev x_updated x_seq x_entries x_datasize x_size]; auto;
      try congruence.
    + eapply seq_ok_lens; [symmetry; exact NM|exact U5].
    + rewrite U12. symmetry. now apply tot_lens.
    + rewrite U13, EF, EB. symmetry. apply last_off_flag. reflexivity.
    + rewrite U14, EB, EF, !cnt_app, !cnt_cons, Lx, Lf.
      replace (cnt A + (1 + cnt B)) with (1 + (cnt A + cnt B)) by lia. rewrite sub64_u64. reflexivity.
    + rewrite U15, EF, EB, !dsum_app. cbn [dsum]. rewrite Lx, Lf. cbn [l_it snd].
      replace (dsum A + (it_len it + dsum B)) with (it_len it + (dsum A + dsum B)) by lia.
      rewrite sub64_u64. reflexivity.
    + rewrite U16, EB, EF, !msum_app. cbn [msum]. rewrite Lx, Lf. change (l_id (nlen g1, 29 + isz l1, it)) with (it_id it).
      replace (msum A + (ENTRY_SIZEOF + blen (it_id it) + msum B)) with (ENTRY_SIZEOF + blen (it_id it) + (msum A + msum B)) by lia.
      rewrite sub64_u64. reflexivity.
  - rewrite EB, EF, EH, !livem_mid by auto. rewrite Lx, Lf. cbn [app]. unfold kdel. rewrite filter_app. cbn [filter].
    assert (fst v = k) by (destruct Hv as (Hv & _); unfold l_id in Hv; cbn [snd] in Hv; congruence).
    rewrite H0, bseqb_refl. cbn [negb]. f_equal.
    + symmetry. apply livem_keep; auto.
    + symmetry. apply livem_keep; auto.
Qed.

(* ---- record overwritten, the old one kept as a deleted copy ---- *)
Lemma dec_prev it b : blen b = 8 -> it_id it = b -> item_wf it ->
  blen (nfirst 34 (enc_item it)) = 34 /\ it_prev (dec_item (nfirst 34 (enc_item it))) = it_prev it.
Proof.
  intros Hb Hi W.
  assert (E : nfirst 34 (enc_item it) = enc_item (mkItem (it_idlen it) (it_off it) (it_len it) (it_prev it) (it_flags it)
    (it_dataid it) (it_ts it) (it_crc it) (it_pid it) (it_poff it) [])).
  { unfold enc_item. cbn [it_idlen it_off it_len it_prev it_flags it_dataid it_ts it_crc it_pid it_poff it_id].
    rewrite app_nil_r. rewrite !app_assoc. rewrite nfirst_firstn. rewrite firstn_app.
    rewrite firstn_all2; [|rewrite !app_length, !le_length; cbn; lia].
    rewrite !app_length, !le_length. change (N.to_nat 34 - _)%nat with 0%nat. cbn [firstn]. now rewrite app_nil_r. }
  rewrite E, blen_enc_item. split; [reflexivity|].
  rewrite <- (app_nil_r (enc_item _)), dec_enc_item_norm. cbn zeta. cbn [item_norm it_prev]. apply u32_small. apply W.
Qed.

Lemma fread_34 mode f l1 it l2 : fread (enc_if mode f (l1 ++ it :: l2)) (29 + isz l1) 34 = nfirst 34 (enc_item it).
Proof.
  rewrite <- (fread_item mode f l1 it l2 (itsz it) eq_refl). unfold fread.
  rewrite !nfirst_firstn, firstn_firstn. f_equal. unfold itsz. lia.
Qed.

Lemma sinv_index_update n s m g l H k g1 l1 it l2 g2 A B HA v HB v' ts off :
  SInv n s m (g ++ [l]) H -> anchored m (g ++ [l]) ->
  at_slot (dk_d (dk s)) (g ++ [l]) H k g1 l1 it l2 g2 A B HA v HB ->
  blen v' < 4294967296 -> ts < 4294967296 -> off < 4294967296 -> 29 + isz l < 4294967296 ->
  data_ready (dk_d (dk s)) (nlen g) off k v' ts ->
  26 * (nlen l + 1) <= room (dk_d (dk s)) (nlen g) ->
  let dup := mkItem (blen k) (it_off it) (it_len it) (x_prev (ix s)) (N.lor (it_flags it) INDEX_ENTRY_DELETED)
    (it_dataid it) (it_ts it) (it_crc it) (it_pid it) (it_poff it) k in
  let it' := mkItem (blen k) off (blen v') (it_prev it) 0 (nlen g) ts (zdb_crc32 v') (nlen g) (29 + isz l) k in
  exists e s2 l2' g2',
    let gi2 := g1 ++ (l1 ++ it' :: l2') :: g2' in
    let H2 := HA ++ (k, (v', ts)) :: HB ++ [v] in
    index_set s k (idxreq off (blen v') (zdb_crc32 v') (nlen g) ts) (Some (seq_entry n (nlen g1, 29 + isz l1, it))) = (Some e, s2) /\
    SFInv (enc_ifs MODE_SEQ 0 (g ++ [l ++ [dup]])) (dk_d (dk s)) (g ++ [l ++ [dup]]) (H ++ [v]) /\
    livem (flat 0 (g ++ [l ++ [dup]])) (H ++ [v]) = livem (flat 0 (g ++ [l])) H /\
    g ++ [l ++ [dup]] = g1 ++ (l1 ++ it :: l2') :: g2' /\
    SInv n s2 m gi2 H2 /\ anchored m gi2 /\ nlen gi2 = nlen (g ++ [l]) /\ tot gi2 = tot (g ++ [l]) + 1 /\
    (exists h y, gi2 = h ++ [y] /\ y <> []) /\
    livem (flat 0 gi2) H2 = kset k v' ts (livem (flat 0 (g ++ [l])) H) /\
    dk_d (dk s2) = dk_d (dk s) /\ tb s2 = tb s /\
    dk_log (dk s2) = dk_log (dk s) ++ [WrI (nlen g) (29 + isz l) (enc_item dup)] ++ [WrI (nlen g1) (29 + isz l1) (enc_item it')] /\
    flat 0 gi2 = A ++ (nlen g1, 29 + isz l1, it') :: (B ++ [(nlen g, 29 + isz l, dup)]).
Proof.
  intros U An [Eg Ek EA EF EH LH Hver Hid W Lx MA MB SA SB _] Hv Hts Hoff Hsz (r & R1 & R2 & R3 & R4 & R5 & R6 & R7) Hroom dup it'.
  pose proof (si_f _ _ _ _ _ U) as F. destruct W as (W1 & W2 & W3). change (item_wf it) in W1. change (blen (it_id it) = 8) in W2. change (29 + isz l1 < 4294967296) in W3.
  assert (Hx : x_indexid (ix s) = nlen g).
  { pose proof (si_id _ _ _ _ _ U) as X. rewrite nlen_app in X. cbn [nlen] in X. lia. }
  assert (Hg : nlen g < 4294967296).
  { pose proof (sf_small _ _ _ _ F) as X. rewrite nlen_app in X. cbn [nlen] in X. lia. }
  assert (Hprev : x_prev (ix s) < 4294967296).
  { rewrite (si_prev _ _ _ _ _ U). apply slast_off_lt; [lia|apply F]. }
  assert (K8 : blen k = 8) by (rewrite <- Hid; exact W2).
  pose proof (tot_bound _ _ _ _ F) as TB.
  pose proof (zdb_crc32_W32 v') as Hcrc.
  assert (FL : length (flat 0 (g ++ [l])) = length H) by (eapply forall2_length; apply F).
  assert (Dd : live (nlen g, 29 + isz l, dup) = false).
  { unfold live. cbn [l_it snd dup it_flags]. rewrite is_deleted_odd. unfold INDEX_ENTRY_DELETED. now rewrite lor_1_odd. }
  assert (Wd : item_wf dup).
  { unfold item_wf in *. cbn [dup it_idlen it_off it_len it_prev it_flags it_dataid it_ts it_crc it_pid it_poff it_id].
    pose proof (lor_1_lt (it_flags it)). unfold INDEX_ENTRY_DELETED. rewrite K8. intuition lia. }
  assert (Wi : item_wf it').
  { unfold item_wf in *. cbn [it' it_idlen it_off it_len it_prev it_flags it_dataid it_ts it_crc it_pid it_poff it_id]. rewrite K8. intuition lia. }
  assert (Vd : sver_ok (dk_d (dk s)) (nlen g, 29 + isz l, dup) v).
  { unfold sver_ok in *. cbn [l_it l_id l_f l_off fst snd dup it_id it_len it_crc it_ts it_off it_dataid] in *. rewrite <- Hid. exact Hver. }
  assert (Vi : sver_ok (dk_d (dk s)) (nlen g1, 29 + isz l1, it') (k, (v', ts))).
  { unfold sver_ok. cbn [l_it l_id l_f l_off fst snd it' it_id it_len it_crc it_ts it_off it_dataid].
    repeat split; auto. exists r. repeat split; auto; apply R1. }
  assert (F1 : SFInv (enc_ifs MODE_SEQ 0 (g ++ [l ++ [dup]])) (dk_d (dk s)) (g ++ [l ++ [dup]]) (H ++ [v])).
  { eapply sfinv_append; eauto.
    - split; [|split]; cbn [l_it l_id l_off fst snd dup it_id]; auto.
    - intros X. congruence.
    - cbn [dup it_prev]. apply U. }
  destruct (seq_ok_append m g l dup (si_map _ _ _ _ _ U) An) as [M1 M2].
  assert (SP : exists l2' g2', g ++ [l ++ [dup]] = g1 ++ (l1 ++ it :: l2') :: g2' /\
    forall z, exists h y, g1 ++ (l1 ++ z :: l2') :: g2' = h ++ [y] /\ y <> []).
  { symmetry in Eg. destruct (snoc_case _ _ _ _ _ Eg) as [(-> & -> & ->)|(g2' & -> & ->)].
    - exists (l2 ++ [dup]), []. split; [rewrite <- app_assoc; reflexivity|]. intros z.
      exists g1, (l1 ++ z :: l2 ++ [dup]). split; [reflexivity|]. now destruct l1.
    - exists l2, (g2' ++ [l ++ [dup]]). split; [now rewrite <- app_assoc|]. intros z.
      exists (g1 ++ (l1 ++ z :: l2) :: g2'), (l ++ [dup]). split; [now rewrite <- app_assoc|]. now destruct l. }
  destruct SP as (l2' & g2' & SP & SL). specialize (SL it').
  set (gi2 := g1 ++ (l1 ++ it' :: l2') :: g2') in *. set (H2 := HA ++ (k, (v', ts)) :: HB ++ [v]).
  assert (EF1 : flat 0 (g ++ [l ++ [dup]]) = A ++ (nlen g1, 29 + isz l1, it) :: (B ++ [(nlen g, 29 + isz l, dup)])).
  { rewrite flat_snoc, EF, <- app_assoc. reflexivity. }
  assert (EB : flat 0 gi2 = A ++ (nlen g1, 29 + isz l1, it') :: (B ++ [(nlen g, 29 + isz l, dup)])).
  { unfold gi2. rewrite SP, flat_split in EF1. change (0 + nlen g1) with (nlen g1) in EF1. rewrite flat_split.
    change (0 + nlen g1) with (nlen g1).
    rewrite EA in *. apply (split_eq _ _ (flat 0 g1 ++ place (nlen g1) 29 l1)) in EF1; [|reflexivity].
    destruct EF1 as [_ EF1]. apply (f_equal (@tl loc)) in EF1. cbn [tl] in EF1. rewrite <- EF1.
    assert (IT : itsz it' = itsz it) by (unfold itsz; cbn [it' it_id]; lia). rewrite IT. reflexivity. }
  assert (NM : map nlen gi2 = map nlen (g ++ [l ++ [dup]])).
  { unfold gi2. rewrite SP, !map_app. cbn [map]. now rewrite (nlen_mid _ _ it). }
  assert (NL : nlen gi2 = nlen (g ++ [l])).
  { apply (f_equal nlen) in NM. rewrite !nlen_length, !map_length, <- !nlen_length in NM. rewrite NM, !nlen_app. reflexivity. }
  assert (TT : tot gi2 = tot (g ++ [l]) + 1).
  { rewrite (tot_lens _ _ NM), !tot_app. cbn [tot]. rewrite nlen_app. cbn [nlen]. lia. }
  assert (HAl : nlen HA = tot g1 + nlen l1).
  { rewrite nlen_length, <- LH, <- nlen_length, EA, nlen_app, nlen_flat, nlen_place. reflexivity. }
  assert (F2 : SFInv (enc_ifs MODE_SEQ 0 gi2) (dk_d (dk s)) gi2 H2).
  { unfold gi2, H2. rewrite SP, EH, <- app_assoc in F1. eapply sfinv_over; eauto. }
  assert (Li : live (nlen g1, 29 + isz l1, it') = true) by reflexivity.
  assert (SLT : tot g1 + nlen l1 < tot (g ++ [l])).
  { rewrite Eg, tot_app. cbn [tot]. rewrite nlen_app. cbn [nlen]. lia. }
  assert (Hslot : unle (firstn 8 k) = tot g1 + nlen l1).
  { rewrite firstn_all2 by (rewrite blen_length in K8; lia). rewrite Ek. apply unle_ident. lia. }
  assert (I1 : isz l1 = 42 * nlen l1).
  { pose proof (sf_wf _ _ _ _ F) as W. rewrite Eg in W. apply file_wf in W. eapply isz_part; eauto. }
  unfold index_set. rewrite (si_mode _ _ _ _ _ U). change (MODE_SEQ =? MODE_KV) with false. cbn iota.
  unfold index_update_entry_sequential.
  rewrite (index_append_ok MODE_SEQ s k _ g l); [| apply F | apply U | exact Hx].
  rewrite (u32_small (29 + isz l)) by lia. cbn zeta.
  unfold e_set_loc, e_set_flags, index_item_from_set.
  cbn [seq_entry e_ns e_id e_off e_idxoff e_len e_flags e_dataid e_indexid e_crc e_pid e_poff e_ts l_it fst snd].
  fold dup. cbn [tb ix dt dk x_set_updated x_set_prev x_indexid]. rewrite Hx.
  unfold index_seq_overwrite. cbn [tb ix dt dk x_set_updated x_set_prev x_seq]. rewrite (si_seq _ _ _ _ _ U), Hslot.
  rewrite (resolve_in m g1 l1 it l2' g2') by (rewrite <- SP; exact M1).
  rewrite sub64_exact by lia. replace (tot g1 + nlen l1 - tot g1) with (nlen l1) by lia.
  unfold index_seq_offset. rewrite u64_small by lia.
  replace (29 + nlen l1 * 42) with (29 + isz l1) by lia. rewrite u32_small by exact W3.
  unfold ifile. cbn [dk_i]. rewrite SP, nget_enc_ifs. cbn zeta. rewrite fread_34.
  destruct (dec_prev it k K8 Hid W1) as [D1 D2]. rewrite D1, D2, N.eqb_refl.
  unfold idxreq, e_set_parent, index_item_from_set. rewrite !u32_small by lia.
  cbn [e_ns e_id e_off e_idxoff e_len e_flags e_dataid e_indexid e_crc e_pid e_poff e_ts
       it_idlen it_off it_len it_flags it_dataid it_ts it_crc it_pid it_poff it_id].
  fold it'. unfold try_write. cbn [dk_io]. unfold do_write. cbn [apply_write fst snd dk_i dk_d dk_log dk_io].
  rewrite wrfile_over by (cbn [it' it_id]; lia). fold gi2. cbv iota beta zeta.
  unfold set_dk, set_ix. cbn [tb ix dt dk].
  match goal with |- context [index_dirty_set ?f ?y] => destruct (dirty_set_shape f y) as (da & db & Ed); rewrite Ed end.
  destruct U as [U1 U2 U3 U4 U5 U6 U7 U8 U9 U10 U11 U12 U13 U14 U15 U16].
  eexists; eexists; exists l2', g2'; split; [reflexivity|].
  split; [rewrite <- SP; exact F1|]. rewrite <- SP.
  split; [rewrite flat_snoc, livem_app by auto; cbn [livem]; change (0 + nlen g) with (nlen g); rewrite Dd; now rewrite app_nil_r|].
  split; [reflexivity|]. fold gi2 H2.
  split; [|split; [|split; [exact NL|split; [exact TT|split; [exact SL|split; [|split; [reflexivity|split; [reflexivity|split; [|exact EB]]]]]]]]].
  - constructor; cbn [insert_memory_seq set_ix set_tb tb ix dt dk dk_i dk_d dk_log dk_io x_set_next x_set_stats x_set_updated x_set_prev x_set_dirty
      x_ns x_mode x_indexid x_nextentry x_nextid x_prev x_updated x_seq x_entries x_datasize x_size e_len]; auto; try congruence.
    + eapply seq_ok_lens; [symmetry; exact NM|exact M1].
    + rewrite U12, TT, u64_small by lia. reflexivity.
    + rewrite EB, last_off_app. cbn [last_off]. rewrite last_off_app. reflexivity.
    + rewrite U14, EB, EF, !cnt_app, !cnt_cons, Lx, Li, cnt_app, cnt_cons, Dd. cbn [cnt filter nlen]. change (cnt []) with 0. f_equal. lia.
    + rewrite U15, EF, EB, !dsum_app. cbn [dsum]. rewrite Lx, Li, dsum_app. cbn [dsum]. rewrite Dd. cbn [l_it snd it' it_len].
      replace (dsum A + (it_len it + dsum B)) with (it_len it + (dsum A + dsum B)) by lia.
      rewrite sub64_u64, add64_u64. f_equal. lia.
    + rewrite U16, EB, EF, !msum_app. cbn [msum]. rewrite Lx, Li, msum_app. cbn [msum]. rewrite Dd.
      change (l_id (nlen g1, 29 + isz l1, it)) with (it_id it). change (l_id (nlen g1, 29 + isz l1, it')) with k.
      rewrite Hid. f_equal. lia.
  - eapply anchored_lens; [symmetry; exact NM|exact M2].
  - unfold H2. rewrite EB, EF, EH, (livem_mid A (nlen g1, 29 + isz l1, it')), (livem_mid A (nlen g1, 29 + isz l1, it)) by auto. rewrite Lx, Li.
    rewrite (livem_app B) by (eapply forall2_length; eauto). cbn [livem]. rewrite Dd, app_nil_r.
    unfold kset. rewrite !map_app. cbn [map].
    assert (E : fst v = k) by (destruct Hver as (Hver & _); unfold l_id in Hver; cbn [snd] in Hver; congruence).
    rewrite E, bseqb_refl. f_equal; [|f_equal].
    + symmetry. apply (kset_keep k v' ts). now apply livem_other.
    + symmetry. apply (kset_keep k v' ts). now apply livem_other.
  - cbn [dk dk_log]. rewrite <- app_assoc. reflexivity.
Qed.
