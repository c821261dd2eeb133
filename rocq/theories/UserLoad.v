(* Opening a namespace rebuilds the memory table from the files. *)
From Coq Require Import List NArith ZArith Bool Strings.Byte Strings.String Lia ZifyBool ZifyN ZifyNat.
From Verif Require Import Bytes BytesFacts Crc32 Crc32Facts Layout LayoutFacts Store Commands SpecKV
  Ghost DataFacts TableFacts CheckFacts UserInv UserSteps.
Import ListNotations.
Open Scope N_scope.
Local Notation length := List.length.
Ltac Zify.zify_post_hook ::= Z.div_mod_to_equations.

(* table and counters after the records G were replayed *)
Record LInv (n : N) (t : table) (x : index) (G : list loc) : Prop := {
  li_mode : x_mode x = MODE_KV;
  li_ns : x_ns x = n;
  li_seq : x_seq x = None;
  li_tab : TInv t n (entries n G);
  li_prev : x_prev x = last_off 0 G;
  li_cnt : x_entries x = u64 (cnt G);
  li_dsz : x_datasize x = u64 (dsum G);
  li_msz : x_size x = u64 (msum G);
  li_next : x_nextentry x = u64 (nlen G)
}.

Lemma dec_item_rest it rest : item_wf it ->
  dec_item (enc_item it ++ rest) =
  mkItem (it_idlen it) (it_off it) (it_len it) (it_prev it) (it_flags it) (it_dataid it) (it_ts it)
    (it_crc it) (it_pid it) (it_poff it) (it_id it ++ rest).
Proof. intros W. rewrite dec_enc_item_norm, item_norm_wf by auto. reflexivity. Qed.

Lemma sub64_add64 a b : b < 18446744073709551616 -> a < 18446744073709551616 -> sub64 (add64 a b) b = a.
Proof. unfold sub64, add64, u64. lia. Qed.

Lemma u64_succ a : u64 (u64 a + 1) = u64 (a + (1 + 0)).
Proof. unfold u64. lia. Qed.

Lemma load_step fuel rest off t x : rest <> [] ->
  index_load_loop (S fuel) rest off t x =
    (let raw := dec_item rest in
     let n := 34 + it_idlen raw in
     if blen rest <? n then None
     else
       let id := nfirst (it_idlen raw) (it_id raw) in
       let source := mkEntry (x_ns x) id (it_off raw) (u32 off) (it_len raw) (it_flags raw) 0
                       (x_indexid x) (it_crc raw) (it_pid raw) (it_poff raw) (it_ts raw) in
       let x0 := if off =? 29 then index_seqid_push (x_nextentry x) (x_indexid x) x else x in
       let '(t1, x1, fresh) := index_set_memory t x0 id source in
       let '(t2, x2) := if is_deleted (e_flags fresh)
                        then index_entry_delete_memory t1 x1 fresh else (t1, x1) in
       index_load_loop fuel (nskip n rest) (off + n) t2 (x_set_prev off x2)).
Proof. destruct rest; [congruence|reflexivity]. Qed.

Lemma load_loop_ok n f l : forall fuel off t x G0,
  (length (enc_items l) <= fuel)%nat ->
  LInv n t x G0 -> x_indexid x = f -> f < 4294967296 ->
  live_last (G0 ++ place f off l) -> Forall loc_wf (place f off l) ->
  exists t' x', index_load_loop fuel (enc_items l) off t x = Some (t', x') /\
    LInv n t' x' (G0 ++ place f off l) /\ x_indexid x' = f /\ tframe n t t'.
Proof.
  induction l as [|it l IH]; intros fuel off t x G0 Hfuel L Hx Hf LL W.
  - exists t, x. cbn [place]. rewrite app_nil_r. destruct fuel; (split; [reflexivity|split; [exact L|split; [exact Hx|apply tframe_refl]]]).
  - cbn [place] in *. inversion W as [|? ? W1 W']; subst. destruct W1 as (W1 & W2 & W3).
    cbn [l_it l_id l_off fst snd] in W1, W2, W3.
    rewrite enc_items_cons in Hfuel |- *. rewrite app_length in Hfuel.
    assert (Hl34 : (34 <= length (enc_item it))%nat).
    { pose proof (blen_enc_item it) as X. rewrite blen_length in X. lia. }
    destruct fuel as [|fuel]; [lia|].
    assert (NE : enc_item it ++ enc_items l <> []).
    { intros X. apply (f_equal (@length byte)) in X. rewrite app_length in X. cbn [length] in X. lia. }
    rewrite load_step by exact NE. clear NE. cbn zeta.
    rewrite dec_item_rest by auto.
    cbn [it_idlen it_off it_len it_prev it_flags it_dataid it_ts it_crc it_pid it_poff it_id].
    pose proof W1 as (I1 & I2 & I3 & I4 & _).
    replace (34 + it_idlen it) with (blen (enc_item it)) by (rewrite blen_enc_item; lia).
    destruct (N.ltb_spec (blen (enc_item it ++ enc_items l)) (blen (enc_item it))) as [X|_];
      [rewrite blen_app in X; lia|].
    rewrite nfirst_app_exact' by exact I1. rewrite nskip_app_exact' by reflexivity.
    rewrite (u32_small off) by exact W3.
    destruct L as [L1 L2 L3 L4 L5 L6 L7 L8 L9].
    assert (X0 : (if off =? 29 then index_seqid_push (x_nextentry x) (x_indexid x) x else x) = x).
    { destruct (off =? 29); auto. unfold index_seqid_push. now rewrite L3. }
    rewrite X0. cbn zeta. clear X0.
    assert (NL : forall y, In y G0 -> live y = true -> l_id y <> it_id it).
    { intros y Hy Ly E. clear - LL Hy Ly E. induction G0 as [|z G0 IH]; [contradiction|].
      cbn [app live_last] in LL. destruct LL as [L1 L2]. destruct Hy as [->|Hy]; auto.
      specialize (L1 Ly). apply Forall_app in L1. destruct L1 as [_ L1]. inversion L1 as [|? ? Q _]; subst.
      apply Q. symmetry. exact E. }
    assert (NK : ~ In (it_id it) (map e_id (entries n G0))).
    { rewrite entries_ids. intros Hi. apply in_map_iff in Hi. destruct Hi as (y & Hy1 & Hy2).
      apply filter_In in Hy2. destruct Hy2. apply (NL y); auto. }
    unfold index_set_memory. rewrite L1, L2. change (MODE_KV =? MODE_SEQ) with false. cbn iota.
    destruct (index_entry_get t n (it_id it)) as [old|] eqn:EG.
    { exfalso. destruct (entry_get_in _ _ _ _ _ L4 EG) as [Hi He]. apply NK. rewrite <- He. now apply in_map. }
    unfold insert_memory_memkey. rewrite L2.
    cbn [e_ns e_id e_off e_idxoff e_len e_flags e_dataid e_indexid e_crc e_pid e_poff e_ts].
    set (e := mkEntry n (it_id it) (it_off it) off (it_len it) (it_flags it) (x_indexid x) (x_indexid x)
               (it_crc it) (it_pid it) (it_poff it) (it_ts it)).
    assert (EE : e = entry_of n (x_indexid x, off, it)) by reflexivity.
    assert (Tadd : TInv (table_append t e) n (entries n G0 ++ [e])) by (apply tinv_append; auto).
    replace (off + blen (enc_item it)) with (off + itsz it) by (rewrite blen_enc_item; reflexivity).
    destruct (is_deleted (it_flags it)) eqn:D.
    + (* flagged: added, then removed *)
      unfold index_entry_delete_memory.
      cbn [x_set_stats x_set_next x_ns x_mode x_entries x_datasize x_size]. rewrite L1, N.eqb_refl.
      cbn [e e_id e_len].
      assert (LV : live (x_indexid x, off, it) = false) by (unfold live; cbn [l_it snd]; now rewrite D).
      assert (EG0 : entries n (G0 ++ [(x_indexid x, off, it)]) = entries n G0).
      { rewrite entries_app. unfold entries at 2. cbn [filter]. rewrite LV. apply app_nil_r. }
      match goal with |- exists _ _, index_load_loop _ _ _ ?T ?X = _ /\ _ =>
        destruct (IH fuel (off + itsz it) T X (G0 ++ [(x_indexid x, off, it)])) as (t' & x' & R1 & R2 & R3 & R4);
        [ | | | | | | exists t', x'; split; [|split; [|split]]] end.
      * lia.
      *
        rewrite !sub64_add64 by (try (rewrite L6; apply u64_lt); try (rewrite L7; apply u64_lt);
          try (rewrite L8; apply u64_lt); unfold ENTRY_SIZEOF; lia).
        constructor; cbn [x_set_prev x_set_stats x_set_next x_ns x_mode x_indexid x_prev x_seq x_entries x_datasize x_size]; auto.
        -- rewrite EG0.
           replace (entries n G0) with (filter (fun y => negb (bseqb (e_id y) (it_id it))) (entries n G0 ++ [e])).
           ++ rewrite L2. now apply tinv_remove.
           ++ rewrite filter_app. cbn [filter e e_id]. rewrite bseqb_refl. cbn [negb]. rewrite app_nil_r.
              apply entries_keep. apply Forall_forall. auto.
        -- rewrite last_off_app. reflexivity.
        -- rewrite L6, cnt_app, cnt_cons, LV. change (cnt []) with 0. f_equal. lia.
        -- rewrite L7, dsum_app. cbn [dsum]. rewrite LV. f_equal. lia.
        -- rewrite L8, msum_app. cbn [msum]. rewrite LV. f_equal. lia.
        -- cbn [x_nextentry x_set_prev x_set_next x_set_stats]. rewrite L9, nlen_app. cbn [nlen]. apply u64_succ.
      * reflexivity.
      * exact Hf.
      * rewrite <- app_assoc. exact LL.
      * exact W'.
      * exact R1.
      * rewrite <- app_assoc in R2. exact R2.
      * exact R3.
      * eapply tframe_trans; [|exact R4]. rewrite L2. eapply tframe_trans; [|apply tframe_remove].
        apply (tframe_append t e).
    + assert (LV : live (x_indexid x, off, it) = true) by (unfold live; cbn [l_it snd]; now rewrite D).
      match goal with |- exists _ _, index_load_loop _ _ _ ?T ?X = _ /\ _ =>
        destruct (IH fuel (off + itsz it) T X (G0 ++ [(x_indexid x, off, it)])) as (t' & x' & R1 & R2 & R3 & R4);
        [ | | | | | | exists t', x'; split; [|split; [|split]]] end.
      * lia.
      *
        constructor; cbn [x_set_prev x_set_stats x_set_next x_ns x_mode x_indexid x_prev x_seq x_entries x_datasize x_size]; auto.
        -- rewrite entries_app. unfold entries at 2. cbn [filter]. rewrite LV. cbn [map]. rewrite <- EE. exact Tadd.
        -- rewrite last_off_app. reflexivity.
        -- rewrite L6, add64_u64, cnt_app, cnt_cons, LV. reflexivity.
        -- rewrite L7, add64_u64, dsum_app. cbn [dsum]. rewrite LV, N.add_0_r. reflexivity.
        -- rewrite L8, add64_u64, msum_app. cbn [msum]. rewrite LV, N.add_0_r. reflexivity.
        -- cbn [x_nextentry x_set_prev x_set_next x_set_stats]. rewrite L9, nlen_app. cbn [nlen]. apply u64_succ.
      * reflexivity.
      * exact Hf.
      * rewrite <- app_assoc. exact LL.
      * exact W'.
      * exact R1.
      * rewrite <- app_assoc in R2. exact R2.
      * exact R3.
      * eapply tframe_trans; [|exact R4]. apply (tframe_append t e).
Qed.

(* a write which changes nothing *)
Definition idle (fs : list bytes * list bytes) (w : dwrite) : Prop := apply_write w fs = fs.

Lemma mkfile_idle f di : f < nlen di -> mkfile f di = di.
Proof. intros H. unfold mkfile. destruct (N.eqb_spec f (nlen di)); [lia|reflexivity]. Qed.

Lemma wr_header_idle m g1 l g2 : wrfile (nlen g1) 0 (index_header (nlen g1) m) (enc_ifs m 0 (g1 ++ l :: g2))
  = enc_ifs m 0 (g1 ++ l :: g2).
Proof.
  unfold wrfile. rewrite nget_enc_ifs. unfold enc_if. change (0 + nlen g1) with (nlen g1).
  rewrite fwrite_hdr. apply nset_same. rewrite nget_enc_ifs. reflexivity.
Qed.

Lemma dec_index_header f m rest : f < 4294967296 -> m < 256 ->
  dec_ihdr (index_header f m ++ rest) = mkIhdr (str "IDX0") ZDB_IDXFILE_VERSION 0 0 f m.
Proof. intros. unfold index_header. apply dec_enc_ihdr; cbn [ih_magic ih_version ih_created ih_opened ih_fileid ih_mode]; try reflexivity; lia. Qed.

Definition smode_ok (smode : N) : Prop := smode = MODE_KV \/ smode = MODE_MIX.

Lemma load_file_ok smode n s g1 l g2 : smode_ok smode ->
  dk_i (dk s) = enc_ifs MODE_KV 0 (g1 ++ l :: g2) -> x_indexid (ix s) = nlen g1 -> nlen g1 < 4294967296 ->
  LInv n (tb s) (ix s) (flat 0 g1) ->
  live_last (flat 0 (g1 ++ [l])) -> Forall loc_wf (flat 0 (g1 ++ [l])) ->
  exists s', index_load_file smode s = LOk s' /\
    dk_i (dk s') = dk_i (dk s) /\ dk_d (dk s') = dk_d (dk s) /\ dk_io (dk s') = dk_io (dk s) /\
    dt s' = dt s /\ x_indexid (ix s') = nlen g1 /\ LInv n (tb s') (ix s') (flat 0 (g1 ++ [l])) /\
    tframe n (tb s) (tb s') /\
    exists W, dk_log (dk s') = dk_log (dk s) ++ W /\ Forall (idle (dk_i (dk s), dk_d (dk s))) W.
Proof.
  intros Hsm Hi Hx Hf L LL W.
  assert (EF : flat 0 (g1 ++ [l]) = flat 0 g1 ++ place (nlen g1) 29 l).
  { rewrite flat_app. cbn [flat]. change (0 + nlen g1) with (nlen g1). now rewrite app_nil_r. }
  rewrite EF in *.
  assert (E0 : do_write (MkI (nlen g1)) (dk s)
    = mkDisk (dk_i (dk s)) (dk_d (dk s)) (dk_log (dk s) ++ [MkI (nlen g1)]) (dk_io (dk s))).
  { unfold do_write. cbn [apply_write fst snd]. rewrite mkfile_idle; auto.
    rewrite Hi, nlen_enc_ifs, nlen_app. cbn [nlen]. lia. }
  unfold index_load_file. rewrite Hx. cbn zeta. rewrite E0. unfold ifile. cbn [dk_i]. rewrite Hi, nget_enc_ifs.
  change (0 + nlen g1) with (nlen g1).
  assert (EH : fread (enc_if MODE_KV (nlen g1) l) 0 29 = index_header (nlen g1) MODE_KV).
  { change (fread (enc_if MODE_KV (nlen g1) l) 0 29)
      with (fread ([] ++ index_header (nlen g1) MODE_KV ++ enc_items l) (blen []) 29).
    apply fread_app. now rewrite blen_index_header. }
  rewrite EH, blen_index_header. change (29 =? 29) with true. cbn iota.
  unfold index_load_body. rewrite <- (app_nil_r (index_header (nlen g1) MODE_KV)).
  rewrite dec_index_header by (auto; reflexivity).
  cbn [ih_magic ih_version ih_created ih_opened ih_fileid ih_mode].
  change (bseqb (str "IDX0") (str "IDX0")) with true. cbn [negb].
  change (ZDB_IDXFILE_VERSION =? ZDB_IDXFILE_VERSION) with true. cbn [negb].
  change ((MODE_KV =? MODE_SEQ) || (MODE_KV =? MODE_KV)) with true. cbn iota.
  cbn [set_dk tb ix dt dk].
  assert (ER : index_rehash (x_set_mode MODE_KV (ix s)) = ix s).
  { assert (EM : x_set_mode MODE_KV (ix s) = ix s)
      by (rewrite <- (li_mode _ _ _ _ L); now destruct (ix s)).
    rewrite EM. unfold index_rehash. rewrite (li_mode _ _ _ _ L).
    change (MODE_KV =? MODE_SEQ) with false. cbn iota. now rewrite (li_seq _ _ _ _ L). }
  rewrite ER, Hx. change (mkIhdr (str "IDX0") ZDB_IDXFILE_VERSION 0 0 (nlen g1) MODE_KV)
    with (mkIhdr (str "IDX0") ZDB_IDXFILE_VERSION 0 0 (nlen g1) MODE_KV).
  fold (index_header (nlen g1) MODE_KV).
  assert (SM : negb (smode =? MODE_MIX) && negb (MODE_KV =? smode) = false).
  { destruct Hsm as [->| ->]; reflexivity. }
  rewrite SM.
  unfold do_write. cbn [apply_write fst snd dk_i dk_d dk_log dk_io].
  rewrite ?Hi, wr_header_idle. unfold ifile. cbn [dk_i]. rewrite nget_enc_ifs. change (0 + nlen g1) with (nlen g1).
  assert (EB : nskip 29 (enc_if MODE_KV (nlen g1) l) = enc_items l).
  { unfold enc_if. apply nskip_app_exact'. now rewrite blen_index_header. }
  rewrite EB.
  assert (L' : LInv n (tb s) (x_set_next (x_nextentry (ix s)) 0 (ix s)) (flat 0 g1)).
  { destruct L as [L1 L2 L3 L4 L5 L6 L7 L8 L9]. constructor; auto. }
  destruct (load_loop_ok n (nlen g1) l (length (enc_items l)) 29 (tb s)
    (x_set_next (x_nextentry (ix s)) 0 (ix s)) (flat 0 g1)) as (t' & x' & R1 & R2 & R3 & R4); auto.
  { apply Forall_app in W. apply W. }
  rewrite R1. eexists. split; [reflexivity|]. cbn [tb ix dt dk dk_i dk_d dk_log dk_io].
  split; [reflexivity|]. split; [reflexivity|]. split; [reflexivity|]. split; [reflexivity|].
  split; [exact R3|]. split; [exact R2|]. split; [exact R4|].
  exists [MkI (nlen g1); WrI (nlen g1) 0 (index_header (nlen g1) MODE_KV)].
  rewrite <- app_assoc. split; [reflexivity|]. repeat constructor.
  - unfold idle. cbn [apply_write fst snd]. rewrite mkfile_idle; [reflexivity|].
    rewrite nlen_enc_ifs, nlen_app. cbn [nlen]. lia.
  - unfold idle. cbn [apply_write fst snd]. now rewrite wr_header_idle.
Qed.

Lemma linv_set_id n t x G f : LInv n t x G -> LInv n t (index_set_id f x) G /\ x_indexid (index_set_id f x) = f.
Proof.
  intros [L1 L2 L3 L4 L5 L6 L7 L8 L9]. unfold index_set_id.
  destruct (dirty_resize_shape f (x_set_indexid f x)) as (a & b & ->).
  split; [constructor; auto|reflexivity].
Qed.

Lemma load_files_ok smode n gi : smode_ok smode -> nlen gi <= 4294967296 ->
  live_last (flat 0 gi) -> Forall loc_wf (flat 0 gi) ->
  forall g2 g1 s, gi = g1 ++ g2 ->
  dk_i (dk s) = enc_ifs MODE_KV 0 gi -> LInv n (tb s) (ix s) (flat 0 g1) ->
  exists s', index_load_files smode (length g2) (nlen g1) s = LOk s' /\
    dk_i (dk s') = dk_i (dk s) /\ dk_d (dk s') = dk_d (dk s) /\ dk_io (dk s') = dk_io (dk s) /\
    dt s' = dt s /\ (g2 <> [] -> x_indexid (ix s') + 1 = nlen gi) /\ LInv n (tb s') (ix s') (flat 0 gi) /\
    tframe n (tb s) (tb s') /\
    exists W, dk_log (dk s') = dk_log (dk s) ++ W /\ Forall (idle (dk_i (dk s), dk_d (dk s))) W.
Proof.
  intros Hsm Hn LL W. induction g2 as [|l g2 IH]; intros g1 s E Hi L; cbn [length index_load_files].
  - exists s. rewrite app_nil_r in E. subst g1. do 5 (split; [reflexivity|]). split; [congruence|]. split; [exact L|].
    split; [apply tframe_refl|]. exists []. rewrite app_nil_r. split; auto.
  - assert (Ep : flat 0 gi = flat 0 (g1 ++ [l]) ++ flat (nlen (g1 ++ [l])) g2).
    { subst gi. change (l :: g2) with ([l] ++ g2). rewrite app_assoc, flat_app. reflexivity. }
    destruct (linv_set_id _ _ _ _ (nlen g1) L) as [L' Lid].
    destruct (load_file_ok smode n (set_ix (index_set_id (nlen g1) (ix s)) s) g1 l g2)
      as (s1 & R1 & R2 & R3 & R4 & R5 & R6 & R7 & R8 & W1 & R9 & R10); auto.
    + cbn [set_ix dk]. now rewrite Hi, E.
    + rewrite E, nlen_app in Hn. cbn [nlen] in Hn. lia.
    + rewrite Ep in LL. apply live_last_app in LL. apply LL.
    + rewrite Ep in W. apply Forall_app in W. apply W.
    + rewrite R1. cbn [set_ix dk tb dt] in *.
      destruct (IH (g1 ++ [l]) s1) as (s' & Q1 & Q2 & Q3 & Q4 & Q5 & Q6 & Q7 & Q8 & W2 & Q9 & Q10).
      * now rewrite <- app_assoc.
      * congruence.
      * exact R7.
      * exists s'. assert (NL : nlen g1 + 1 = nlen (g1 ++ [l])) by (rewrite nlen_app; reflexivity).
        rewrite NL. split; [exact Q1|]. split; [congruence|]. split; [congruence|]. split; [congruence|].
        split; [congruence|]. split.
        { intros _. destruct g2 as [|l' g2].
          - cbn [length index_load_files] in Q1. injection Q1 as <-. rewrite R6, E, nlen_app. reflexivity.
          - apply Q6. discriminate. }
        split; [exact Q7|]. split; [eapply tframe_trans; eauto|].
        exists (W1 ++ W2). split; [rewrite Q9, R9, app_assoc; reflexivity|].
        apply Forall_app. split; auto. now rewrite R2, R3 in Q10.
Qed.

(* what the data directory may look like when the namespace is opened: complete,
   or without the current file, or with a cut header in the current file *)
Definition dd_openable (dd : list bytes) (nf : N) : Prop :=
  (nlen dd = nf /\ dhdr_ok dd) \/ (nlen dd + 1 = nf /\ dhdr_ok dd) \/
  (exists (d0 : list bytes) j, dd = d0 ++ [nfirst j (data_header (nlen d0))] /\ nlen dd = nf /\ dhdr_ok d0).

Lemma some_inj {A} (a b : A) : Some a = Some b -> a = b.
Proof. congruence. Qed.

Lemma fwrite_cut j h : fwrite (nfirst j h) 0 h = h.
Proof.
  unfold fwrite. rewrite nfirst_0. change (zeros (0 - blen (nfirst j h))) with (zeros (0 - blen (nfirst j h))).
  replace (0 - blen (nfirst j h)) with 0 by lia. cbn [zeros N.to_nat repeat app].
  rewrite nskip_all. apply app_nil_r. rewrite <- blen_nlen, blen_nfirst. lia.
Qed.

Lemma data_init_openable d nf : dd_openable (dk_d d) nf -> 0 < nf ->
  exists dd', data_initialize (nf - 1) d = mkDisk (dk_i d) dd'
      (dk_log d ++ [MkD (nf - 1); WrD (nf - 1) 0 (data_header (nf - 1))]) (dk_io d) /\
    nlen dd' = nf /\ dhdr_ok dd' /\ dext (dk_d d) dd' /\
    (nlen (dk_d d) = nf -> dhdr_ok (dk_d d) -> dd' = dk_d d).
Proof.
  intros [(H1 & H2)|[(H1 & H2)|(d0 & j & H1 & H2 & H3)]] Hp.
  - destruct (nget_Some (nf - 1) (dk_d d)) as (file & Hf); [lia|]. destruct (H2 _ _ Hf) as (r & Hr).
    exists (dk_d d). rewrite (data_init_disk_existing _ _ file r) by auto. repeat split; auto using dext_refl.
  - exists (dk_d d ++ [data_header (nf - 1)]). rewrite data_init_disk_new by lia.
    split; [reflexivity|]. split; [rewrite nlen_app; cbn [nlen]; lia|]. split.
    + replace (nf - 1) with (nlen (dk_d d)) by lia. now apply dhdr_ok_snoc.
    + split; [apply dext_snoc|]. intros. lia.
  - assert (E : nf - 1 = nlen d0) by (rewrite H1, nlen_app in H2; cbn [nlen] in H2; lia).
    exists (d0 ++ [data_header (nlen d0)]). rewrite E. split.
    + unfold data_initialize, do_write. cbn [apply_write fst snd dk_io dk_d dk_i dk_log].
      rewrite mkfile_idle by (rewrite H1, nlen_app; cbn [nlen]; lia).
      unfold wrfile. rewrite H1, nget_app_r, nset_app_r, fwrite_cut, <- app_assoc. reflexivity.
    + split; [rewrite nlen_app in *; cbn [nlen] in *; lia|]. split; [now apply dhdr_ok_snoc|]. split.
      * rewrite H1. intros f file Hf. destruct (N.lt_ge_cases f (nlen d0)) as [Hl|Hl].
        -- rewrite nget_app1 in Hf |- * by auto. exists []. now rewrite app_nil_r.
        -- apply nget_lt in Hf as Hx. rewrite nlen_app in Hx. cbn [nlen] in Hx.
           replace f with (nlen d0) in * by lia. rewrite nget_app_r in Hf |- *. apply some_inj in Hf. rewrite <- Hf.
           exists (nskip j (data_header (nlen d0))). now rewrite nfirst_nskip.
      * intros _ Hd. rewrite H1 in Hd |- *. destruct (Hd (nlen d0) _ (nget_app_r _ _ _)) as (r & Hr).
        rewrite Hr. f_equal. f_equal. apply (f_equal blen) in Hr as Hb.
        rewrite blen_nfirst, blen_app, blen_data_header in Hb. destruct r; [symmetry; apply app_nil_r|].
        cbn [blen] in Hb. lia.
Qed.

Theorem open_ok smode n t d gi H : smode_ok smode -> FInv (dk_i d) (dk_d d) gi H -> 0 < nlen gi ->
  dd_openable (dk_d d) (nlen gi) -> dk_io d = [] -> TInv t n [] ->
  exists s', store_open smode n t d = Some s' /\ UInv n s' gi H /\ tframe n t (tb s') /\
    dext (dk_d d) (dk_d (dk s')) /\ dk_i (dk s') = dk_i d /\
    (nlen (dk_d d) = nlen gi -> dhdr_ok (dk_d d) -> dk_d (dk s') = dk_d d) /\
    exists W, dk_log (dk s') = dk_log d ++ W ++ [MkD (nlen gi - 1); WrD (nlen gi - 1) 0 (data_header (nlen gi - 1))]
      /\ Forall (idle (dk_i d, dk_d d)) W.
Proof.
  intros Hsm F Hgi Hdd Hio T0. pose proof (fi_files _ _ _ _ F) as Hi.
  unfold store_open.
  set (x0 := index_rehash (index_init_lazy smode n)).
  assert (LX : LInv n t (index_dirty_resize (nlen (dk_i d)) x0) (flat 0 [])).
  { assert (E0 : exists a b, x0 = mkIndex n MODE_KV 0 0 0 0 false None 0 0 0 a b).
    { unfold x0, index_init_lazy.
      match goal with |- context [index_dirty_resize 1 ?y] => destruct (dirty_resize_shape 1 y) as (a & b & ->) end.
      exists a, b. destruct Hsm as [->| ->]; reflexivity. }
    destruct E0 as (a & b & E0).
    destruct (dirty_resize_shape (nlen (dk_i d)) x0) as (a' & b' & ->). rewrite E0.
    constructor; auto. }
  unfold index_internal_load. cbn [dk].
  assert (Hnl : nlen (dk_i d) = nlen gi) by (rewrite Hi; apply nlen_enc_ifs).
  assert (Hll : length (dk_i d) = length gi).
  { rewrite !nlen_length in Hnl. lia. }
  rewrite Hnl, Hll. destruct (N.ltb_spec 0 (nlen gi)) as [_|X]; [|lia].
  destruct (load_files_ok smode n gi Hsm (fi_small _ _ _ _ F) (fi_last _ _ _ _ F) (fi_wf _ _ _ _ F)
    gi [] (set_ix (index_dirty_resize (nlen gi) (ix (mkEst t x0 (mkData 0 0) d))) (mkEst t x0 (mkData 0 0) d)))
    as (s1 & R1 & R2 & R3 & R4 & R5 & R6 & R7 & R8 & W & R9 & R10); auto.
  { cbn [set_ix tb ix]. rewrite <- Hnl. exact LX. }
  cbn [nlen] in R1. rewrite R1. cbn [set_ix set_dk tb ix dt dk] in *.
  assert (Hid : x_indexid (ix s1) + 1 = nlen gi) by (apply R6; intros ->; cbn [nlen] in Hgi; lia).
  assert (Hid' : x_indexid (ix s1) = nlen gi - 1) by lia.
  assert (E0 : do_write (MkI (x_indexid (ix s1))) (dk s1)
    = mkDisk (dk_i d) (dk_d d) (dk_log (dk s1) ++ [MkI (x_indexid (ix s1))]) []).
  { unfold do_write. cbn [apply_write fst snd]. rewrite mkfile_idle by (rewrite R2, Hnl; lia).
    rewrite R2, R3, R4, Hio. reflexivity. }
  rewrite E0. unfold data_init, set_dt, set_dk, set_ix, x_set_updated. cbn [tb ix dt dk x_indexid].
  rewrite Hid'.
  destruct (data_init_openable (mkDisk (dk_i d) (dk_d d) (dk_log (dk s1) ++ [MkI (nlen gi - 1)]) []) (nlen gi))
    as (dd' & D1 & D2 & D3 & D4 & D5); auto.
  rewrite D1. cbn [dk_i dk_d dk_log dk_io].
  eexists. split; [reflexivity|]. cbn [tb ix dt dk dk_i dk_d dk_log dk_io].
  destruct R7 as [L1 L2 L3 L4 L5 L6 L7 L8 L9].
  split; [|split; [exact R8|split; [exact D4|split; [reflexivity|split; [exact D5|]]]]].
  - constructor; cbn [tb ix dt dk dk_i dk_d dk_log dk_io x_ns x_mode x_indexid x_prev x_seq x_entries x_datasize x_size]; auto.
    + eapply finv_dext; eauto.
    + lia.
    + unfold data_open_final. destruct (dfile _ _); reflexivity.
    + cbn [x_nextentry]. rewrite L9. pose proof (flat_bound _ _ (fi_wf _ _ _ _ F)) as B.
      pose proof (fi_small _ _ _ _ F) as C. unfold u64. rewrite N.mod_small by lia. split; [lia|].
      destruct (flat 0 gi); [auto|cbn [nlen]; lia].
  - exists (W ++ [MkI (nlen gi - 1)]). rewrite R9, <- !app_assoc. split; [reflexivity|].
    apply Forall_app. split; auto. repeat constructor. unfold idle. cbn [apply_write fst snd].
    rewrite mkfile_idle by lia. reflexivity.
Qed.

(* a new namespace *)
Definition fresh_writes (m : N) : list dwrite :=
  [MkI 0; WrI 0 0 (index_header 0 m); WrI 0 0 (index_header 0 m); MkI 0; MkD 0; WrD 0 0 (data_header 0)].

Lemma open_fresh smode n t d : smode_ok smode -> dk_i d = [] -> dk_d d = [] -> dk_io d = [] -> TInv t n [] ->
  exists s', store_open smode n t d = Some s' /\ UInv n s' [[]] [] /\ tb s' = t /\
    dk_log (dk s') = dk_log d ++ fresh_writes MODE_KV.
Proof.
  intros Hsm Hi Hd Hio T. destruct d as [di dd lg io]. cbn [dk_i dk_d dk_io dk_log] in *. subst di dd io.
  assert (E : exists x, store_open smode n t (mkDisk [] [] lg []) = Some
     (mkEst t x (mkData 0 0) (mkDisk [index_header 0 MODE_KV] [data_header 0] (lg ++ fresh_writes MODE_KV) [])) /\
     x_mode x = MODE_KV /\ x_ns x = n /\ x_seq x = None /\ x_indexid x = 0 /\ x_prev x = 0 /\
     x_entries x = 0 /\ x_datasize x = 0 /\ x_size x = 0 /\ x_nextentry x = 0).
  { destruct Hsm as [->| ->].
    - eexists. split.
      + match goal with |- ?l = _ => let v := eval cbv in l in change l with v end.
        fold (@app dwrite). rewrite <- !app_assoc. cbn [app]. reflexivity.
      + repeat split.
    - eexists. split.
      + match goal with |- ?l = _ => let v := eval cbv in l in change l with v end.
        fold (@app dwrite). rewrite <- !app_assoc. cbn [app]. reflexivity.
      + repeat split. }
  destruct E as (x & E & X1 & X2 & X3 & X4 & X5 & X6 & X7 & X8 & X9). rewrite E.
  eexists. split; [reflexivity|]. cbn [tb dk dk_log]. split; [|split; reflexivity].
  constructor; cbn [tb ix dt dk dk_i dk_d dk_log dk_io d_dataid]; auto; try congruence.
  - constructor; cbn [flat place app live_last chain]; auto.
    + cbn [nlen]. lia.
    + intros g l Hg. apply (app_inj_tail [] g) in Hg. destruct Hg as [_ <-]. cbn [isz]. lia.
  - rewrite X4. reflexivity.
  - intros f file Hf. cbn [nget] in Hf. destruct (N.eqb_spec f 0) as [->|]; [|discriminate].
    apply some_inj in Hf. subst. exists []. now rewrite app_nil_r.
  - rewrite X9. cbn [flat place app nlen]. split; [lia|auto].
Qed.
