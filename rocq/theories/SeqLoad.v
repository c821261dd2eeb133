(* Opening a sequential namespace rebuilds the identifier map and the counters. *)
From Coq Require Import List NArith ZArith Bool Strings.Byte Strings.String Lia ZifyBool ZifyN ZifyNat.
From Verif Require Import Bytes BytesFacts Crc32 Crc32Facts Layout LayoutFacts Store Commands SpecKV SpecSeq
  Ghost DataFacts TableFacts CheckFacts UserInv UserSteps UserLoad CrashPre SeqMap SeqInv SeqSteps.
Import ListNotations.
Open Scope N_scope.
Local Notation length := List.length.
Ltac Zify.zify_post_hook ::= Z.div_mod_to_equations.

(* ---- the map a load builds ---- *)
Definition lentry (st f : N) (l : list item) : list (N * N) := match l with [] => [] | _ => [(st, f)] end.

Fixpoint lmap (f st : N) (gi : list (list item)) : list (N * N) :=
  match gi with [] => [] | l :: r => lentry st f l ++ lmap (f + 1) (st + nlen l) r end.

Lemma lmap_app f st a b : lmap f st (a ++ b) = lmap f st a ++ lmap (f + nlen a) (st + tot a) b.
Proof.
  revert f st; induction a as [|l a IH]; intros; cbn [app lmap nlen tot].
  - now rewrite !N.add_0_r.
  - rewrite IH, <- app_assoc. do 3 f_equal; lia.
Qed.

Lemma lmap_in gi : forall f st a b, In (a, b) (lmap f st gi) ->
  exists g1 l g2, gi = g1 ++ l :: g2 /\ l <> [] /\ b = f + nlen g1 /\ a = st + tot g1.
Proof.
  induction gi as [|l gi IH]; intros f st a b Hi; cbn [lmap] in Hi; [contradiction|].
  apply in_app_iff in Hi. destruct Hi as [Hi|Hi].
  - destruct l as [|i l]; cbn [lentry] in Hi; [contradiction|]. destruct Hi as [Hi|[]]. injection Hi as <- <-.
    exists [], (i :: l), gi. cbn [app nlen tot]. repeat split; [discriminate|lia|lia].
  - destruct (IH _ _ _ _ Hi) as (g1 & k & g2 & -> & Hk & -> & ->). exists (l :: g1), k, g2. cbn [app nlen tot].
    repeat split; auto; lia.
Qed.

Lemma lmap_has g1 l g2 f st : l <> [] -> In (st + tot g1, f + nlen g1) (lmap f st (g1 ++ l :: g2)).
Proof.
  intros Hl. rewrite lmap_app. apply in_app_iff. right. cbn [lmap]. apply in_app_iff. left.
  destruct l; [congruence|]. now left.
Qed.

Lemma lmap_rising gi : forall f st, rising (lmap f st gi).
Proof.
  induction gi as [|l gi IH]; intros f st; cbn [lmap]; [constructor|].
  destruct l as [|i l]; cbn [lentry app]; [apply IH|]. constructor; [apply IH|].
  apply Forall_forall. intros [a b] Hi. destruct (lmap_in _ _ _ _ _ Hi) as (g1 & k & g2 & _ & _ & _ & ->). cbn [fst nlen]. lia.
Qed.

Definition load_map (gi : list (list item)) : list (N * N) := (0, 0) :: lmap 0 0 gi.

Lemma load_map_ok gi : 0 < nlen gi -> seq_ok (load_map gi) gi.
Proof.
  intros Hn. constructor.
  - exists (lmap 0 0 gi). split; [reflexivity|apply lmap_rising].
  - intros st f [Hi|Hi].
    + injection Hi as <- <-. destruct gi as [|l gi]; [cbn [nlen] in Hn; lia|]. exists [], l, gi. auto.
    + destruct (lmap_in _ _ _ _ _ Hi) as (g1 & l & g2 & -> & _ & -> & ->). exists g1, l, g2. auto.
  - intros g1 l g2 -> Hl. right. apply (lmap_has g1 l g2 0 0 Hl).
  - intros ->. reflexivity.
Qed.

Lemma load_map_anchored gi : settled_g gi -> anchored (load_map gi) gi.
Proof.
  intros S g l E. destruct (S g l E) as [Hl| ->].
  - right. rewrite E. apply (lmap_has g l [] 0 0 Hl).
  - left. reflexivity.
Qed.

(* ---- replay ---- *)
Record SLInv (n : N) (t : table) (x : index) (G : list loc) (m : list (N * N)) : Prop := {
  sl_mode : x_mode x = MODE_SEQ;
  sl_ns : x_ns x = n;
  sl_seq : x_seq x = Some m;
  sl_tab : TInv t n [];
  sl_next : x_nextentry x = nlen G;
  sl_prev : x_prev x = last_off 0 G;
  sl_cnt : x_entries x = u64 (cnt G);
  sl_dsz : x_datasize x = u64 (dsum G);
  sl_msz : x_size x = u64 (msum G)
}.

Lemma sload_loop_ok n f l : forall fuel off t x G0 m,
  (length (enc_items l) <= fuel)%nat ->
  SLInv n t x G0 m -> x_indexid x = f -> f < 4294967296 -> 29 <= off ->
  nlen (G0 ++ place f off l) < 18446744073709551616 -> Forall sloc_wf (place f off l) ->
  exists x', index_load_loop fuel (enc_items l) off t x = Some (t, x') /\
    SLInv n t x' (G0 ++ place f off l) (m ++ if off =? 29 then lentry (nlen G0) f l else []) /\ x_indexid x' = f.
Proof.
  induction l as [|it l IH]; intros fuel off t x G0 m Hfuel L Hx Hf Hoff HN W.
  - exists x. cbn [place lentry]. rewrite app_nil_r. replace (if off =? 29 then [] else []) with (@nil (N * N)) by (now destruct (off =? 29)).
    rewrite app_nil_r. destruct fuel; (split; [reflexivity|split; [exact L|exact Hx]]).
  - cbn [place] in *. pose proof (Forall_inv W) as W1. pose proof (Forall_inv_tail W) as W'. destruct W1 as (W1 & W2 & W3).
    change (item_wf it) in W1. change (blen (it_id it) = 8) in W2. change (off < 4294967296) in W3.
    rewrite enc_items_cons in Hfuel |- *. rewrite app_length in Hfuel.
    assert (Hl34 : (34 <= length (enc_item it))%nat).
    { pose proof (blen_enc_item it) as X. rewrite blen_length in X. lia. }
    destruct fuel as [|fuel]; [lia|].
    assert (NE : enc_item it ++ enc_items l <> []).
    { intros X. apply (f_equal (@length byte)) in X. rewrite app_length in X. cbn [length] in X. lia. }
    rewrite load_step by exact NE. clear NE. cbn zeta.
    rewrite dec_item_rest by auto.
    cbn [it_idlen it_off it_len it_prev it_flags it_dataid it_ts it_crc it_pid it_poff it_id].
    pose proof W1 as (I1 & I2 & I3 & I4 & _).
    replace (34 + it_idlen it) with (blen (enc_item it)) by (rewrite blen_enc_item; lia).
    destruct (N.ltb_spec (blen (enc_item it ++ enc_items l)) (blen (enc_item it))) as [X|_];
      [rewrite blen_app in X; lia|].
    rewrite nfirst_app_exact' by exact I1. rewrite nskip_app_exact' by reflexivity.
    rewrite (u32_small off) by exact W3.
    destruct L as [L1 L2 L3 L4 L5 L6 L7 L8 L9].
    set (m1 := m ++ if off =? 29 then [(nlen G0, f)] else []).
    assert (X0 : (if off =? 29 then index_seqid_push (x_nextentry x) (x_indexid x) x else x) = x_set_seq (Some m1) x).
    { unfold m1. destruct (off =? 29).
      - unfold index_seqid_push. rewrite L3, L5, Hx. reflexivity.
      - rewrite app_nil_r, <- L3. now destruct x. }
    rewrite X0. cbn zeta. clear X0.
    unfold index_set_memory. cbn [x_set_seq x_mode]. rewrite L1. change (MODE_SEQ =? MODE_SEQ) with true. cbn iota.
    cbn [e_flags].
    assert (Hnx : nlen G0 + 1 < 18446744073709551616).
    { rewrite nlen_app in HN. cbn [nlen] in HN. lia. }
    assert (Em : m1 ++ (if off + itsz it =? 29 then lentry (nlen (G0 ++ [(f, off, it)])) f l else [])
       = m ++ if off =? 29 then lentry (nlen G0) f (it :: l) else []).
    { destruct (N.eqb_spec (off + itsz it) 29) as [X|_]; [unfold itsz in X; lia|]. rewrite app_nil_r. reflexivity. }
    replace (off + blen (enc_item it)) with (off + itsz it) by (rewrite blen_enc_item; reflexivity).
    destruct (is_deleted (it_flags it)) eqn:D.
    + unfold index_entry_delete_memory. cbn [insert_memory_seq x_set_stats x_set_next x_set_seq x_ns x_mode x_entries x_datasize x_size].
      rewrite L1. change (MODE_SEQ =? MODE_KV) with false. cbn iota. cbn [e_id e_len].
      assert (LV : live (f, off, it) = false) by (unfold live; cbn [l_it snd]; now rewrite D).
      match goal with |- exists _, index_load_loop _ _ _ ?T ?X = _ /\ _ =>
        destruct (IH fuel (off + itsz it) T X (G0 ++ [(f, off, it)]) m1) as (x' & R1 & R2 & R3);
        [ | | | | | | | exists x'; split; [|split]] end.
      * lia.
      * rewrite !sub64_add64 by (try (rewrite L7; apply u64_lt); try (rewrite L8; apply u64_lt);
          try (rewrite L9; apply u64_lt); unfold ENTRY_SIZEOF; lia).
        constructor; cbn [insert_memory_seq x_set_prev x_set_stats x_set_next x_set_seq x_ns x_mode x_indexid x_nextentry x_prev x_seq x_entries x_datasize x_size]; auto.
        -- rewrite L5, u64_small by lia. rewrite nlen_app. reflexivity.
        -- rewrite last_off_app. reflexivity.
        -- rewrite L7, cnt_app, cnt_cons, LV. change (cnt []) with 0. f_equal. lia.
        -- rewrite L8, dsum_app. cbn [dsum]. rewrite LV. f_equal. lia.
        -- rewrite L9, msum_app. cbn [msum]. rewrite LV. f_equal. lia.
      * exact Hx.
      * exact Hf.
      * lia.
      * rewrite <- app_assoc. exact HN.
      * exact W'.
      * exact R1.
      * rewrite <- app_assoc, Em in R2. exact R2.
      * exact R3.
    + assert (LV : live (f, off, it) = true) by (unfold live; cbn [l_it snd]; now rewrite D).
      match goal with |- exists _, index_load_loop _ _ _ ?T ?X = _ /\ _ =>
        destruct (IH fuel (off + itsz it) T X (G0 ++ [(f, off, it)]) m1) as (x' & R1 & R2 & R3);
        [ | | | | | | | exists x'; split; [|split]] end.
      * lia.
      * constructor; cbn [insert_memory_seq x_set_prev x_set_stats x_set_next x_set_seq x_ns x_mode x_indexid x_nextentry x_prev x_seq x_entries x_datasize x_size]; auto.
        -- rewrite L5, u64_small by lia. rewrite nlen_app. reflexivity.
        -- rewrite last_off_app. reflexivity.
        -- rewrite L7, add64_u64, cnt_app, cnt_cons, LV. reflexivity.
        -- rewrite L8, add64_u64, dsum_app. cbn [dsum e_len]. rewrite LV, N.add_0_r. reflexivity.
        -- rewrite L9, add64_u64, msum_app. cbn [msum]. rewrite LV, N.add_0_r. reflexivity.
      * exact Hx.
      * exact Hf.
      * lia.
      * rewrite <- app_assoc. exact HN.
      * exact W'.
      * exact R1.
      * rewrite <- app_assoc, Em in R2. exact R2.
      * exact R3.
Qed.

Definition sqmode_ok (smode : N) : Prop := smode = MODE_SEQ \/ smode = MODE_MIX.

Lemma rehash_seq x : index_rehash (x_set_mode MODE_SEQ x) =
  x_set_seq (Some (match x_seq x with Some (p :: r) => p :: r | _ => [(0, 0)] end)) (x_set_mode MODE_SEQ x).
Proof. destruct x as [a b c d e f g [[|p r]|] i j k l o]; reflexivity. Qed.

Lemma sload_file_ok smode n s g1 l g2 : sqmode_ok smode ->
  dk_i (dk s) = enc_ifs MODE_SEQ 0 (g1 ++ l :: g2) -> x_indexid (ix s) = nlen g1 -> nlen g1 < 4294967296 ->
  SLInv n (tb s) (index_rehash (x_set_mode MODE_SEQ (ix s))) (flat 0 g1) ((0, 0) :: lmap 0 0 g1) ->
  nlen (flat 0 (g1 ++ [l])) < 18446744073709551616 -> Forall sloc_wf (flat 0 (g1 ++ [l])) ->
  exists s', index_load_file smode s = LOk s' /\
    dk_i (dk s') = dk_i (dk s) /\ dk_d (dk s') = dk_d (dk s) /\ dk_io (dk s') = dk_io (dk s) /\
    dt s' = dt s /\ tb s' = tb s /\ x_indexid (ix s') = nlen g1 /\
    SLInv n (tb s') (ix s') (flat 0 (g1 ++ [l])) ((0, 0) :: lmap 0 0 (g1 ++ [l])) /\
    exists W, dk_log (dk s') = dk_log (dk s) ++ W /\ Forall (idle (dk_i (dk s), dk_d (dk s))) W.
Proof.
  intros Hsm Hi Hx Hf L HN W.
  assert (EF : flat 0 (g1 ++ [l]) = flat 0 g1 ++ place (nlen g1) 29 l).
  { rewrite flat_app. cbn [flat]. change (0 + nlen g1) with (nlen g1). now rewrite app_nil_r. }
  rewrite EF in *.
  assert (E0 : do_write (MkI (nlen g1)) (dk s)
    = mkDisk (dk_i (dk s)) (dk_d (dk s)) (dk_log (dk s) ++ [MkI (nlen g1)]) (dk_io (dk s))).
  { unfold do_write. cbn [apply_write fst snd]. rewrite mkfile_idle; auto.
    rewrite Hi, nlen_enc_ifs, nlen_app. cbn [nlen]. lia. }
  unfold index_load_file. rewrite Hx. cbn zeta. rewrite E0. unfold ifile. cbn [dk_i]. rewrite Hi, nget_enc_ifs.
  change (0 + nlen g1) with (nlen g1).
  assert (EH : fread (enc_if MODE_SEQ (nlen g1) l) 0 29 = index_header (nlen g1) MODE_SEQ).
  { change (fread (enc_if MODE_SEQ (nlen g1) l) 0 29)
      with (fread ([] ++ index_header (nlen g1) MODE_SEQ ++ enc_items l) (blen []) 29).
    apply fread_app. now rewrite blen_index_header. }
  rewrite EH, blen_index_header. change (29 =? 29) with true. cbn iota.
  unfold index_load_body. rewrite <- (app_nil_r (index_header (nlen g1) MODE_SEQ)).
  rewrite dec_index_header by (auto; reflexivity).
  cbn [ih_magic ih_version ih_created ih_opened ih_fileid ih_mode].
  change (bseqb (str "IDX0") (str "IDX0")) with true. cbn [negb].
  change (ZDB_IDXFILE_VERSION =? ZDB_IDXFILE_VERSION) with true. cbn [negb].
  change ((MODE_SEQ =? MODE_SEQ) || (MODE_SEQ =? MODE_KV)) with true. cbn iota.
  cbn [set_dk tb ix dt dk].
  set (x2 := index_rehash (x_set_mode MODE_SEQ (ix s))) in *.
  assert (Hx2 : x_indexid x2 = nlen g1).
  { unfold x2. rewrite rehash_seq. exact Hx. }
  rewrite Hx2. fold (index_header (nlen g1) MODE_SEQ).
  assert (SM : negb (smode =? MODE_MIX) && negb (MODE_SEQ =? smode) = false).
  { destruct Hsm as [->| ->]; reflexivity. }
  rewrite SM.
  unfold do_write. cbn [apply_write fst snd dk_i dk_d dk_log dk_io].
  rewrite ?Hi, wr_header_idle. unfold ifile. cbn [dk_i]. rewrite nget_enc_ifs. change (0 + nlen g1) with (nlen g1).
  assert (EB : nskip 29 (enc_if MODE_SEQ (nlen g1) l) = enc_items l).
  { unfold enc_if. apply nskip_app_exact'. now rewrite blen_index_header. }
  rewrite EB.
  assert (L' : SLInv n (tb s) (x_set_next (x_nextentry x2) 0 x2) (flat 0 g1) ((0, 0) :: lmap 0 0 g1)).
  { destruct L as [L1 L2 L3 L4 L5 L6 L7 L8 L9]. constructor; auto. }
  destruct (sload_loop_ok n (nlen g1) l (length (enc_items l)) 29 (tb s)
    (x_set_next (x_nextentry x2) 0 x2) (flat 0 g1) _ (le_n _) L' Hx2 Hf) as (x' & R1 & R2 & R3); auto.
  { lia. }
  { apply Forall_app in W. apply W. }
  rewrite R1. eexists. split; [reflexivity|]. cbn [tb ix dt dk dk_i dk_d dk_log dk_io].
  split; [reflexivity|]. split; [reflexivity|]. split; [reflexivity|]. split; [reflexivity|]. split; [reflexivity|].
  split; [exact R3|]. split.
  { rewrite lmap_app. cbn [lmap]. rewrite app_nil_r. change (29 =? 29) with true in R2. cbn iota in R2.
    rewrite nlen_flat in R2. exact R2. }
  exists [MkI (nlen g1); WrI (nlen g1) 0 (index_header (nlen g1) MODE_SEQ)].
  rewrite <- app_assoc. split; [reflexivity|]. repeat constructor.
  - unfold idle. cbn [apply_write fst snd]. rewrite mkfile_idle; [reflexivity|].
    rewrite nlen_enc_ifs, nlen_app. cbn [nlen]. lia.
  - unfold idle. cbn [apply_write fst snd]. now rewrite wr_header_idle.
Qed.

Lemma slinv_set_id n t x G m f : SLInv n t (index_rehash (x_set_mode MODE_SEQ x)) G m ->
  SLInv n t (index_rehash (x_set_mode MODE_SEQ (index_set_id f x))) G m /\ x_indexid (index_set_id f x) = f.
Proof.
  intros L. unfold index_set_id. destruct (dirty_resize_shape f (x_set_indexid f x)) as (a & b & ->).
  split; [|reflexivity]. rewrite rehash_seq in *. cbn [x_set_dirty x_set_indexid x_seq].
  destruct L as [L1 L2 L3 L4 L5 L6 L7 L8 L9]. constructor; auto.
Qed.

Lemma slinv_again n t x G p m : SLInv n t x G (p :: m) -> SLInv n t (index_rehash (x_set_mode MODE_SEQ x)) G (p :: m).
Proof.
  intros L. assert (E : index_rehash (x_set_mode MODE_SEQ x) = x).
  { assert (E : x_set_mode MODE_SEQ x = x) by (rewrite <- (sl_mode _ _ _ _ _ L); now destruct x).
    rewrite E. unfold index_rehash. rewrite (sl_mode _ _ _ _ _ L). change (MODE_SEQ =? MODE_SEQ) with true. cbn iota.
    rewrite (sl_seq _ _ _ _ _ L). cbn iota. now rewrite (sl_seq _ _ _ _ _ L). }
  now rewrite E.
Qed.

Lemma sload_files_ok smode n gi : sqmode_ok smode -> nlen gi <= 4294967296 ->
  nlen (flat 0 gi) < 18446744073709551616 -> Forall sloc_wf (flat 0 gi) ->
  forall g2 g1 s, gi = g1 ++ g2 -> g2 <> [] ->
  dk_i (dk s) = enc_ifs MODE_SEQ 0 gi ->
  SLInv n (tb s) (index_rehash (x_set_mode MODE_SEQ (ix s))) (flat 0 g1) ((0, 0) :: lmap 0 0 g1) ->
  exists s', index_load_files smode (length g2) (nlen g1) s = LOk s' /\
    dk_i (dk s') = dk_i (dk s) /\ dk_d (dk s') = dk_d (dk s) /\ dk_io (dk s') = dk_io (dk s) /\
    dt s' = dt s /\ tb s' = tb s /\ x_indexid (ix s') + 1 = nlen gi /\
    SLInv n (tb s') (ix s') (flat 0 gi) (load_map gi) /\
    exists W, dk_log (dk s') = dk_log (dk s) ++ W /\ Forall (idle (dk_i (dk s), dk_d (dk s))) W.
Proof.
  intros Hsm Hn HN W. induction g2 as [|l g2 IH]; intros g1 s E NE Hi L; [congruence|]. cbn [length index_load_files].
  assert (Ep : flat 0 gi = flat 0 (g1 ++ [l]) ++ flat (nlen (g1 ++ [l])) g2).
  { subst gi. change (l :: g2) with ([l] ++ g2). rewrite app_assoc, flat_app. reflexivity. }
  destruct (slinv_set_id _ _ _ _ _ (nlen g1) L) as [L' Lid].
  destruct (sload_file_ok smode n (set_ix (index_set_id (nlen g1) (ix s)) s) g1 l g2)
    as (s1 & R1 & R2 & R3 & R4 & R5 & R6 & R7 & R8 & W1 & R9 & R10); auto.
  - cbn [set_ix dk]. now rewrite Hi, E.
  - rewrite E, nlen_app in Hn. cbn [nlen] in Hn. lia.
  - rewrite Ep, nlen_app in HN. lia.
  - rewrite Ep in W. apply Forall_app in W. apply W.
  - rewrite R1. cbn [set_ix dk tb dt] in *.
    assert (NL : nlen g1 + 1 = nlen (g1 ++ [l])) by (rewrite nlen_app; reflexivity). rewrite NL.
    destruct g2 as [|l' g2].
    + cbn [length index_load_files]. exists s1. split; [reflexivity|]. split; [congruence|]. split; [congruence|]. split; [congruence|].
      split; [congruence|]. split; [congruence|]. split; [rewrite R7, E; lia|]. rewrite <- E in R8. split; [exact R8|].
      exists W1. auto.
    + destruct (IH (g1 ++ [l]) s1) as (s' & Q1 & Q2 & Q3 & Q4 & Q5 & Q6 & Q7 & Q8 & W2 & Q9 & Q10).
      * now rewrite <- app_assoc.
      * discriminate.
      * congruence.
      * now apply slinv_again.
      * exists s'. split; [exact Q1|]. split; [congruence|]. split; [congruence|]. split; [congruence|].
        split; [congruence|]. split; [congruence|]. split; [exact Q7|]. split; [exact Q8|].
        exists (W1 ++ W2). split; [rewrite Q9, R9, app_assoc; reflexivity|].
        apply Forall_app. split; auto. now rewrite R2, R3 in Q10.
Qed.

Theorem sopen_ok smode n t d gi H : sqmode_ok smode -> SFInv (dk_i d) (dk_d d) gi H -> 0 < nlen gi ->
  dd_openable (dk_d d) (nlen gi) -> dk_io d = [] -> TInv t n [] ->
  exists s', store_open smode n t d = Some s' /\ SInv n s' (load_map gi) gi H /\ tb s' = t /\
    dext (dk_d d) (dk_d (dk s')) /\ dk_i (dk s') = dk_i d /\
    (nlen (dk_d d) = nlen gi -> dhdr_ok (dk_d d) -> dk_d (dk s') = dk_d d) /\
    exists W, dk_log (dk s') = dk_log d ++ W ++ [MkD (nlen gi - 1); WrD (nlen gi - 1) 0 (data_header (nlen gi - 1))]
      /\ Forall (idle (dk_i d, dk_d d)) W.
Proof.
  intros Hsm F Hgi Hdd Hio T0. pose proof (sf_files _ _ _ _ F) as Hi.
  unfold store_open.
  set (x0 := index_rehash (index_init_lazy smode n)).
  assert (LX : SLInv n t (index_rehash (x_set_mode MODE_SEQ (index_dirty_resize (nlen (dk_i d)) x0))) (flat 0 []) ((0, 0) :: lmap 0 0 [])).
  { assert (E0 : exists a b md sq, x0 = mkIndex n md 0 0 0 0 false sq 0 0 0 a b /\ (sq = None \/ sq = Some [(0, 0)])).
    { unfold x0, index_init_lazy.
      match goal with |- context [index_dirty_resize 1 ?y] => destruct (dirty_resize_shape 1 y) as (a & b & ->) end.
      destruct Hsm as [->| ->]; do 4 eexists; (split; [reflexivity|auto]). }
    destruct E0 as (a & b & md & sq & E0 & Esq).
    destruct (dirty_resize_shape (nlen (dk_i d)) x0) as (a' & b' & ->). rewrite E0.
    destruct Esq as [->| ->]; constructor; auto. }
  unfold index_internal_load. cbn [dk].
  assert (Hnl : nlen (dk_i d) = nlen gi) by (rewrite Hi; apply nlen_enc_ifs).
  assert (Hll : length (dk_i d) = length gi).
  { rewrite !nlen_length in Hnl. lia. }
  pose proof (tot_bound _ _ _ _ F) as TB.
  rewrite Hnl, Hll. destruct (N.ltb_spec 0 (nlen gi)) as [_|X]; [|lia].
  destruct (sload_files_ok smode n gi Hsm (sf_small _ _ _ _ F)) with (g2 := gi) (g1 := @nil (list item))
    (s := (set_ix (index_dirty_resize (nlen gi) (ix (mkEst t x0 (mkData 0 0) d))) (mkEst t x0 (mkData 0 0) d)))
    as (s1 & R1 & R2 & R3 & R4 & R5 & R6 & Hid & R7 & W & R9 & R10); auto.
  { rewrite nlen_flat. lia. }
  { apply F. }
  { intros ->. cbn [nlen] in Hgi. lia. }
  { cbn [set_ix tb ix]. rewrite <- Hnl. exact LX. }
  cbn [nlen] in R1. rewrite R1. cbn [set_ix set_dk tb ix dt dk] in *.
  assert (Hid' : x_indexid (ix s1) = nlen gi - 1) by lia.
  assert (E0 : do_write (MkI (x_indexid (ix s1))) (dk s1)
    = mkDisk (dk_i d) (dk_d d) (dk_log (dk s1) ++ [MkI (x_indexid (ix s1))]) []).
  { unfold do_write. cbn [apply_write fst snd]. rewrite mkfile_idle by (rewrite R2, Hnl; lia).
    rewrite R2, R3, R4, Hio. reflexivity. }
  rewrite E0. unfold data_init, set_dt, set_dk, set_ix, x_set_updated. cbn [tb ix dt dk x_indexid].
  rewrite Hid'.
  destruct (data_init_openable (mkDisk (dk_i d) (dk_d d) (dk_log (dk s1) ++ [MkI (nlen gi - 1)]) []) (nlen gi))
    as (dd' & D1 & D2 & D3 & D4 & D5); auto.
  rewrite D1. cbn [dk_i dk_d dk_log dk_io].
  eexists. split; [reflexivity|]. cbn [tb ix dt dk dk_i dk_d dk_log dk_io].
  destruct R7 as [L1 L2 L3 L4 L5 L6 L7 L8 L9].
  split; [|split; [exact R6|split; [exact D4|split; [reflexivity|split; [exact D5|]]]]].
  - constructor; cbn [tb ix dt dk dk_i dk_d dk_log dk_io x_ns x_mode x_indexid x_nextentry x_prev x_seq x_entries x_datasize x_size]; auto.
    + eapply sfinv_dext; eauto.
    + now apply load_map_ok.
    + lia.
    + unfold data_open_final. destruct (dfile _ _); reflexivity.
    + rewrite L5. apply nlen_flat.
  - exists (W ++ [MkI (nlen gi - 1)]). rewrite R9, <- !app_assoc. split; [reflexivity|].
    apply Forall_app. split; auto. repeat constructor. unfold idle. cbn [apply_write fst snd].
    rewrite mkfile_idle by lia. reflexivity.
Qed.

(* a new namespace *)
Lemma sopen_fresh n t d : dk_i d = [] -> dk_d d = [] -> dk_io d = [] -> TInv t n [] ->
  exists s', store_open MODE_SEQ n t d = Some s' /\ SInv n s' [(0, 0)] [[]] [] /\ tb s' = t /\
    dk_log (dk s') = dk_log d ++ fresh_writes MODE_SEQ.
Proof.
  intros Hi Hd Hio T. destruct d as [di dd lg io]. cbn [dk_i dk_d dk_io dk_log] in *. subst di dd io.
  assert (E : exists x, store_open MODE_SEQ n t (mkDisk [] [] lg []) = Some
     (mkEst t x (mkData 0 0) (mkDisk [index_header 0 MODE_SEQ] [data_header 0] (lg ++ fresh_writes MODE_SEQ) [])) /\
     x_mode x = MODE_SEQ /\ x_ns x = n /\ x_seq x = Some [(0, 0)] /\ x_indexid x = 0 /\ x_prev x = 0 /\
     x_entries x = 0 /\ x_datasize x = 0 /\ x_size x = 0 /\ x_nextentry x = 0).
  { eexists. split.
    + match goal with |- ?l = _ => let v := eval cbv in l in change l with v end.
      fold (@app dwrite). rewrite <- !app_assoc. cbn [app]. reflexivity.
    + repeat split. }
  destruct E as (x & E & X1 & X2 & X3 & X4 & X5 & X6 & X7 & X8 & X9). rewrite E.
  eexists. split; [reflexivity|]. cbn [tb dk dk_log]. split; [|split; reflexivity].
  constructor; cbn [tb ix dt dk dk_i dk_d dk_log dk_io d_dataid]; auto; try congruence.
  - constructor; cbn [flat place app chain]; auto.
    + cbn [nlen]. lia.
    + intros i y Hy. cbn [nget] in Hy. discriminate.
    + intros g l Hg. apply (app_inj_tail [] g) in Hg. destruct Hg as [_ <-]. cbn [nlen]. lia.
  - apply (load_map_ok [[]]). cbn [nlen]. lia.
  - rewrite X4. reflexivity.
  - intros f file Hf. cbn [nget] in Hf. destruct (N.eqb_spec f 0) as [->|]; [|discriminate].
    apply some_inj in Hf. subst. exists []. now rewrite app_nil_r.
Qed.
