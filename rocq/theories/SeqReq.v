(* Every request on a sequential namespace answers and acts as SpecSeq says. *)
From Coq Require Import List NArith ZArith Bool Strings.Byte Strings.String Lia ZifyBool ZifyN ZifyNat.
From Verif Require Import Bytes BytesFacts Crc32 Crc32Facts Layout LayoutFacts Store Text TextFacts Commands SpecKV SpecSeq Machine Reach
  Ghost DataFacts TableFacts CheckFacts UserInv UserSteps UserLoad CrashPre UserReq SeqMap SeqInv SeqSteps SeqLoad.
Import ListNotations.
Open Scope N_scope.
Ltac Zify.zify_post_hook ::= Z.div_mod_to_equations.
Local Notation length := List.length.

(* ---- what a request does to the records of the index files ---- *)
Definition addr (x : loc) : N * N := (l_f x, l_off x).

Inductive smove : bytes -> list loc -> list ver -> list loc -> list ver -> Prop :=
| sm_del A x B H : live x = true -> smove (l_id x) (A ++ x :: B) H (A ++ mflag x :: B) H
| sm_ins G H y v : live y = true -> l_id y = ident (nlen G) -> fst v = l_id y -> it_pid (l_it y) = 0 -> it_poff (l_it y) = 0 ->
    smove (l_id y) G H (G ++ [y]) (H ++ [v])
| sm_upd A x B HA v HB y d v' : length A = length HA -> live x = true -> addr y = addr x -> l_id y = l_id x -> live y = true ->
    fst v' = l_id x -> (it_pid (l_it y), it_poff (l_it y)) = addr d -> live d = false -> l_id d = l_id x ->
    (it_pid (l_it d), it_poff (l_it d)) = (it_pid (l_it x), it_poff (l_it x)) -> fst (snd v') <> fst (snd v) ->
    smove (l_id x) (A ++ x :: B) (HA ++ v :: HB) (A ++ y :: (B ++ [d])) (HA ++ v' :: HB ++ [v]).

Definition smoved G H G' H' : Prop := (G' = G /\ H' = H) \/ exists k, smove k G H G' H'.

(* ---- the number of index files never shrinks ---- *)
Lemma apply_write_files w fs : nlen (fst fs) <= nlen (fst (apply_write w fs)).
Proof.
  destruct w; cbn [apply_write fst]; try lia.
  - unfold mkfile. destruct (_ =? _); [rewrite nlen_app; lia|lia].
  - unfold wrfile. destruct (nget _ _); [rewrite nlen_nset; lia|lia].
Qed.

Lemma do_write_files w d : nlen (dk_i d) <= nlen (dk_i (do_write w d)).
Proof. unfold do_write. cbn [dk_i]. apply (apply_write_files w (dk_i d, dk_d d)). Qed.

Lemma try_write_files w d ok d' : try_write w d = (ok, d') -> nlen (dk_i d) <= nlen (dk_i d').
Proof.
  unfold try_write. destruct (dk_io d) as [|[] ?]; intros E; injection E as <- <-;
    unfold do_write; cbn [dk_i]; try lia;
    match goal with |- context [apply_write ?x ?fs] => apply (apply_write_files x fs) end.
Qed.

Lemma data_insert_files s q : nlen (dk_i (dk s)) <= nlen (dk_i (dk (snd (data_insert s q)))).
Proof.
  unfold data_insert. cbn zeta.
  repeat match goal with |- context [try_write ?w ?d] =>
    let E := fresh "E" in destruct (try_write w d) as [[] ?] eqn:E; apply try_write_files in E; cbn [set_dk set_dt dk] in * end;
  cbn [snd set_dk set_dt dk]; lia.
Qed.

Lemma index_append_files s id e : nlen (dk_i (dk s)) <= nlen (dk_i (dk (snd (index_append s id e)))).
Proof.
  unfold index_append. cbn zeta.
  match goal with |- context [try_write ?w ?d] => destruct (try_write w d) as [ok d1] eqn:E; apply try_write_files in E end.
  destruct ok; cbn [snd set_dk set_ix dk]; lia.
Qed.

Lemma seq_overwrite_files s id e : nlen (dk_i (dk s)) <= nlen (dk_i (dk (snd (index_seq_overwrite s id e)))).
Proof.
  unfold index_seq_overwrite. destruct (x_seq (ix s)); [|cbn [snd]; lia].
  destruct (index_seqmap_from_seq _ _) as [[st f]|]; [|cbn [snd]; lia]. cbn zeta.
  destruct (ifile _ _); [|cbn [snd]; lia]. destruct (_ =? _); [|cbn [snd]; lia].
  match goal with |- context [try_write ?w ?d] => destruct (try_write w d) as [ok d1] eqn:E; apply try_write_files in E end.
  destruct ok; cbn [snd set_dk set_ix dk]; lia.
Qed.

Lemma index_set_seq_files s id e ex : x_mode (ix s) = MODE_SEQ ->
  nlen (dk_i (dk s)) <= nlen (dk_i (dk (snd (index_set s id e ex)))).
Proof.
  intros M. unfold index_set. rewrite M. change (MODE_SEQ =? MODE_KV) with false. destruct ex as [p|]; cbn iota.
  - unfold index_update_entry_sequential.
    match goal with |- context [index_append ?a ?b ?c] => pose proof (index_append_files a b c) as X; destruct (index_append a b c) as [[ok e1] s1] end.
    cbn [snd] in X. destruct ok; cbn [snd]; [|lia].
    match goal with |- context [index_seq_overwrite ?a ?b ?c] => pose proof (seq_overwrite_files a b c) as Y; destruct (index_seq_overwrite a b c) as [ok2 s2] end.
    cbn [snd set_ix dk] in *. lia.
  - unfold index_insert_entry_sequential.
    match goal with |- context [index_append ?a ?b ?c] => pose proof (index_append_files a b c) as X; destruct (index_append a b c) as [[ok e1] s1] end.
    cbn [snd] in X. destruct ok; cbn [snd set_ix dk]; lia.
Qed.

Lemma data_insert_mode s q : x_mode (ix (snd (data_insert s q))) = x_mode (ix s).
Proof.
  unfold data_insert. cbn zeta.
  repeat match goal with |- context [try_write ?w ?d] => destruct (try_write w d) as [[] ?]; cbn [set_dk set_dt dk] end; reflexivity.
Qed.

Lemma handler_files argv now ex s : x_mode (ix s) = MODE_SEQ ->
  nlen (dk_i (dk s)) <= nlen (dk_i (dk (snd (set_handler_sequential argv now ex s)))).
Proof.
  intros M. unfold set_handler_sequential. destruct ex as [x|].
  - cbn zeta. destruct (unchanged _ _ _); [cbn [snd]; lia|].
    match goal with |- context [data_insert ?a ?b] => pose proof (data_insert_files a b) as X; pose proof (data_insert_mode a b) as Y;
      destruct (data_insert a b) as [off s1] end. cbn [snd] in X, Y. destruct (off =? 0); [exact X|].
    match goal with |- context [index_set ?a ?b ?c ?d] => pose proof (index_set_seq_files a b c d) as Z; destruct (index_set a b c d) as [[e|] s2] end;
    cbn [snd] in *; rewrite Y in Z; specialize (Z M); lia.
  - destruct (negb _); [cbn [snd]; lia|]. cbn zeta.
    match goal with |- context [data_insert ?a ?b] => pose proof (data_insert_files a b) as X; pose proof (data_insert_mode a b) as Y;
      destruct (data_insert a b) as [off s1] end. cbn [snd] in X, Y. destruct (off =? 0); [exact X|].
    match goal with |- context [index_set ?a ?b ?c ?d] => pose proof (index_set_seq_files a b c d) as Z; destruct (index_set a b c d) as [[e|] s2] end;
    cbn [snd] in *; rewrite Y in Z; specialize (Z M); lia.
Qed.

(* ---- what a crash may leave ---- *)
(* as before, as after, or a number used up without effect *)
Definition cut_sq (st st2 st' : sqs) : Prop :=
  st' = st \/ st' = st2 \/ (sq_map st' = sq_map st /\ sq_next st' = sq_next st2).

Definition scrash_to (s : est) gi H (st2 : sqs) (fs : fsys) : Prop :=
  exists gi' H', sloadable fs gi' H' /\ dext (dk_d (dk s)) (snd fs) /\ nlen gi' <= nlen gi + 1 /\
    cut_sq (sq_of gi H) st2 (sq_of gi' H').

Lemma sq_of_jump gi H : sq_of (gi ++ [[]]) H = sq_of gi H.
Proof. unfold sq_of. rewrite flat_jump, tot_app. cbn [tot nlen]. now rewrite !N.add_0_r. Qed.

Lemma sq_of_flat gi gi' H : flat 0 gi' = flat 0 gi -> sq_of gi' H = sq_of gi H.
Proof. intros E. unfold sq_of. rewrite E. f_equal. rewrite <- (nlen_flat 0 gi'), E. apply nlen_flat. Qed.

(* ---- a value is written ---- *)
Lemma data_ready_gen s k v ts file f : d_dataid (dt s) = f ->
  nget (d_dataid (dt s)) (dk_d (dk s)) = Some file ->
  blen k < 256 -> blen v < 4294967296 -> ts < 4294967296 ->
  data_ready (dk_d (dk (after_data s file (mkDreq v k 0 (zdb_crc32 v) ts)))) f (blen file) k v ts.
Proof.
  intros <- Hf Hk Hv Ht. set (q := mkDreq v k 0 (zdb_crc32 v) ts).
  destruct (ins_hdr_norm s q) as (r & [(R1 & R2 & R3 & R4 & R5 & R6 & R7)|X]).
  - exists r. repeat split; auto; try apply R1.
    destruct (data_at_insert s q file Hf) as (pre & post & P1 & P2).
    exists pre, post. rewrite R2. split; auto.
  - exfalso. apply X. pose proof (zdb_crc32_W32 v). cbn [q q_id q_data q_crc q_flags q_ts]. lia.
Qed.

Lemma at_slot_ext dd dd' gi H k g1 l1 it l2 g2 A B HA v HB : dext dd dd' ->
  at_slot dd gi H k g1 l1 it l2 g2 A B HA v HB -> at_slot dd' gi H k g1 l1 it l2 g2 A B HA v HB.
Proof. intros E []. constructor; auto. eapply sver_ok_ext; eauto. Qed.

Lemma at_slot_jump dd gi H k g1 l1 it l2 g2 A B HA v HB :
  at_slot dd gi H k g1 l1 it l2 g2 A B HA v HB -> at_slot dd (gi ++ [[]]) H k g1 l1 it l2 (g2 ++ [[]]) A B HA v HB.
Proof.
  intros At. destruct At as [Eg ? ? ? ? ? ? ? ? ? ? ? ? ? ?]. constructor; rewrite ?flat_jump; auto. rewrite Eg, <- app_assoc. reflexivity.
Qed.

Lemma sunchanged n d x v value : sver_ok (dk_d d) x v ->
  unchanged d (Some (seq_entry n x)) value = bseqb (fst (snd v)) value.
Proof.
  intros (V1 & V2 & V3 & V4 & r & R1 & R2 & R3 & R4 & R5 & R6 & R7).
  unfold unchanged, data_compare_matching. cbn [seq_entry e_crc e_len e_off e_dataid e_id].
  rewrite V1, V2, V3. destruct (bseqb_spec (fst (snd v)) value) as [<-|E].
  - rewrite !N.eqb_refl. cbn [negb andb]. rewrite <- R2. rewrite (data_get_at d _ _ r _) by auto.
    rewrite nfirst_all by (rewrite blen_nlen; lia). apply bseqb_refl.
  - destruct (zdb_crc32 _ =? _); [|reflexivity]. cbn [andb].
    destruct (N.eqb_spec (blen (fst (snd v))) (blen value)) as [Hl|Hl]; [|reflexivity]. cbn [negb].
    rewrite <- R2. rewrite (data_get_at d _ _ r _) by auto.
    rewrite nfirst_all by (rewrite <- blen_nlen; lia). now apply bseqb_neq.
Qed.

Definition write_sq (s : est) (k v : bytes) (ts : N) (existing : option entry) : bytes * est :=
  let '(off, s1) := data_insert s (mkDreq v k 0 (zdb_crc32 v) ts) in
  if off =? 0 then (hardsend "-Cannot write data right now", s1)
  else
    match index_set s1 k (idxreq off (blen v) (zdb_crc32 v) (d_dataid (dt s1)) ts) existing with
    | (None, s2) => (hardsend "-Cannot write index right now", s2)
    | (Some _, s2) => (bulk k, s2)
    end.

Lemma sroom n s m g l H file : SInv n s m (g ++ [l]) H -> nget (d_dataid (dt s)) (dk_d (dk s)) = Some file ->
  28 <= blen file -> dsize (dk s) (d_dataid (dt s)) <= 2 ^ 31 ->
  nlen g = d_dataid (dt s) /\ nlen g < 4294967296 /\ blen file <= 2147483648 /\ 26 * nlen l <= blen file - 28 /\ 29 + isz l < 4294967296.
Proof.
  intros U Hf Hl Hds. pose proof (si_f _ _ _ _ _ U) as F.
  assert (Hx : nlen g = d_dataid (dt s)).
  { pose proof (si_id _ _ _ _ _ U) as X. pose proof (si_did _ _ _ _ _ U). rewrite nlen_app in X. cbn [nlen] in X. lia. }
  split; [exact Hx|].
  unfold dsize, dfile in Hds. rewrite Hf in Hds. change (2 ^ 31) with 2147483648 in Hds.
  pose proof (sf_room _ _ _ _ F g l eq_refl) as R. unfold room in R. rewrite Hx, Hf in R.
  pose proof (sf_wf _ _ _ _ F) as W. apply file_wf in W. apply isz_42 in W.
  pose proof (sf_small _ _ _ _ F) as X. rewrite nlen_app in X. cbn [nlen] in X. lia.
Qed.

Lemma sappend_files s s2 g l it dd : files (dk s) = (enc_ifs MODE_SEQ 0 (g ++ [l]), dd) ->
  files (dk s2) = (enc_ifs MODE_SEQ 0 (g ++ [l ++ [it]]), dd) ->
  files (dk s2) = apply_write (WrI (nlen g) (29 + isz l) (enc_item it)) (files (dk s)).
Proof. intros -> ->. cbn [apply_write fst snd]. now rewrite wrfile_append. Qed.

Lemma sinsert_ok n s m gi H v ts :
  let k := ident (tot gi) in
  SInv n s m gi H -> anchored m gi -> blen v < 4294967296 -> ts < 4294967296 ->
  dsize (dk s) (d_dataid (dt s)) <= 2 ^ 31 ->
  exists s2 gi2 H2, write_sq s k v ts None = (bulk k, s2) /\ SInv n s2 m gi2 H2 /\ anchored m gi2 /\
    nlen gi2 = nlen gi /\
    sq_of gi2 H2 = mkSq (tot gi + 1) (livem (flat 0 gi) H ++ [(k, (v, ts))]) /\
    tb s2 = tb s /\ dext (dk_d (dk s)) (dk_d (dk s2)) /\ smove k (flat 0 gi) H (flat 0 gi2) H2 /\
    forall P : fsys -> Prop,
      (forall fs gi' H', sloadable fs gi' H' -> dext (dk_d (dk s)) (snd fs) -> nlen gi' = nlen gi ->
         cut_sq (sq_of gi H) (sq_of gi2 H2) (sq_of gi' H') -> P fs) ->
      scuts P (dk s) (dk s2).
Proof.
  intros k U An Hv Hts Hds. destruct (sinv_cur _ _ _ _ _ U) as (file & Hf & Hl).
  set (q := mkDreq v k 0 (zdb_crc32 v) ts).
  destruct (sinv_data n s m gi H q file U Hf) as (D1 & U1 & E1 & C1).
  destruct (cur_split gi (x_indexid (ix s)) (si_id _ _ _ _ _ U)) as (g & l & Eg & Hg). subst gi.
  destruct (sroom _ _ _ _ _ _ _ U Hf Hl Hds) as (Hgd & Hg32 & Hb & Hr & Hi).
  assert (K8 : blen k = 8) by (unfold k, ident; rewrite blen_le; reflexivity).
  pose proof (data_ready_gen s k v ts file (nlen g) (eq_sym Hgd) Hf ltac:(lia) Hv Hts) as RD. fold q in RD.
  pose proof (room_after s file q Hf Hl) as RM. cbn [q q_id q_data] in RM. fold q in RM. rewrite <- Hgd in RM.
  unfold write_sq. fold q. rewrite D1. destruct (N.eqb_spec (blen file) 0) as [X|_]; [lia|].
  cbn [after_data dt d_dataid]. rewrite <- Hgd.
  destruct (sinv_index_insert n (after_data s file q) m g l H v ts (blen file) U1 An) as (e & s2 & R1 & R2 & R3 & R4 & R5 & R6 & R7); auto; try lia.
  fold k in R1, R2, R3, R6, R7. set (it := new_item _ _ _ _ _ _ _ _ _) in *.
  rewrite R1.
  assert (SQ : sq_of (g ++ [l ++ [it]]) (H ++ [(k, (v, ts))]) = mkSq (tot (g ++ [l]) + 1) (livem (flat 0 (g ++ [l])) H ++ [(k, (v, ts))])).
  { unfold sq_of. rewrite R6. f_equal. rewrite !tot_app. cbn [tot]. rewrite nlen_app. cbn [nlen]. lia. }
  eexists. exists (g ++ [l ++ [it]]), (H ++ [(k, (v, ts))]). split; [reflexivity|]. split; [exact R2|]. split; [exact R3|].
  split; [now rewrite !nlen_app|]. split; [exact SQ|]. split; [exact R5|]. split; [rewrite R4; exact E1|].
  split.
  { rewrite flat_snoc. apply (sm_ins _ _ (0 + nlen g, 29 + isz l, it) (k, (v, ts))); try reflexivity. unfold l_id. cbn [snd it new_item it_id].
    unfold k. now rewrite nlen_flat. }
  intros P HP. eapply scuts_trans.
  { apply C1. intros fs L D. apply (HP fs (g ++ [l]) H); auto. left. reflexivity. }
  eapply scuts_one.
  - exact R7.
  - eapply sappend_files.
    + unfold files. f_equal. apply U1.
    + unfold files. rewrite R4. f_equal. apply (si_f _ _ _ _ _ R2).
  - apply (HP _ (g ++ [l]) H); auto; [eapply sinv_loadable; exact U1|]. left. reflexivity.
  - apply (HP _ (g ++ [l ++ [it]]) (H ++ [(k, (v, ts))])); auto.
    + eapply sinv_loadable; exact R2.
    + cbn [files snd]. rewrite R4. exact E1.
    + now rewrite !nlen_app.
    + right. left. reflexivity.
Qed.

Lemma supdate_ok n s m gi H k v' ts g1 l1 it l2 g2 A B HA v HB :
  SInv n s m gi H -> anchored m gi -> at_slot (dk_d (dk s)) gi H k g1 l1 it l2 g2 A B HA v HB ->
  blen v' < 4294967296 -> ts < 4294967296 -> v' <> fst (snd v) ->
  dsize (dk s) (d_dataid (dt s)) <= 2 ^ 31 ->
  exists s2 gi2 H2, write_sq s k v' ts (Some (seq_entry n (nlen g1, 29 + isz l1, it))) = (bulk k, s2) /\
    SInv n s2 m gi2 H2 /\ anchored m gi2 /\
    nlen gi2 = nlen gi /\
    sq_of gi2 H2 = mkSq (tot gi + 1) (kset k v' ts (livem (flat 0 gi) H)) /\
    tb s2 = tb s /\ dext (dk_d (dk s)) (dk_d (dk s2)) /\ smove k (flat 0 gi) H (flat 0 gi2) H2 /\
    forall P : fsys -> Prop,
      (forall fs gi' H', sloadable fs gi' H' -> dext (dk_d (dk s)) (snd fs) -> nlen gi' = nlen gi ->
         cut_sq (sq_of gi H) (sq_of gi2 H2) (sq_of gi' H') -> P fs) ->
      scuts P (dk s) (dk s2).
Proof.
  intros U An At Hv Hts Hne Hds. destruct (sinv_cur _ _ _ _ _ U) as (file & Hf & Hl).
  set (q := mkDreq v' k 0 (zdb_crc32 v') ts).
  destruct (sinv_data n s m gi H q file U Hf) as (D1 & U1 & E1 & C1).
  destruct (cur_split gi (x_indexid (ix s)) (si_id _ _ _ _ _ U)) as (g & l & Eg & Hg). subst gi.
  destruct (sroom _ _ _ _ _ _ _ U Hf Hl Hds) as (Hgd & Hg32 & Hb & Hr & Hi).
  assert (K8 : blen k = 8). { rewrite <- (as_id _ _ _ _ _ _ _ _ _ _ _ _ _ _ At). apply (as_wf _ _ _ _ _ _ _ _ _ _ _ _ _ _ At). }
  pose proof (data_ready_gen s k v' ts file (nlen g) (eq_sym Hgd) Hf ltac:(lia) Hv Hts) as RD. fold q in RD.
  pose proof (room_after s file q Hf Hl) as RM. cbn [q q_id q_data] in RM. fold q in RM. rewrite <- Hgd in RM.
  unfold write_sq. fold q. rewrite D1. destruct (N.eqb_spec (blen file) 0) as [X|_]; [lia|].
  cbn [after_data dt d_dataid]. rewrite <- Hgd.
  pose proof (at_slot_ext _ _ _ _ _ _ _ _ _ _ _ _ _ _ _ E1 At) as At1.
  destruct (sinv_index_update n (after_data s file q) m g l H k g1 l1 it l2 g2 A B HA v HB v' ts (blen file) U1 An At1)
    as (e & s2 & l2' & g2' & R1 & R2 & R3 & R4 & R5 & R6 & R7 & R8 & R9 & R10 & R11 & R12 & R13 & R14); auto; try lia.
  set (dup := mkItem (blen k) (it_off it) _ _ _ _ _ _ _ _ _) in *. set (it' := mkItem (blen k) (blen file) _ _ _ _ _ _ _ _ _) in *.
  rewrite R1.
  set (gi2 := g1 ++ (l1 ++ it' :: l2') :: g2') in *. set (H2 := HA ++ (k, (v', ts)) :: HB ++ [v]) in *.
  assert (SQ : sq_of gi2 H2 = mkSq (tot (g ++ [l]) + 1) (kset k v' ts (livem (flat 0 (g ++ [l])) H))).
  { unfold sq_of. now rewrite R10, R8. }
  eexists. exists gi2, H2. split; [reflexivity|]. split; [exact R5|]. split; [exact R6|].
  split; [exact R7|]. split; [exact SQ|]. split; [exact R12|]. split; [rewrite R11; exact E1|].
  split.
  { destruct At as [Eg Ek EA EF EH LH Hver Hid W Lx MA MB SA SB _]. unfold H2. rewrite R14, EF, EH.
    assert (Ex : l_id (nlen g1, 29 + isz l1, it) = k) by exact Hid. rewrite <- Ex at 1.
    apply sm_upd; try reflexivity; auto.
    unfold live. cbn [l_it snd dup it_flags]. rewrite is_deleted_odd. unfold INDEX_ENTRY_DELETED. now rewrite lor_1_odd. }
  intros P HP. eapply scuts_trans.
  { apply C1. intros fs L D. apply (HP fs (g ++ [l]) H); auto. left. reflexivity. }
  set (dd1 := dk_d (dk (after_data s file q))) in *.
  set (dm := mkDisk (enc_ifs MODE_SEQ 0 (g ++ [l ++ [dup]])) dd1
     (dk_log (dk (after_data s file q)) ++ [WrI (nlen g) (29 + isz l) (enc_item dup)]) []).
  assert (P0 : P (files (dk (after_data s file q)))).
  { apply (HP _ (g ++ [l]) H); auto; [eapply sinv_loadable; exact U1|]. left. reflexivity. }
  assert (Pm : P (files dm)).
  { apply (HP _ (g ++ [l ++ [dup]]) (H ++ [v])); auto.
    - split; [exact R2|]. split; [rewrite nlen_app; cbn [nlen]; lia|]. left. cbn [dm files snd dk_d].
      split; [|apply U1]. pose proof (si_dn _ _ _ _ _ U1) as X. fold dd1 in X. rewrite X, !nlen_app. reflexivity.
    - now rewrite !nlen_app.
    - right. right. rewrite SQ. cbn [sq_of sq_map sq_next]. split; [exact R3|].
      rewrite !tot_app. cbn [tot]. rewrite nlen_app. cbn [nlen]. lia. }
  eapply scuts_trans with (b := dm).
  - eapply scuts_one.
    + reflexivity.
    + unfold files. cbn [dm dk_i dk_d]. rewrite (sf_files _ _ _ _ (si_f _ _ _ _ _ U1)). cbn [apply_write fst snd].
      rewrite wrfile_append. reflexivity.
    + exact P0.
    + exact Pm.
  - eapply scuts_one.
    + cbn [dm dk_log]. rewrite R13, <- app_assoc. reflexivity.
    + unfold files. cbn [dm dk_i dk_d]. rewrite R11, (sf_files _ _ _ _ (si_f _ _ _ _ _ R5)). cbn [apply_write fst snd].
      rewrite R4, wrfile_over; [reflexivity|]. cbn [it' it_id]. now rewrite (as_id _ _ _ _ _ _ _ _ _ _ _ _ _ _ At).
    + exact Pm.
    + apply (HP _ gi2 H2); auto.
      * eapply sinv_loadable; exact R5.
      * cbn [files snd]. rewrite R11. exact E1.
      * right. left. reflexivity.
Qed.

(* ---- one request ---- *)
Definition sstep_ok n s gi H (out : bytes * est) (spec : reply * sqs) : Prop :=
  fst out = enc_reply (fst spec) /\
  scuts (scrash_to s gi H (snd spec)) (dk s) (dk (snd out)) /\
  exists m' gi' H', SInv n (snd out) m' gi' H' /\ anchored m' gi' /\ sq_of gi' H' = snd spec /\
    tb (snd out) = tb s /\ dext (dk_d (dk s)) (dk_d (dk (snd out))) /\ nlen gi <= nlen gi' /\ nlen gi' <= nlen gi + 1 /\
    smoved (flat 0 gi) H (flat 0 gi') H'.

Lemma scrash_none n s m gi H st2 : SInv n s m gi H -> scrash_to s gi H st2 (files (dk s)).
Proof.
  intros U. exists gi, H. split; [eapply sinv_loadable; exact U|]. split; [apply dext_refl|]. split; [lia|]. left. reflexivity.
Qed.

Lemma sstep_same n s m gi H r b : SInv n s m gi H -> anchored m gi -> b = enc_reply r ->
  sstep_ok n s gi H (b, s) (r, sq_of gi H).
Proof.
  intros U An E. split; auto. split; [apply scuts_refl; eapply scrash_none; exact U|].
  exists m, gi, H. cbn [snd]. split; [exact U|]. split; [exact An|]. split; [reflexivity|]. split; [reflexivity|].
  split; [apply dext_refl|]. split; [lia|]. split; [lia|]. now left.
Qed.

Lemma nlen_sfiles n s m gi H : SInv n s m gi H -> nlen (dk_i (dk s)) = nlen gi.
Proof. intros U. rewrite (sf_files _ _ _ _ (si_f _ _ _ _ _ U)). apply nlen_enc_ifs. Qed.

(* What a key that is found looks like *)
Lemma seq_ex n s m gi H k : SInv n s m gi H -> key_asked (tot gi) k ->
  match index_get s k with
  | Some e => exists g1 l1 it l2 g2 A B HA v HB, at_slot (dk_d (dk s)) gi H k g1 l1 it l2 g2 A B HA v HB /\
       e = seq_entry n (nlen g1, 29 + isz l1, it)
  | None => kget k (livem (flat 0 gi) H) = None
  end.
Proof.
  intros U Ha. pose proof (seq_lookup n s m gi H k U Ha) as L. destruct (index_get s k); [|exact L].
  eapply found_at; eauto.
Qed.

Lemma kget_nil gi H di dd : SFInv di dd gi H -> kget [] (livem (flat 0 gi) H) = None.
Proof.
  intros F. apply kget_none. rewrite livem_keys by (eapply sver_same; apply F).
  intros Hi. apply in_map_iff in Hi. destruct Hi as (x & Hx & Hi). apply filter_In in Hi. destruct Hi as [Hi _].
  pose proof (sf_wf _ _ _ _ F) as W. rewrite Forall_forall in W. destruct (W x Hi) as (_ & W2 & _). rewrite Hx in W2. discriminate.
Qed.

Lemma set_seq_eq argv now ex s :
  set_handler_sequential argv now ex s =
  match ex with
  | None => if negb (blen (arg 1 argv) =? 0) then (hardsend "-Invalid key, only update authorized", s)
            else write_sq s (ident (x_nextentry (ix s))) (arg 2 argv) (timestamp_from_set argv 3 now) None
  | Some x => if unchanged (dk s) ex (arg 2 argv) then (NIL, s)
              else write_sq s (nfirst 8 (e_id x) ++ nskip (blen (nfirst 8 (e_id x))) (le 8 (x_nextentry (ix s))))
                     (arg 2 argv) (timestamp_from_set argv 3 now) ex
  end.
Proof. destruct ex; reflexivity. Qed.

Lemma sjump_grows n s m gi H : SInv n s m gi H -> nlen gi < 4294967296 ->
  nlen (dk_i (dk (jump_next s))) = nlen gi + 1 /\ x_mode (ix (jump_next s)) = MODE_SEQ.
Proof.
  intros U Hn. pose proof (si_f _ _ _ _ _ U) as F.
  rewrite (jump_ok MODE_SEQ s gi); [| apply F | apply U | apply U | auto | apply U].
  destruct (jump_ix_seq (nlen gi) (ix s) m (si_seq _ _ _ _ _ U)) as (J1&J2&_).
  cbn [dk dk_i ix]. rewrite nlen_enc_ifs, nlen_app, J2. split; [reflexivity|apply U].
Qed.

Definition settles gi (s s' : est) : Prop := nlen (dk_i (dk s)) < nlen (dk_i (dk s')) -> settled_g gi.

Lemma sset_ok g n s m gi H p now c k v ts :
  SInv n s m gi H -> anchored m gi -> g_datasize g <= 2 ^ 31 -> blen v <= 8388608 -> ots_ok ts -> files_lt s ->
  key_asked (tot gi) k ->
  settles gi s (snd (command_set g p now (argv_of (QSet k v ts)) c s)) ->
  sstep_ok n s gi H (command_set g p now (argv_of (QSet k v ts)) c s)
    (sq_set p now c (sq_of gi H) k v ts).
Proof.
  intros U An Hg Hv Hts Hfl Hka. set (M := livem (flat 0 gi) H).
  assert (A : forall i, arg i (argv_of (QSet k v ts)) =
     match i with 0 => str "SET" | 1 => k | 2 => v | 3 => match ts with Some t => dec t | None => [] end | _ => [] end%nat).
  { intros i. destruct ts, i as [|[|[|[|[|i]]]]]; try reflexivity; destruct i; reflexivity. }
  unfold command_set, sq_set. rewrite !A.
  assert (EA : (if argc (argv_of (QSet k v ts)) =? 4 then admin_authorized p
       else args_validate_null (argv_of (QSet k v ts)) 3)
     = match ts, p_admin p with Some _, false => Some (hardsend "-Permission denied") | _, _ => None end).
  { destruct ts; reflexivity. }
  rewrite EA. change (sq_map (sq_of gi H)) with M. change (sq_next (sq_of gi H)) with (tot gi).
  match goal with |- context [match match ts with Some _ => _ | None => _ end with Some _ => _ | None => ?b end] => set (out := b) end.
  match goal with |- _ -> sstep_ok _ _ _ _ _ (match ts with Some _ => _ | None => ?b end) => set (spec := b) end.
  assert (settles gi s (snd out) -> sstep_ok n s gi H out spec) as MAIN.
  2:{ destruct ts as [t|]; [|exact MAIN]. destruct (p_admin p); [exact MAIN|]. intros _. eapply sstep_same; eauto. }
  unfold out, spec. clear out spec EA.
  unfold MAX_KEY_LENGTH, is_frozen, is_locked, NS_LOCK_READ_WRITE, NS_LOCK_UNLOCKED.
  destruct (N.ltb_spec 255 (blen k)) as [_|Hk]; [intros _; eapply sstep_same; eauto|].
  destruct (p_writable p); cbn [negb]; [|intros _; eapply sstep_same; eauto].
  destruct (n_lock c =? 2); [intros _; eapply sstep_same; eauto|].
  destruct (negb (n_lock c =? 0)); [intros _; eapply sstep_same; eauto|].
  set (ex := if blen k =? 0 then None else index_get s k). cbn zeta.
  assert (EX : match ex with
     | Some e => blen k <> 0 /\ exists g1 l1 it l2 g2 A B HA w HB, at_slot (dk_d (dk s)) gi H k g1 l1 it l2 g2 A B HA w HB /\
          e = seq_entry n (nlen g1, 29 + isz l1, it)
     | None => kget k M = None end).
  { unfold ex. destruct (N.eqb_spec (blen k) 0) as [E|E].
    - apply blen_0 in E. subst k. eapply kget_nil. apply (si_f _ _ _ _ _ U).
    - pose proof (seq_ex n s m gi H k U Hka) as L. destruct (index_get s k) as [e|]; auto. }
  assert (EW : match ex with Some _ => n_worm c | None => false end
             = match kget k M with Some _ => n_worm c | None => false end).
  { destruct ex as [e|]; [|now rewrite EX]. destruct EX as (_ & g1 & l1 & it & l2 & g2 & A' & B & HA & w & HB & At & _).
    unfold M. rewrite (as_get _ _ _ _ _ _ _ _ _ _ _ _ _ _ At). reflexivity. }
  rewrite EW. destruct (match kget k M with Some _ => n_worm c | None => false end); [intros _; eapply sstep_same; eauto|].
  assert (EQ : negb (n_maxsize c =? 0)
     && (add64 (n_maxsize c) (match ex with Some e => e_len e | None => 0 end) <? add64 (x_datasize (ix s)) (blen v))
     = over_quota (n_maxsize c) M k v).
  { unfold over_quota. f_equal. rewrite (si_dsz _ _ _ _ _ U), add64_u64.
    rewrite <- (ksize_slivem (dk_d (dk s)) (flat 0 gi) H) by apply (si_f _ _ _ _ _ U). fold M.
    unfold oldlen, add64, u64. destruct ex as [e|].
    - destruct EX as (_ & g1 & l1 & it & l2 & g2 & A' & B & HA & w & HB & At & ->).
      unfold M. rewrite (as_get _ _ _ _ _ _ _ _ _ _ _ _ _ _ At).
      destruct (as_ver _ _ _ _ _ _ _ _ _ _ _ _ _ _ At) as (_ & V2 & _).
      cbn [seq_entry e_len l_it snd]. cbn [l_it snd] in V2. rewrite V2. destruct w as [? [? ?]]. reflexivity.
    - rewrite EX. reflexivity. }
  rewrite EQ. destruct (over_quota (n_maxsize c) M k v); [intros _; eapply sstep_same; eauto|].
  rewrite (si_mode _ _ _ _ _ U). change (MODE_SEQ =? MODE_KV) with false. cbn iota.
  set (s1 := if g_datasize g <? dsize (dk s) (d_dataid (dt s)) + blen v then jump_next s else s).
  intros Hse.
  assert (S1 : exists m1 gi1, SInv n s1 m1 gi1 H /\ anchored m1 gi1 /\ (gi1 = gi \/ gi1 = gi ++ [[]]) /\ tb s1 = tb s /\
     dext (dk_d (dk s)) (dk_d (dk s1)) /\ dsize (dk s1) (d_dataid (dt s1)) <= 2 ^ 31 /\
     forall st2, scuts (scrash_to s gi H st2) (dk s) (dk s1)).
  { assert (SET : (g_datasize g <? dsize (dk s) (d_dataid (dt s)) + blen v) = true -> settled_g gi).
    { intros Hj. apply Hse. unfold s1. rewrite Hj.
      assert (Q : nlen (dk_i (dk s)) < nlen (dk_i (dk (jump_next s))) /\ x_mode (ix (jump_next s)) = MODE_SEQ).
      { pose proof (nlen_sfiles _ _ _ _ _ U) as NF. unfold files_lt in Hfl.
        destruct (sjump_grows n s m gi H U) as (J1 & J2); [lia|]. split; [lia|exact J2]. }
      pose proof (handler_files (argv_of (QSet k v ts)) now ex (jump_next s) (proj2 Q)). lia. }
    unfold s1. change (2 ^ 31) with 2147483648 in *.
    destruct (N.ltb_spec (g_datasize g) (dsize (dk s) (d_dataid (dt s)) + blen v)) as [Hj|Hj].
    - unfold files_lt in Hfl. rewrite (nlen_sfiles _ _ _ _ _ U) in Hfl. 
      destruct (sinv_jump n s m gi H U Hfl (SET eq_refl)) as (m' & J1 & J2 & J3 & J4 & J5 & J6).
      exists m', (gi ++ [[]]). split; [exact J1|]. split; [exact J2|]. split; [auto|]. split; [exact J3|].
      split; [exact J4|]. split; [rewrite J5; lia|]. intros st2. apply J6.
      intros fs gi' L FE NE DE. exists gi', H. split; [exact L|]. split; [exact DE|]. split; [exact NE|]. left. now apply sq_of_flat.
    - exists m, gi. split; [exact U|]. split; [exact An|]. split; [auto|]. split; [reflexivity|]. split; [apply dext_refl|].
      split; [lia|]. intros st2. apply scuts_refl. eapply scrash_none; exact U. }
  destruct S1 as (m1 & gi1 & U1 & An1 & G1 & T1 & D1 & Z1 & C1). clear Hse.
  assert (SQ1 : sq_of gi1 H = sq_of gi H) by (destruct G1 as [->| ->]; [reflexivity|apply sq_of_jump]).
  assert (N1 : nlen gi <= nlen gi1 /\ nlen gi1 <= nlen gi + 1).
  { destruct G1 as [->| ->]; [|rewrite nlen_app; cbn [nlen]]; lia. }
  assert (TT : tot gi1 = tot gi) by (apply (f_equal sq_next) in SQ1; exact SQ1).
  assert (LL : livem (flat 0 gi1) H = M) by (apply (f_equal sq_map) in SQ1; exact SQ1).
  assert (FL1 : flat 0 gi1 = flat 0 gi) by (destruct G1 as [->| ->]; [reflexivity|apply flat_jump]).
  assert (STAY : forall b r, b = enc_reply r -> sstep_ok n s gi H (b, s1) (r, sq_of gi H)).
  { intros b r E. split; auto. split; [apply C1|]. exists m1, gi1, H. cbn [snd].
    split; [exact U1|]. split; [exact An1|]. split; [exact SQ1|]. split; [exact T1|]. split; [exact D1|]. split; [apply N1|]. split; [apply N1|].
    left. split; [exact FL1|reflexivity]. }
  assert (WRITE : forall b s2 gi2 H2 st2, b = bulk (match ex with Some _ => k | None => ident (tot gi) end) ->
     SInv n s2 m1 gi2 H2 -> anchored m1 gi2 -> nlen gi2 = nlen gi1 ->
     sq_of gi2 H2 = st2 -> tb s2 = tb s1 -> dext (dk_d (dk s1)) (dk_d (dk s2)) ->
     smove (match ex with Some _ => k | None => ident (tot gi) end) (flat 0 gi1) H (flat 0 gi2) H2 ->
     (forall P : fsys -> Prop,
      (forall fs gi' H', sloadable fs gi' H' -> dext (dk_d (dk s1)) (snd fs) -> nlen gi' = nlen gi1 ->
         cut_sq (sq_of gi1 H) (sq_of gi2 H2) (sq_of gi' H') -> P fs) ->
      scuts P (dk s1) (dk s2)) ->
     sstep_ok n s gi H (b, s2) (RBulk (match ex with Some _ => k | None => ident (tot gi) end), st2)).
  { intros b s2 gi2 H2 st2 Eb R2 R3 R4 <- R6 R7 R9 R8. split; [cbn [fst enc_reply]; exact Eb|]. split.
    { eapply scuts_trans; [apply C1|]. cbn [snd]. apply R8. intros fs gi' H' L DE NE CM. exists gi', H'.
      split; [exact L|]. split; [eapply dext_trans; eauto|]. split; [lia|]. rewrite SQ1 in CM. exact CM. }
    exists m1, gi2, H2. cbn [snd]. split; [exact R2|]. split; [exact R3|]. split; [reflexivity|].
    split; [congruence|]. split; [eapply dext_trans; eauto|]. split; [lia|]. split; [lia|].
    right. eexists. rewrite <- FL1. exact R9. }
  rewrite set_seq_eq. rewrite !A.
  replace (timestamp_from_set (argv_of (QSet k v ts)) 3 now) with (stamp ts now)
    by (symmetry; destruct ts; apply (stamp_set k v _ now (str "SET") Hts)).
  destruct ex as [e|].
  - destruct EX as (K0 & g1 & l1 & it & l2 & g2 & A' & B & HA & w & HB & At & ->).
    destruct (N.eqb_spec (blen k) 0) as [X|_]; [lia|].
    pose proof (as_get _ _ _ _ _ _ _ _ _ _ _ _ _ _ At) as Eget. fold M in Eget. rewrite Eget.
    destruct (snd w) as [v0 t0] eqn:Ew.
    rewrite (sunchanged n _ _ w) by (eapply sver_ok_ext; [exact D1|apply At]). rewrite Ew. cbn [fst].
    destruct (bseqb_spec v0 v) as [|Nv]; [apply STAY; reflexivity|].
    assert (K8 : blen k = 8). { rewrite <- (as_id _ _ _ _ _ _ _ _ _ _ _ _ _ _ At). apply (as_wf _ _ _ _ _ _ _ _ _ _ _ _ _ _ At). }
    assert (EK : nfirst 8 (it_id it) ++ nskip (blen (nfirst 8 (it_id it))) (le 8 (x_nextentry (ix s1))) = k).
    { rewrite (as_id _ _ _ _ _ _ _ _ _ _ _ _ _ _ At). rewrite nfirst_all by (rewrite <- blen_nlen; lia).
      rewrite nskip_all by (rewrite <- blen_nlen, blen_le; lia). apply app_nil_r. }
    cbn [seq_entry e_id]. change (l_id (nlen g1, 29 + isz l1, it)) with (it_id it). rewrite EK.
    assert (At1 : exists g2', at_slot (dk_d (dk s1)) gi1 H k g1 l1 it l2 g2' A' B HA w HB).
    { destruct G1 as [->| ->]; eexists.
      - eapply at_slot_ext; eauto.
      - eapply at_slot_jump, at_slot_ext; eauto. }
    destruct At1 as (g2' & At1).
    destruct (supdate_ok n s1 m1 gi1 H k v (stamp ts now) _ _ _ _ _ _ _ _ _ _ U1 An1 At1) as (s2 & gi2 & H2 & R1 & R2 & R3 & R4 & R5 & R6 & R7 & R9 & R8);
      [lia|apply stamp_lt|rewrite Ew; cbn [fst]; congruence|exact Z1|].
    rewrite R1. rewrite LL, TT in R5. eapply WRITE; eauto.
  - rewrite EX. destruct (N.eqb_spec (blen k) 0) as [E0|E0]; cbn [negb].
    2:{ apply STAY. reflexivity. }
    rewrite (si_next _ _ _ _ _ U1).
    destruct (sinsert_ok n s1 m1 gi1 H v (stamp ts now) U1 An1) as (s2 & gi2 & H2 & R1 & R2 & R3 & R4 & R5 & R6 & R7 & R9 & R8);
      [lia|apply stamp_lt|exact Z1|].
    rewrite R1. rewrite LL, TT in R5. eapply WRITE; eauto; now rewrite <- TT.
Qed.

Lemma sdel_ok n s m gi H p now c k ts :
  SInv n s m gi H -> anchored m gi -> ots_ok ts -> key_asked (tot gi) k ->
  sstep_ok n s gi H (command_del p now (argv_of (QDel k ts)) c s)
    (sq_step p now c (QDel k ts) (sq_of gi H)).
Proof.
  intros U An Hts Hka. set (M := livem (flat 0 gi) H).
  assert (A : arg 1 (argv_of (QDel k ts)) = k) by (destruct ts; reflexivity).
  assert (PU : forall r : reply, (let '(r, m) := (r, M) in (r, mkSq (tot gi) m)) = (r, sq_of gi H)) by reflexivity.
  unfold command_del. cbn [sq_step]. unfold kv_del. rewrite !A. change (sq_map (sq_of gi H)) with M. change (sq_next (sq_of gi H)) with (tot gi).
  match goal with |- context [match (if ?x then ?y else ?z) with Some _ => _ | None => ?b end] => set (out := b) end.
  set (spec := if 255 <? blen k then (RErr "Invalid key", M) else if negb (p_writable p) then (err_readonly, M)
      else if n_lock c =? 2 then (err_frozen, M) else if negb (n_lock c =? 0) then (err_locked, M)
      else match kget k M with None => (RErr "Key not found", M)
           | Some _ => if n_worm c then (RErr "Cannot delete a key when namespace is in worm mode", M) else (ROk, kdel k M) end).
  assert (sstep_ok n s gi H out (let '(r, m) := spec in (r, mkSq (tot gi) m))) as MAIN.
  { unfold out, spec. clear out spec. unfold MAX_KEY_LENGTH, is_frozen, is_locked, NS_LOCK_READ_WRITE, NS_LOCK_UNLOCKED.
    destruct (N.ltb_spec 255 (blen k)) as [_|Hk]; [eapply sstep_same; eauto|].
    destruct (p_writable p); cbn [negb]; [|eapply sstep_same; eauto].
    destruct (n_lock c =? 2); [eapply sstep_same; eauto|].
    destruct (negb (n_lock c =? 0)); [eapply sstep_same; eauto|].
    pose proof (seq_ex n s m gi H k U Hka) as L. destruct (index_get s k) as [e|].
    2:{ fold M in L. rewrite L. eapply sstep_same; eauto. }
    destruct L as (g1 & l1 & it & l2 & g2 & A' & B & HA & w & HB & At & ->).
    pose proof (as_get _ _ _ _ _ _ _ _ _ _ _ _ _ _ At) as Eget. fold M in Eget. rewrite Eget.
    destruct (n_worm c); [eapply sstep_same; eauto|].
    destruct (sinv_cur _ _ _ _ _ U) as (file & Hf & Hl).
    cbn zeta. unfold data_delete. set (q := mkDreq _ _ _ _ _).
    destruct (sinv_data n s m gi H q file U Hf) as (D1 & U1 & E1 & C1). rewrite D1.
    destruct (N.eqb_spec (blen file) 0) as [X|_]; [lia|]. cbn [negb].
    pose proof (at_slot_ext _ _ _ _ _ _ _ _ _ _ _ _ _ _ _ E1 At) as At1.
    destruct (sinv_index_delete n _ m gi H k _ _ _ _ _ _ _ _ _ _ U1 At1) as (s2 & R1 & R2 & R3 & R4 & R5 & R6 & R7 & R8).
    set (gi2 := g1 ++ (l1 ++ flag it :: l2) :: g2) in *.
    rewrite R1. fold M in R4.
    assert (TT : tot gi2 = tot gi) by (now apply tot_lens).
    assert (NN : nlen gi2 = nlen gi) by (rewrite <- (nlen_map nlen gi2), R3; apply nlen_map).
    assert (SQ : sq_of gi2 H = mkSq (tot gi) (kdel k M)) by (unfold sq_of; now rewrite TT, R4).
    split; [reflexivity|]. split.
    { cbn [snd]. eapply scuts_trans.
      - apply C1. intros fs L D. exists gi, H. split; [exact L|]. split; [exact D|]. split; [lia|]. left. reflexivity.
      - eapply scuts_one.
        + exact R7.
        + unfold files. rewrite R5, (sf_files _ _ _ _ (si_f _ _ _ _ _ R2)), (sf_files _ _ _ _ (si_f _ _ _ _ _ U1)).
          rewrite (as_gi _ _ _ _ _ _ _ _ _ _ _ _ _ _ At). cbn [apply_write fst snd]. now rewrite wrfile_over.
        + exists gi, H. split; [eapply sinv_loadable; exact U1|]. split; [exact E1|]. split; [lia|]. left. reflexivity.
        + exists gi2, H. split; [eapply sinv_loadable; exact R2|]. split; [cbn [files snd]; rewrite R5; exact E1|].
          split; [lia|]. right. left. exact SQ. }
    exists m, gi2, H. cbn [snd]. split; [exact R2|]. split; [apply (anchored_lens m gi gi2); auto|]. split; [exact SQ|].
    split; [exact R6|]. split; [rewrite R5; exact E1|]. split; [lia|]. split; [lia|].
    right. exists k. rewrite R8, (as_flat _ _ _ _ _ _ _ _ _ _ _ _ _ _ At).
    assert (Ex : l_id (nlen g1, 29 + isz l1, it) = k) by exact (as_id _ _ _ _ _ _ _ _ _ _ _ _ _ _ At). rewrite <- Ex.
    apply (sm_del A' (nlen g1, 29 + isz l1, it) B H). exact (as_live _ _ _ _ _ _ _ _ _ _ _ _ _ _ At). }
  destruct ts as [t|].
  - change (argc (argv_of (QDel k (Some t))) =? 3) with true. cbn iota. unfold admin_authorized.
    destruct (p_admin p); [exact MAIN|eapply sstep_same; eauto].
  - change (argc (argv_of (QDel k None)) =? 3) with false. cbn iota. cbn [argv_of].
    rewrite args_validate_2 by reflexivity. destruct (N.eqb_spec (blen k) 0) as [E|E].
    + rewrite E. eapply sstep_same; eauto.
    + destruct (blen k) eqn:EB; [lia|]. rewrite <- EB in *. exact MAIN.
Qed.

Lemma sget_single_ok n s m gi H k : SInv n s m gi H -> key_asked (tot gi) k ->
  get_single s k = enc_reply (get_reply (kget k (livem (flat 0 gi) H))).
Proof.
  intros U Hka. unfold get_single. pose proof (seq_ex n s m gi H k U Hka) as L. destruct (index_get s k) as [e|]; [|now rewrite L].
  destruct L as (g1 & l1 & it & l2 & g2 & A' & B & HA & w & HB & At & ->).
  rewrite (as_get _ _ _ _ _ _ _ _ _ _ _ _ _ _ At).
  destruct (as_ver _ _ _ _ _ _ _ _ _ _ _ _ _ _ At) as (V1 & V2 & V3 & V4 & r & R1 & R2 & R3 & R4 & R5 & R6 & R7).
  cbn [seq_entry e_off e_len e_dataid e_id]. rewrite V2, V1, <- R2.
  rewrite (data_get_at (dk s) _ _ r _) by auto. destruct w as [? [? ?]]. reflexivity.
Qed.

Lemma smget_concat n s m gi H ks : SInv n s m gi H -> Forall (key_asked (tot gi)) ks ->
  List.concat (map (get_single s) ks) =
  (fix go l := match l with [] => [] | r :: t => enc_reply r ++ go t end)
    (map (fun k => get_reply (kget k (livem (flat 0 gi) H))) ks).
Proof.
  intros U Hk. induction Hk as [|k ks Hk Hks IH]; cbn [map List.concat]; auto.
  rewrite IH, (sget_single_ok n s m gi H k U Hk). reflexivity.
Qed.

Lemma sreq_ok g n s m gi H p now q c :
  SInv n s m gi H -> anchored m gi -> g_datasize g <= 2 ^ 31 -> req_wf q -> files_lt s -> req_asked (tot gi) q ->
  settles gi s (snd (run_req g p now q c s)) ->
  sstep_ok n s gi H (run_req g p now q c s) (sq_step p now c q (sq_of gi H)).
Proof.
  intros U An Hg Hq Hfl Ha. destruct q as [k v ts|k ts|k|ks|k|k|k|k| |]; cbn [run_req req_wf] in *;
    unfold req_asked in Ha; cbn [keys_of] in Ha; try (pose proof (Forall_inv Ha) as Hk);
    (match goal with |- settles _ _ (snd (command_set _ _ _ _ _ _)) -> _ => idtac | |- settles _ _ (snd (command_nsjump _ _)) -> _ => idtac | _ => intros _ end).
  - destruct Hq. now apply (sset_ok g n s m).
  - now apply (sdel_ok n s m).
  - eapply sstep_same; eauto. unfold command_get. cbn [argv_of kv_step fst].
    apply read_command_ok; [reflexivity|]. now apply (sget_single_ok n s m).
  - eapply sstep_same; eauto. unfold command_mget, argc. cbn [argv_of nlen tl kv_step fst].
    destruct (N.eqb_spec (nlen ks) 0) as [E|E].
    + rewrite E. reflexivity.
    + destruct (N.ltb_spec (N.succ (nlen ks)) 2) as [X|_]; [lia|].
      unfold MAX_KEY_LENGTH. destruct (existsb _ ks); [reflexivity|].
      unfold is_frozen, NS_LOCK_READ_WRITE. destruct (n_lock c =? 2); [reflexivity|].
      cbn [enc_reply sq_of sq_map]. rewrite (smget_concat n s m gi H) by auto.
      unfold arrayhdr. rewrite nlen_map, <- !app_assoc. replace (N.succ (nlen ks) - 1) with (nlen ks) by lia. reflexivity.
  - eapply sstep_same; eauto. unfold command_exists. cbn [argv_of kv_step fst]. apply read_command_ok; [reflexivity|].
    pose proof (seq_ex n s m gi H k U Hk) as L. destruct (index_get s k) as [e|]; cbn [sq_of sq_map].
    + destruct L as (g1 & l1 & it & l2 & g2 & A' & B & HA & w & HB & At & ->).
      rewrite (as_get _ _ _ _ _ _ _ _ _ _ _ _ _ _ At). reflexivity.
    + now rewrite L.
  - eapply sstep_same; eauto. unfold command_check. cbn [argv_of kv_step fst]. apply read_command_ok; [reflexivity|].
    pose proof (seq_ex n s m gi H k U Hk) as L. destruct (index_get s k) as [e|]; cbn [sq_of sq_map]; [|now rewrite L].
    destruct L as (g1 & l1 & it & l2 & g2 & A' & B & HA & w & HB & At & ->).
    rewrite (as_get _ _ _ _ _ _ _ _ _ _ _ _ _ _ At).
    destruct (as_ver _ _ _ _ _ _ _ _ _ _ _ _ _ _ At) as (V1 & V2 & V3 & V4 & r & R1 & R2 & R3 & R4 & R5 & R6 & R7).
    cbn [seq_entry e_off e_dataid]. rewrite (data_check_at _ _ _ r (fst (snd w))) by auto.
    rewrite R4, N.eqb_refl. reflexivity.
  - eapply sstep_same; eauto. unfold command_length. cbn [argv_of kv_step fst]. apply read_command_ok; [reflexivity|].
    pose proof (seq_ex n s m gi H k U Hk) as L. destruct (index_get s k) as [e|]; cbn [sq_of sq_map]; [|now rewrite L].
    destruct L as (g1 & l1 & it & l2 & g2 & A' & B & HA & w & HB & At & ->).
    rewrite (as_get _ _ _ _ _ _ _ _ _ _ _ _ _ _ At).
    destruct (as_ver _ _ _ _ _ _ _ _ _ _ _ _ _ _ At) as (_ & V2 & _).
    cbn [seq_entry e_len]. rewrite V2. now destruct w as [? [? ?]].
  - eapply sstep_same; eauto. unfold command_keytime. cbn [argv_of kv_step fst]. apply read_command_ok; [reflexivity|].
    pose proof (seq_ex n s m gi H k U Hk) as L. destruct (index_get s k) as [e|]; cbn [sq_of sq_map]; [|now rewrite L].
    destruct L as (g1 & l1 & it & l2 & g2 & A' & B & HA & w & HB & At & ->).
    rewrite (as_get _ _ _ _ _ _ _ _ _ _ _ _ _ _ At).
    destruct (as_ver _ _ _ _ _ _ _ _ _ _ _ _ _ _ At) as (_ & _ & _ & V4 & _).
    cbn [seq_entry e_ts]. rewrite V4. now destruct w as [? [? ?]].
  - cbn [sq_step kv_step]. unfold command_nsjump, admin_authorized. destruct (p_admin p); [|intros _; eapply sstep_same; eauto].
    cbn [snd fst]. unfold files_lt in Hfl. rewrite (nlen_sfiles _ _ _ _ _ U) in Hfl. intros Se.
    destruct (sinv_jump n s m gi H U Hfl) as (m' & J1 & J2 & J3 & J4 & J5 & J6).
    { apply Se. rewrite (nlen_sfiles _ _ _ _ _ U), (proj1 (sjump_grows n s m gi H U Hfl)). lia. }
    split; [reflexivity|]. split.
    { apply J6. intros fs gi' L FE NE DE. exists gi', H.
      split; [exact L|]. split; [exact DE|]. split; [exact NE|]. left. now apply sq_of_flat. }
    exists m', (gi ++ [[]]), H. cbn [snd].
    split; [exact J1|]. split; [exact J2|]. split; [apply sq_of_jump|]. split; [exact J3|].
    split; [exact J4|]. rewrite nlen_app. cbn [nlen]. split; [lia|]. split; [lia|]. left. split; [apply flat_jump|reflexivity].
  - eapply sstep_same; eauto. unfold command_dbsize. cbn [kv_step fst sq_of sq_map]. rewrite (si_cnt _ _ _ _ _ U).
    rewrite <- (kcount_livem (flat 0 gi) H) by (eapply forall2_length; apply (si_f _ _ _ _ _ U)). reflexivity.
Qed.
