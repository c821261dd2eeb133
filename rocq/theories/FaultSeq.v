(* Failing data writes in sequential mode. *)
From Coq Require Import Strings.String Strings.Byte List NArith ZArith Bool Lia ZifyBool ZifyN ZifyNat.
From Verif Require Import Bytes BytesFacts Crc32 Layout LayoutFacts Store Text TextFacts Commands SpecKV SpecSeq SpecFiles Machine Reach SpecFaults
  CrashModel SeqReach Ghost DataFacts TableFacts UserInv UserSteps UserReq SeqMap SeqInv SeqSteps SeqReq SeqRun SeqFacts FaultFacts.
Import ListNotations.
Open Scope N_scope.
Local Notation length := List.length.

Lemma sinv_spilt n s m gi H x file L io : SInv n s m gi H -> nget (d_dataid (dt s)) (dk_d (dk s)) = Some file ->
  SInv n (wio [] (spilt s x file L io)) m gi H.
Proof.
  intros U Hf. pose proof (dext_nset (dk_d (dk s)) (d_dataid (dt s)) file x Hf) as E.
  destruct U as [U1 U2 U3 U4 U5 U6 U7 U8 U9 U10 U11 U12 U13 U14 U15 U16].
  constructor; cbn [with_outcomes spilt tb ix dt dk dk_i dk_d dk_log dk_io d_dataid]; auto.
  - eapply sfinv_dext; [exact U1|exact E].
  - now rewrite nlen_nset.
  - eapply dhdr_ok_ext; [exact U10|exact E|]. now rewrite nlen_nset.
Qed.

Lemma sinv_has_cur n s m gi H : SInv n s m gi H -> has_cur s.
Proof. intros U. destruct (sinv_cur _ _ _ _ _ U) as (f & A & B). exists f. split; [exact A|lia]. Qed.

Lemma sq_no_write q r : no_write r -> match q with QSet _ _ _ | QDel _ _ => True | _ => False end -> sq_accept q r = false.
Proof.
  intros [->|(t & ->)] Q; destruct q; try contradiction; reflexivity.
Qed.

Lemma jump_cur s : has_cur s -> nlen (dk_d (dk s)) = u32 (x_indexid (ix s) + 1) -> has_cur (jump_next s).
Proof.
  intros _ E. unfold has_cur, jump_next, data_jump_next. set (s1 := index_jump_next s).
  assert (X1 : x_indexid (ix s1) = u32 (x_indexid (ix s) + 1)).
  { unfold s1, index_jump_next, index_seqid_push, index_set_id. cbn [set_dk set_ix ix].
    destruct (dirty_resize_shape (u32 (x_indexid (ix s) + 1)) (x_set_indexid (u32 (x_indexid (ix s) + 1)) (x_set_next (x_nextentry (ix s)) 0 (ix s)))) as (a & b & ->).
    cbn [x_set_updated x_set_dirty x_set_indexid x_set_next x_seq]. destruct (x_seq (ix s)); reflexivity. }
  assert (X2 : dk_d (dk s1) = dk_d (dk s)) by reflexivity.
  rewrite X1, <- E, <- X2. clearbody s1. clear.
  cbn [set_dt set_dk dt dk]. unfold data_open_final. destruct (dfile _ _); cbn [d_dataid];
    unfold data_initialize, do_write; cbn [apply_write dk_d fst snd]; unfold mkfile; rewrite N.eqb_refl; unfold wrfile;
    rewrite nget_app_r; eexists; (split; [apply nget_nset_same; rewrite nlen_app; cbn [nlen]; lia|]);
    change (fwrite [] 0 (data_header (nlen (dk_d (dk s1))))) with (fwrite [] (blen []) (data_header (nlen (dk_d (dk s1))))); rewrite fwrite_end; cbn [app]; rewrite blen_data_header; lia.
Qed.

Lemma fault_no_effect_seq g n c0 es o c s io p now q : sreached g n c0 es o c s ->
  nlen (dk_i (dk s)) < 2 ^ 32 -> data_fault io -> match q with QSet _ _ _ | QDel _ _ => True | _ => False end ->
  let rf := run_req g p now q c (wio io s) in
  (nlen (dk_i (dk s)) < nlen (dk_i (dk (snd rf))) -> settled s) ->
  sq_accept q (fst rf) = false /\ same_sreads s (snd rf) /\ x_nextentry (ix (snd rf)) = x_nextentry (ix s).
Proof.
  intros R FL F Q rf Se. destruct (sreached_inv _ _ _ _ _ _ _ R) as (rr & gi & H & (m & U & An) & _ & _).
  change (2 ^ 32) with 4294967296 in FL. pose proof (nlen_sfiles _ _ _ _ _ U) as NF.
  assert (J0 : has_cur (jump_next s)).
  { apply jump_cur; [now apply (sinv_has_cur n s m gi H)|]. rewrite (si_dn _ _ _ _ _ U), (si_id _ _ _ _ _ U).
    symmetry. apply u32_small. rewrite <- NF. exact FL. }
  assert (FIN : forall s1 s2, (s1 = s \/ s1 = jump_next s) -> s2 = snd rf -> dk_i (dk s2) = dk_i (dk s1) ->
     (forall m1 gi1, SInv n s1 m1 gi1 H -> SInv n (wio [] s2) m1 gi1 H) ->
     same_sreads s s2 /\ x_nextentry (ix s2) = x_nextentry (ix s)).
  { intros s1 s2 E1 E2 Ei K.
    assert (X : exists m1 gi1, SInv n s1 m1 gi1 H /\ flat 0 gi1 = flat 0 gi /\ tot gi1 = tot gi).
    { destruct E1 as [->| ->]; [exists m, gi; auto|].
      assert (S0 : settled s).
      { apply Se. rewrite <- E2, Ei. unfold jump_next. change (dk_i (dk (data_jump_next (x_indexid (ix (index_jump_next s))) (index_jump_next s)))) with (dk_i (dk (index_jump_next s))).
        unfold index_jump_next. cbn [set_dk set_ix dk do_write apply_write dk_i dk_d fst snd]. unfold do_write. cbn [apply_write dk_i dk_d fst snd].
        assert (Eu : u32 (x_indexid (ix s) + 1) = nlen (dk_i (dk s))) by (rewrite (si_id _ _ _ _ _ U), <- NF; apply u32_small; lia).
        rewrite Eu. unfold mkfile. rewrite N.eqb_refl. unfold wrfile. rewrite nget_app_r, nlen_nset, nlen_app. cbn [nlen]. lia. }
      destruct (sinv_jump n s m gi H U) as (m' & J1 & _); [lia|eapply settled_spec; eauto|].
      exists m', (gi ++ [[]]). split; [exact J1|]. split; [apply flat_jump|]. clear. induction gi as [|l r IH]; cbn [app tot nlen]; lia. }
    destruct X as (m1 & gi1 & U1 & Fl & Tt). pose proof (K _ _ U1) as U2. split.
    - assert (Y : same_sreads s (wio [] s2)) by (eapply same_sreads_inv; eauto; [now rewrite Fl|lia]). exact Y.
    - pose proof (si_next _ _ _ _ _ U2) as Y. change (ix (wio [] s2)) with (ix s2) in Y. rewrite Y, (si_next _ _ _ _ _ U). exact Tt. }
  assert (GO : forall r err good, fault_step s io err r rf good -> no_write err ->
     sq_accept q (fst rf) = false /\ same_sreads s (snd rf) /\ x_nextentry (ix (snd rf)) = x_nextentry (ix s)).
  { intros r err good (s1 & E1 & [(A1 & A2 & A3)|(A1 & A2 & x & file & L & io' & A3 & A4)]) Ne.
    - split; [apply sq_no_write; [rewrite A1; exact A3|exact Q]|].
      apply (FIN s1); auto; rewrite A1; cbn [snd]; [reflexivity|]. intros m1 gi1 U1. rewrite wio_nil by apply U1. exact U1.
    - split; [apply sq_no_write; [rewrite A1; exact Ne|exact Q]|].
      apply (FIN s1); auto; rewrite A4; [reflexivity|]. intros m1 gi1 U1. now apply sinv_spilt. }
  destruct q as [k v ts|k ts| | | | | | | |]; try contradiction; cbn [run_req] in rf.
  - eapply GO; [apply set_fault; auto; [apply U|now apply (sinv_has_cur n s m gi H)]|nw_err].
  - eapply GO; [apply del_fault; auto; [apply U|now apply (sinv_has_cur n s m gi H)]|nw_err].
Qed.
