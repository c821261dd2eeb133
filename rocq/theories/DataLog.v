(* The data files are the log of the accepted writes *)
From Coq Require Import Strings.String Strings.Byte List NArith ZArith Bool Lia ZifyBool ZifyN ZifyNat.
From Verif Require Import Bytes BytesFacts Crc32 Crc32Facts Layout LayoutFacts Store DataFacts CheckFacts Text TextFacts Commands SpecKV Machine Reach
  CrashModel SpecFiles FileFacts Ghost TableFacts UserInv UserLoad UserSteps UserReq UserRun KvFacts SpecSeq SeqReach SeqMap SeqInv SeqSteps SeqReq SeqRun.
Import ListNotations.
Open Scope N_scope.
Ltac Zify.zify_post_hook ::= Z.div_mod_to_equations.
Local Notation length := List.length.

Definition row := (N * wrote)%type.

Definition wrote_wf (w : wrote) : Prop :=
  blen (w_key w) < 256 /\ blen (w_value w) <= 8388608 /\ w_ts w < 4294967296 /\ (w_gone w = true -> w_value w = []).

Definition w_crc (w : wrote) : N := if w_gone w then 0 else zdb_crc32 (w_value w).
Definition w_flags (w : wrote) : N := if w_gone w then 1 else 0.
Definition w_drec (p : N) (w : wrote) : drec :=
  mkDrec (blen (w_key w)) (blen (w_value w)) (u32 p) (w_crc w) (w_flags w) (w_ts w) (w_key w).

Lemma rec_enc p w : rec_bytes p w = enc_drec (w_drec p w) ++ w_value w.
Proof.
  unfold rec_bytes, enc_drec, w_drec, w_crc, w_flags. cbn [dr_idlen dr_datalen dr_prev dr_crc dr_flags dr_ts dr_id].
  rewrite le4_u32. now rewrite <- !app_assoc.
Qed.

Lemma w_drec_wf p w : wrote_wf w -> drec_wf (w_drec p w).
Proof.
  intros (A & B & C & _). unfold drec_wf, w_drec. cbn [dr_idlen dr_datalen dr_prev dr_crc dr_flags dr_ts dr_id].
  pose proof (u32_lt p). pose proof (zdb_crc32_W32 (w_value w)).
  unfold w_crc, w_flags. destruct (w_gone w); repeat split; auto; try lia.
Qed.

Lemma blen_rec p w : blen (rec_bytes p w) = rec_size w.
Proof. rewrite rec_enc, blen_app, blen_enc_drec. cbn [w_drec dr_id]. unfold rec_size. lia. Qed.

Lemma header_eq f : file_header f = data_header f.
Proof. reflexivity. Qed.

Lemma recs_app a b : recs_bytes (a ++ b) = recs_bytes a ++ recs_bytes b.
Proof. induction a as [|[p w] a IH]; cbn [app recs_bytes]; auto. now rewrite IH, app_assoc. Qed.

Lemma rsize_app a b : recs_size (a ++ b) = recs_size a + recs_size b.
Proof. induction a as [|[p w] a IH]; cbn [app recs_size]; auto. rewrite IH. lia. Qed.

Lemma blen_recs l : blen (recs_bytes l) = recs_size l.
Proof. induction l as [|[p w] l IH]; cbn [recs_bytes recs_size]; auto. rewrite blen_app, blen_rec. lia. Qed.

Lemma files_app a b f : files_bytes f (a ++ b) = files_bytes f a ++ files_bytes (f + nlen a) b.
Proof.
  revert f. induction a as [|r a IH]; intros f; cbn [app files_bytes nlen].
  - now rewrite N.add_0_r.
  - rewrite IH. replace (f + 1 + nlen a) with (f + N.succ (nlen a)) by lia. reflexivity.
Qed.

Lemma nlen_files_bytes a f : nlen (files_bytes f a) = nlen a.
Proof. revert f. induction a; intros; cbn [files_bytes nlen]; auto. now rewrite IHa. Qed.

Lemma nget_files g1 l g2 : nget (nlen g1) (files_bytes 0 (g1 ++ l :: g2)) = Some (file_header (nlen g1) ++ recs_bytes l).
Proof.
  rewrite files_app. cbn [files_bytes]. rewrite <- (nlen_files_bytes g1 0) at 1. rewrite nget_app_r. now rewrite N.add_0_l.
Qed.

(* offsets of the values stay below 2 GiB *)
Fixpoint small (off : N) (rows : list row) : Prop :=
  match rows with
  | [] => True
  | (_, w) :: t => (w_gone w = false -> off <= 2147483648) /\ small (off + rec_size w) t
  end.

Lemma small_snoc off l p w : small off l -> (w_gone w = false -> off + recs_size l <= 2147483648) -> small off (l ++ [(p, w)]).
Proof.
  revert off. induction l as [|[p' w'] l IH]; intros off; cbn [app small recs_size].
  - rewrite N.add_0_r. auto.
  - intros [A B] C. split; auto. apply IH; auto. intros G. specialize (C G). lia.
Qed.

Lemma linked_snoc off l p w : linked off l -> (forall l0 x, l = l0 ++ [x] -> p = off + recs_size l0) -> linked off (l ++ [(p, w)]).
Proof.
  revert off. induction l as [|[p' w'] l IH]; intros off H E.
  - exact I.
  - destruct l as [|[p2 w2] l].
    + cbn [app linked]. split; [|exact I]. rewrite (E [] (p', w') eq_refl). cbn [recs_size]. lia.
    + cbn [linked] in H. destruct H as [H1 H2]. cbn [app linked]. split; [exact H1|].
      apply (IH _ H2). intros l0 x X. rewrite (E ((p', w') :: l0) x); [cbn [recs_size]; lia|]. now rewrite X.
Qed.

Record DL (s : est) (fs : list (list row)) (l : list row) : Prop := {
  dl_d : dk_d (dk s) = files_bytes 0 (fs ++ [l]);
  dl_id : d_dataid (dt s) = nlen fs;
  dl_prev : forall l0 x, l = l0 ++ [x] -> d_prev (dt s) = 28 + recs_size l0;
  dl_links : Forall (linked 28) (fs ++ [l]);
  dl_wf : Forall (Forall (fun x => wrote_wf (snd x))) (fs ++ [l]);
  dl_small : Forall (small 28) (fs ++ [l])
}.

Lemma dl_iop s s' fs l : DL s fs l -> iop s s' -> DL s' fs l.
Proof. intros [A B C D E F] (_ & I1 & I2). constructor; rewrite ?I1, ?I2; auto. Qed.

Lemma dl_file s fs l : DL s fs l -> nget (d_dataid (dt s)) (dk_d (dk s)) = Some (data_header (nlen fs) ++ recs_bytes l).
Proof. intros D. rewrite (dl_d _ _ _ D), (dl_id _ _ _ D). apply nget_files. Qed.

Lemma dl_dsize s fs l : DL s fs l -> dsize (dk s) (d_dataid (dt s)) = 28 + recs_size l.
Proof. intros D. unfold dsize, dfile. rewrite (dl_file _ _ _ D), blen_app, blen_data_header, blen_recs. reflexivity. Qed.

Lemma forall_snoc {A} (P : A -> Prop) l x y : Forall P (l ++ [x]) -> P y -> Forall P (l ++ [y]).
Proof. intros H Y. apply Forall_app in H. apply Forall_app. split; [apply H|]. constructor; [exact Y|constructor]. Qed.

Lemma forall_last {A} (P : A -> Prop) l x : Forall P (l ++ [x]) -> P x.
Proof. intros H. apply Forall_app in H. destruct H as [_ H]. now inversion H. Qed.

Definition w_req (w : wrote) : dreq := mkDreq (w_value w) (w_key w) (w_flags w) (w_crc w) (w_ts w).

Lemma dl_insert s fs l w : DL s fs l -> dk_io (dk s) = [] -> wrote_wf w ->
  (w_gone w = false -> dsize (dk s) (d_dataid (dt s)) <= 2147483648) ->
  exists off s1, data_insert s (w_req w) = (off, s1) /\ 28 <= off /\ ix s1 = ix s /\ tb s1 = tb s /\ dk_io (dk s1) = [] /\
    DL s1 fs (l ++ [(d_prev (dt s), w)]).
Proof.
  intros D Hio W Sm. pose proof (dl_file _ _ _ D) as Hf.
  rewrite (data_insert_ok s (w_req w) _ Hio Hf). eexists. eexists. split; [reflexivity|].
  split; [rewrite blen_app, blen_data_header; lia|]. split; [reflexivity|]. split; [reflexivity|]. split; [reflexivity|].
  assert (HB : enc_drec (ins_hdr s (w_req w)) ++ q_data (w_req w) = rec_bytes (d_prev (dt s)) w).
  { rewrite rec_enc. unfold enc_drec, ins_hdr, w_drec, w_req.
    cbn [dr_idlen dr_datalen dr_prev dr_crc dr_flags dr_ts dr_id q_data q_id q_crc q_flags q_ts]. now rewrite le4_u32. }
  constructor; cbn [dk ins_disk dk_d dt d_dataid d_prev].
  - rewrite HB, (dl_d _ _ _ D), (dl_id _ _ _ D), files_app. cbn [files_bytes].
    pose proof (fun y x => nset_app_r (files_bytes 0 fs) y [] x) as Q. rewrite nlen_files_bytes in Q. rewrite Q, files_app. cbn [files_bytes].
    rewrite recs_app. cbn [recs_bytes]. rewrite app_nil_r, N.add_0_l, <- app_assoc. reflexivity.
  - apply D.
  - intros l0 x E. apply app_inj_tail in E. destruct E as [<- _]. rewrite blen_app, blen_data_header, blen_recs. reflexivity.
  - eapply forall_snoc; [apply D|]. apply linked_snoc; [exact (forall_last _ _ _ (dl_links _ _ _ D))|]. apply D.
  - eapply forall_snoc; [apply D|]. apply Forall_app. split; [exact (forall_last _ _ _ (dl_wf _ _ _ D))|]. constructor; [exact W|constructor].
  - eapply forall_snoc; [apply D|]. apply small_snoc; [exact (forall_last _ _ _ (dl_small _ _ _ D))|].
    rewrite <- (dl_dsize _ _ _ D). exact Sm.
Qed.

Definition ready (s : est) : Prop :=
  dk_io (dk s) = [] /\ x_indexid (ix s) + 1 = nlen (dk_d (dk s)) /\ nlen (dk_d (dk s)) < 4294967296.

Lemma dl_jump s fs l : DL s fs l -> ready s ->
  DL (jump_next s) (fs ++ [l]) [] /\ dk_io (dk (jump_next s)) = [].
Proof.
  intros D (Hio & Hid & Hlt). unfold jump_next. set (s1 := index_jump_next s).
  assert (X1 : x_indexid (ix s1) = nlen (dk_d (dk s))).
  { unfold s1, index_jump_next. cbn [ix set_dk set_ix]. rewrite Hid, u32_small by auto.
    unfold index_set_id, index_seqid_push. cbn [x_set_updated x_set_dirty].
    destruct (x_seq _); unfold index_dirty_resize; repeat destruct (_ <=? _); reflexivity. }
  assert (X2 : dk_d (dk s1) = dk_d (dk s)) by reflexivity.
  assert (X3 : dk_io (dk s1) = []) by exact Hio.
  unfold data_jump_next. rewrite X1.
  rewrite (data_init_disk_new (nlen (dk_d (dk s))) (dk s1)) by now rewrite X2.
  assert (NL : nlen (dk_d (dk s)) = nlen (fs ++ [l])) by (rewrite (dl_d _ _ _ D); apply nlen_files_bytes).
  split; [|exact X3]. constructor; cbn [dk set_dk set_dt dt dk_d].
  - rewrite X2, NL, (dl_d _ _ _ D). rewrite (files_app (fs ++ [l])). cbn [files_bytes recs_bytes]. rewrite app_nil_r. reflexivity.
  - rewrite dataid_open. exact NL.
  - intros l0 x E. destruct l0; discriminate.
  - apply Forall_app. split; [apply D|]. constructor; [exact I|constructor].
  - apply Forall_app. split; [apply D|]. constructor; [constructor|constructor].
  - apply Forall_app. split; [apply D|]. constructor; [exact I|constructor].
Qed.

(* without write errors the index accepts *)
Lemma append_io s id e : dk_io (dk s) = [] -> exists e' s', index_append s id e = (true, e', s') /\ dk_io (dk s') = [].
Proof.
  intros H. unfold index_append, try_write. rewrite H. do 2 eexists. split; [reflexivity|]. exact H.
Qed.

Lemma delete_disk_io s e : dk_io (dk s) = [] -> dk_io (dk (snd (index_entry_delete_disk s e))) = [].
Proof.
  intros H. unfold index_entry_delete_disk. destruct (ifile _ _); [|exact H]. destruct (_ =? _); [|exact H].
  unfold try_write. rewrite H. exact H.
Qed.

Lemma set_io s id e x : dk_io (dk s) = [] -> exists r s', index_set s id e x = (Some r, s').
Proof.
  intros H. unfold index_set, index_update_entry_memkey, index_update_entry_sequential, index_insert_entry_memkey, index_insert_entry_sequential.
  destruct x as [prev|]; destruct (_ =? _).
  - pose proof (delete_disk_io s prev H) as H1. destruct (index_entry_delete_disk s prev) as [k s1]. cbn [snd] in H1.
    destruct (update_memory_memkey _ _ _ _ _) as [[t1 x1] e1].
    destruct (append_io (set_ix x1 (set_tb t1 s1)) id e1 H1) as (e' & s' & -> & _). eauto.
  - destruct (append_io s id (e_set_flags (N.lor (e_flags prev) INDEX_ENTRY_DELETED) prev) H) as (e' & s' & -> & _).
    destruct (index_seq_overwrite _ _ _) as [k s2]. eauto.
  - destruct (append_io s id (e_set_flags 0 e) H) as (e' & s' & -> & _). destruct (insert_memory_memkey _ _ _ _) as [[t1 x1] e1]. eauto.
  - destruct (append_io s id (e_set_flags 0 e) H) as (e' & s' & -> & _). eauto.
Qed.

Definition entry_named (s : est) (k : bytes) : Prop :=
  forall e, index_get s k = Some e -> e_id e = k /\ (x_mode (ix s) <> MODE_KV -> blen k = 8).

Definition rows_of (fs : list (list row)) (l : list row) : list wrote := map snd (List.concat (fs ++ [l])).

Lemma rows_snoc fs l p w : rows_of fs (l ++ [(p, w)]) = rows_of fs l ++ [w].
Proof. unfold rows_of. rewrite !concat_app. cbn [List.concat]. rewrite !app_nil_r, app_assoc, map_app. reflexivity. Qed.

Lemma rows_jump fs l : rows_of (fs ++ [l]) [] = rows_of fs l.
Proof. unfold rows_of. rewrite (concat_app (fs ++ [l])). cbn [List.concat]. now rewrite !app_nil_r. Qed.

Definition step_log (ws : list wrote) (now : N) (q : req) (out : bytes * est) : Prop :=
  exists fs l, DL (snd out) fs l /\ rows_of fs l = ws ++ written now q (fst out).

Lemma same_log now q s fs l r : DL s fs l -> accepted q r = false -> step_log (rows_of fs l) now q (r, s).
Proof. intros D A. exists fs, l. split; [exact D|]. unfold written. cbn [fst]. now rewrite A, app_nil_r. Qed.

Lemma accepted_bulk k v ts x : accepted (QSet k v ts) (bulk x) = true.
Proof.
  unfold accepted. change (bulk x) with (x24 :: dec (blen x) ++ CRLF ++ x ++ CRLF). cbn iota.
  apply negb_true_iff. pose proof (nil_not_bulk x) as H. cbn [enc_reply] in H.
  apply bseqb_neq. intros E. apply bseqb_neq in H. apply H. symmetry. exact E.
Qed.

Lemma write_log now k v ts s fs l id did ex :
  DL s fs l -> dk_io (dk s) = [] -> blen v <= 8388608 -> blen id < 256 ->
  dsize (dk s) (d_dataid (dt s)) <= 2147483648 ->
  (match k with [] => nfirst 8 (nskip 4 (bulk id)) | _ => k end) = id ->
  step_log (rows_of fs l) now (QSet k v ts)
    (let '(off, s1) := data_insert s (mkDreq v id 0 (zdb_crc32 v) (stamp ts now)) in
     if off =? 0 then (hardsend "-Cannot write data right now", s1)
     else match index_set s1 id (idxreq off (blen v) (zdb_crc32 v) (did s1) (stamp ts now)) ex with
          | (None, s2) => (hardsend "-Cannot write index right now", s2)
          | (Some _, s2) => (bulk id, s2)
          end).
Proof.
  intros D Hio Hv Hid Hsz Hk. set (w := mkWrote id v (stamp ts now) false).
  assert (W : wrote_wf w).
  { repeat split; cbn [w w_key w_value w_ts w_gone]; auto; [apply stamp_lt|discriminate]. }
  destruct (dl_insert s fs l w D Hio W (fun _ => Hsz)) as (off & s1 & E & Ho & _ & _ & Hio1 & D1).
  change (mkDreq v id 0 (zdb_crc32 v) (stamp ts now)) with (w_req w). rewrite E.
  destruct (N.eqb_spec off 0) as [X|_]; [lia|].
  destruct (set_io s1 id (idxreq off (blen v) (zdb_crc32 v) (did s1) (stamp ts now)) ex Hio1) as (r & s2 & E2). rewrite E2.
  exists fs, (l ++ [(d_prev (dt s), w)]). cbn [fst snd]. split; [exact (dl_iop _ _ _ _ D1 (iop_set _ _ _ _ _ _ E2))|].
  rewrite rows_snoc. unfold written. rewrite accepted_bulk.
  assert (HW : forall x, x = id -> rows_of fs l ++ [w] = rows_of fs l ++ [mkWrote x v (stamp ts now) false]) by (intros ? ->; reflexivity).
  apply HW, Hk.
Qed.

Lemma log_set g p now k v ts c s fs l : DL s fs l -> ready s -> g_datasize g <= 2147483648 -> blen v <= 8388608 -> ots_ok ts ->
  entry_named s k -> step_log (rows_of fs l) now (QSet k v ts) (command_set g p now (argv_of (QSet k v ts)) c s).
Proof.
  intros D R Hg Hv Hts EN.
  assert (A : forall i, arg i (argv_of (QSet k v ts)) =
     match i with 0 => str "SET" | 1 => k | 2 => v | 3 => match ts with Some t => dec t | None => [] end | _ => [] end%nat).
  { intros i. destruct ts, i as [|[|[|[|[|i]]]]]; try reflexivity; destruct i; reflexivity. }
  assert (ST : timestamp_from_set (argv_of (QSet k v ts)) 3 now = stamp ts now).
  { rewrite <- (stamp_set k v ts now (str "SET") Hts). destruct ts; reflexivity. }
  assert (SL : forall r, match r with x2d :: _ => True | _ => False end -> step_log (rows_of fs l) now (QSet k v ts) (r, s)).
  { intros r Hr. apply same_log; [exact D|]. destruct r as [|b r]; [easy|]. cbn [accepted]. destruct b; easy. }
  unfold command_set. rewrite !A.
  match goal with |- context [match ?o with Some _ => _ | None => _ end] => assert (OE : forall err, o = Some err -> match err with x2d :: _ => True | _ => False end) end.
  { intros err. unfold admin_authorized, args_validate_null, args_validate, real_args_validate.
    repeat match goal with |- context [if ?b then _ else _] => destruct b end; intros X; inversion X; exact I. }
  match type of OE with forall err, ?o = _ -> _ => destruct o as [err|] end; [apply SL; now apply OE|].
  destruct (MAX_KEY_LENGTH <? blen k) eqn:HK; [apply SL; exact I|].
  destruct (negb (p_writable p)); [apply SL; exact I|].
  destruct (is_frozen c); [apply SL; exact I|]. destruct (is_locked c); [apply SL; exact I|].
  cbn zeta.
  assert (EX : forall e, (if blen k =? 0 then None else index_get s k) = Some e -> e_id e = k /\ (x_mode (ix s) <> MODE_KV -> blen k = 8)).
  { intros e. destruct (blen k =? 0); [discriminate|]. apply EN. }
  assert (EX0 : k = [] -> (if blen k =? 0 then None else index_get s k) = None) by (intros ->; reflexivity).
  generalize dependent (if blen k =? 0 then None else index_get s k). intros ex EX EX0.
  destruct (match ex with Some _ => n_worm c | None => false end); [apply SL; exact I|].
  destruct (negb (n_maxsize c =? 0) && _); [apply SL; exact I|].
  set (s1 := if g_datasize g <? _ then _ else _).
  assert (L1 : exists fs1 l1, DL s1 fs1 l1 /\ dk_io (dk s1) = [] /\ rows_of fs1 l1 = rows_of fs l /\ dsize (dk s1) (d_dataid (dt s1)) <= 2147483648).
  { unfold s1. destruct (N.ltb_spec (g_datasize g) (dsize (dk s) (d_dataid (dt s)) + blen v)) as [J|J].
    - destruct (dl_jump s fs l D R) as [D1 I1]. exists (fs ++ [l]), []. split; [exact D1|]. split; [exact I1|].
      split; [apply rows_jump|]. rewrite (dl_dsize _ _ _ D1). cbn [recs_size]. lia.
    - exists fs, l. split; [exact D|]. split; [apply R|]. split; [reflexivity|]. lia. }
  destruct L1 as (fs1 & l1 & D1 & I1 & E1 & Z1). rewrite <- E1. clearbody s1.
  assert (NI : step_log (rows_of fs1 l1) now (QSet k v ts) (NIL, s1)) by (apply same_log; [exact D1|reflexivity]).
  assert (SL1 : forall r, match r with x2d :: _ => True | _ => False end -> step_log (rows_of fs1 l1) now (QSet k v ts) (r, s1)).
  { intros r Hr. apply same_log; [exact D1|]. destruct r as [|b r]; [easy|]. cbn [accepted]. destruct b; easy. }
  change MAX_KEY_LENGTH with 255 in HK. apply N.ltb_ge in HK.
  destruct (N.eqb_spec (x_mode (ix s)) MODE_KV) as [MK|MK].
  - unfold set_handler_userkey. rewrite !A, ST. cbn zeta. destruct (N.eqb_spec (blen k) 0) as [K0|K0]; [apply SL1; exact I|].
    destruct (unchanged _ _ _); [exact NI|].
    apply (write_log now k v ts s1 fs1 l1 k (fun _ => 0) ex D1 I1 Hv); [lia|exact Z1|]. destruct k; [easy|reflexivity].
  - unfold set_handler_sequential. rewrite !A, ST. destruct ex as [e|].
    + destruct (EX e eq_refl) as [Ee E8]. specialize (E8 MK). rewrite Ee. cbn zeta.
      assert (ID : nfirst 8 k ++ nskip (blen (nfirst 8 k)) (le 8 (x_nextentry (ix s1))) = k).
      { assert (L8 : nlen k = 8) by (rewrite <- E8, nlen_length, blen_length; reflexivity). rewrite nfirst_all by lia. rewrite E8. rewrite nskip_all by (rewrite nlen_length, le_length; lia). apply app_nil_r. }
      rewrite !ID. destruct (unchanged _ _ _); [exact NI|].
      apply (write_log now k v ts s1 fs1 l1 k (fun s => d_dataid (dt s)) (Some e) D1 I1 Hv); [lia|exact Z1|].
      destruct k; [|reflexivity]. specialize (EX0 eq_refl). discriminate.
    + destruct (N.eqb_spec (blen k) 0) as [K0|K0]; cbn [negb]; [|apply SL1; exact I].
      destruct k; [|rewrite blen_length in K0; cbn [List.length] in K0; lia].
      apply (write_log now [] v ts s1 fs1 l1 (le 8 (x_nextentry (ix s1))) (fun s => d_dataid (dt s)) None D1 I1 Hv); [rewrite blen_le; lia|exact Z1|].
      reflexivity.
Qed.

Lemma log_del p now k ts c s fs l : DL s fs l -> dk_io (dk s) = [] -> ots_ok ts -> entry_named s k ->
  fst (command_del p now (argv_of (QDel k ts)) c s) <> hardsend "-Cannot delete key (index)" ->
  step_log (rows_of fs l) now (QDel k ts) (command_del p now (argv_of (QDel k ts)) c s).
Proof.
  intros D Hio Hts EN NE.
  assert (A : arg 1 (argv_of (QDel k ts)) = k) by (destruct ts; reflexivity).
  assert (ST : timestamp_from_set (argv_of (QDel k ts)) 2 now = stamp ts now).
  { unfold timestamp_from_set, stamp, argc. destruct ts as [t|]; cbn [argv_of nlen]; [|reflexivity].
    change (N.succ (N.succ (N.succ 0)) =? N.of_nat 2) with false. cbn iota.
    unfold arg. cbn [nth]. cbn [ots_ok] in Hts. rewrite atoll_dec by exact Hts. apply z_u32_of_N. }
  assert (SL : forall r, match r with x2d :: _ => True | _ => False end -> step_log (rows_of fs l) now (QDel k ts) (r, s)).
  { intros r Hr. apply same_log; [exact D|]. destruct r as [|b r]; [easy|]. destruct b; easy. }
  unfold command_del in *. rewrite !A in *.
  match goal with |- context [match ?o with Some _ => _ | None => _ end] => assert (OE : forall err, o = Some err -> match err with x2d :: _ => True | _ => False end) end.
  { intros err. unfold admin_authorized, args_validate, real_args_validate.
    repeat match goal with |- context [if ?b then _ else _] => destruct b end; intros X; inversion X; exact I. }
  match type of OE with forall err, ?o = _ -> _ => destruct o as [err|] end; [apply SL; now apply OE|].
  destruct (MAX_KEY_LENGTH <? blen k) eqn:HK; [apply SL; exact I|].
  destruct (negb (p_writable p)); [apply SL; exact I|].
  destruct (is_frozen c); [apply SL; exact I|]. destruct (is_locked c); [apply SL; exact I|].
  destruct (index_get s k) as [e|] eqn:G; [|apply SL; exact I].
  destruct (n_worm c); [apply SL; exact I|]. cbn zeta in *. rewrite ST in *.
  destruct (EN e G) as [Ee _]. rewrite Ee in *.
  set (w := mkWrote k [] (stamp ts now) true).
  change MAX_KEY_LENGTH with 255 in HK. apply N.ltb_ge in HK.
  assert (W : wrote_wf w).
  { split; [cbn [w w_key]; lia|]. split; [change (0 <= 8388608); lia|]. split; [apply stamp_lt|reflexivity]. }
  destruct (dl_insert s fs l w D Hio W ltac:(discriminate)) as (off & s1 & E & Ho & _ & _ & Hio1 & D1).
  unfold data_delete in *. change (mkDreq [] k DATA_ENTRY_DELETED 0 (stamp ts now)) with (w_req w) in *. rewrite E in *.
  destruct (N.eqb_spec off 0) as [X|_]; [lia|]. cbn [negb] in *.
  destruct (index_entry_delete s1 e) as [ok s2] eqn:E2.
  destruct ok; [|now destruct NE].
  exists fs, (l ++ [(d_prev (dt s), w)]). cbn [fst snd]. split; [exact (dl_iop _ _ _ _ D1 (iop_delete _ _ _ _ E2))|].
  rewrite rows_snoc. reflexivity.
Qed.

Definition key_of (q : req) : bytes := match q with QSet k _ _ | QDel k _ => k | _ => [] end.

Lemma log_req g p now q c s fs l : DL s fs l -> ready s -> g_datasize g <= 2147483648 -> req_wf q ->
  entry_named s (key_of q) ->
  (match q with QDel _ _ => fst (run_req g p now q c s) <> hardsend "-Cannot delete key (index)" | _ => True end) ->
  step_log (rows_of fs l) now q (run_req g p now q c s).
Proof.
  intros D R Hg Wq EN NE. destruct q as [k v ts|k ts|k|ks|k|k|k|k| |]; cbn [run_req req_wf key_of] in *;
    try (apply same_log; [exact D|reflexivity]).
  - destruct Wq. now apply log_set.
  - apply log_del; auto. apply R.
  - unfold command_nsjump. destruct (admin_authorized p); [apply same_log; [exact D|reflexivity]|].
    destruct (dl_jump s fs l D R) as [D1 _]. exists (fs ++ [l]), []. split; [exact D1|].
    rewrite rows_jump. cbn [written accepted]. now rewrite app_nil_r.
Qed.

(* reopening *)
Lemma find_last_recs rows : Forall (fun x : row => wrote_wf (snd x)) rows -> forall fuel pre prev, (length rows < fuel)%nat ->
  data_find_last fuel (pre ++ recs_bytes rows) (blen pre) prev =
  match rows with [] => prev | _ => blen pre + recs_size (removelast rows) end.
Proof.
  induction 1 as [|[p w] rows W H IH]; intros fuel pre prev Hf; destruct fuel as [|fuel]; try (cbn in Hf; lia).
  - cbn [data_find_last recs_bytes]. unfold fread. rewrite app_nil_r, nskip_all by (rewrite nlen_length, blen_length; lia). reflexivity.
  - cbn [data_find_last recs_bytes]. cbn [snd] in W. rewrite rec_enc, <- !app_assoc.
    pose proof (w_drec_wf p w W) as WD.
    rewrite fread_blen, !blen_app, blen_enc_drec.
    replace (N.min 18 _) with 18 by lia. change (18 =? 18) with true. cbn iota.
    rewrite (dr_of_stored pre (w_drec p w) (w_value w) (recs_bytes rows) WD).
    cbn [dr_idlen dr_datalen w_drec]. destruct W as (W1 & W2 & _).
    rewrite u32_small by lia.
    rewrite !app_assoc. rewrite <- (app_assoc pre), <- rec_enc.
    replace (blen pre + 18 + (blen (w_value w) + blen (w_key w))) with (blen (pre ++ rec_bytes p w))
      by (rewrite blen_app, blen_rec; unfold rec_size; lia).
    rewrite IH by (cbn [length] in Hf; lia).
    destruct rows as [|r rows]; [cbn [removelast recs_size]; lia|].
    change (removelast ((p, w) :: r :: rows)) with ((p, w) :: removelast (r :: rows)).
    cbn [recs_size]. rewrite blen_app, blen_rec. lia.
Qed.

Lemma length_recs l : (length l <= length (recs_bytes l))%nat.
Proof.
  induction l as [|[p w] l IH]; cbn [length recs_bytes]; [lia|]. rewrite app_length.
  pose proof (blen_rec p w) as B. rewrite blen_length in B. unfold rec_size in B. lia.
Qed.

Lemma open_dt smode ns t d s : store_open smode ns t d = Some s -> dt s = data_open_final (d_dataid (dt s)) 0 (dk s).
Proof.
  unfold store_open. cbn zeta. intros E. destruct (index_internal_load _ _); try discriminate;
    injection E as <-; unfold data_init; cbn [dt set_dt dk set_dk]; now rewrite dataid_open.
Qed.

Lemma dl_open g s s' fs l : DL s fs l -> reopen g s = Some s' -> dk_d (dk s') = dk_d (dk s) -> d_dataid (dt s') = d_dataid (dt s) ->
  DL s' fs l.
Proof.
  intros D E Hd Hi. constructor; try apply D.
  - rewrite Hd. apply D.
  - rewrite Hi. apply D.
  - intros l0 x El. rewrite (open_dt _ _ _ _ _ E). unfold data_open_final, dfile. rewrite Hd, Hi, (dl_file _ _ _ D).
    cbn [d_prev]. rewrite <- (blen_data_header (nlen fs)).
    rewrite find_last_recs.
    + rewrite El, removelast_last. destruct l0; reflexivity.
    + exact (forall_last _ _ _ (dl_wf _ _ _ D)).
    + rewrite app_length. pose proof (length_recs l). assert (B : length (data_header (nlen fs)) = 28%nat) by reflexivity. unfold bytes, row in *. lia.
Qed.

Lemma dl_fresh s : dk_d (dk s) = [data_header 0] -> d_dataid (dt s) = 0 -> DL s [] [].
Proof.
  intros H1 H2. constructor; cbn [app files_bytes recs_bytes].
  - now rewrite app_nil_r, header_eq.
  - exact H2.
  - intros l0 x E. destruct l0; discriminate.
  - constructor; [exact I|constructor].
  - constructor; [constructor|constructor].
  - constructor; [exact I|constructor].
Qed.

(* ---- user-key mode ---- *)

Lemma uinv_ready n s gi H : UInv n s gi H -> files_lt s -> ready s.
Proof.
  intros U F. split; [apply U|]. pose proof (ui_id _ _ _ _ U). pose proof (ui_dn _ _ _ _ U).
  pose proof (nlen_files _ _ _ _ U). unfold files_lt in F. split; lia.
Qed.

Lemma kv_del_msg p c m k ts : enc_reply (fst (kv_del p c m k ts)) <> hardsend "-Cannot delete key (index)".
Proof.
  unfold kv_del.
  repeat match goal with |- context [match ?x with _ => _ end] => destruct x end; cbn [fst]; vm_compute; discriminate.
Qed.

Lemma fresh_kv g n s0 : settings_ok g -> created g n s0 -> DL s0 [] [].
Proof.
  intros [[Hm|Hm] _] (t & _ & O); rewrite Hm in O; vm_compute in O; injection O as <-; apply dl_fresh; reflexivity.
Qed.

Lemma uinv_named n s gi H k : UInv n s gi H -> entry_named s k.
Proof.
  intros U e G. pose proof (lookup_spec n s gi H k U) as L. rewrite G in L.
  destruct L as (x & v & _ & _ & L1 & -> & _). split; [exact L1|]. rewrite (ui_mode _ _ _ _ U). congruence.
Qed.

Lemma log_run g n es : settings_ok g -> Forall event_wf es -> forall c s gi H fs l, UInv n s gi H -> files_fit g es (c, s) -> DL s fs l ->
  forall o c' s', run_events g es (c, s) = Some (o, (c', s')) ->
  exists fs' l', DL s' fs' l' /\ rows_of fs' l' = rows_of fs l ++ written_by es o.
Proof.
  intros Hg. induction es as [|e es IH]; intros Wes c s gi H fs l U FF D o c' s' R.
  - cbn [run_events] in R. injection R as <- <- <-. exists fs, l. split; [exact D|]. cbn [written_by]. now rewrite app_nil_r.
  - inversion Wes as [|e0 es0 We Wes' Eq]; subst. pose proof (files_fit_now _ _ _ _ FF) as FL.
    destruct (event_ok g n e c s gi H Hg We U FL) as (o1 & c1 & s1 & gi1 & H1 & X1 & E1 & E2 & _ & _ & _ & _ & E7 & _).
    cbn [run_events] in R. rewrite E1 in R. destruct (run_events g es (c1, s1)) as [[o2 [c2 s2]]|] eqn:R2; [|discriminate].
    injection R as <- <- <-.
    assert (SD : exists fs1 l1, DL s1 fs1 l1 /\ rows_of fs1 l1 ++ written_by es o2 = rows_of fs l ++ written_by (e :: es) (o1 ++ o2)).
    { destruct e as [p now q|c9|]; cbn [run_event] in E1.
      - destruct (run_req g p now q c s) as [r s9] eqn:RQ. injection E1 as <- <- <-.
        cbn [event_wf] in We. destruct (log_req g p now q c s fs l D (uinv_ready _ _ _ _ U FL) (proj2 Hg) We (uinv_named _ _ _ _ _ U)) as (fs1 & l1 & D1 & F1).
        + rewrite RQ. cbn [fst]. cbn [kv_event] in E7. destruct q as [| k ts | | | | | | | | ]; try exact I.
          pose proof (kv_del_msg p c (livem (flat 0 gi) H) k ts) as M. cbn [kv_step] in E7.
          destruct (kv_del p c (livem (flat 0 gi) H) k ts) as [r' m']. cbn [fst map] in *. injection E7 as ->. exact M.
        + rewrite RQ in D1, F1. cbn [fst snd] in *. exists fs1, l1. split; [exact D1|]. rewrite F1. cbn [app written_by]. now rewrite app_assoc.
      - injection E1 as <- <- <-. exists fs, l. auto.
      - destruct (reopen_ok g n s gi H Hg U) as (s9 & R1 & U9 & _ & R4 & _). rewrite R1 in E1. injection E1 as <- <- <-.
        exists fs, l. split; [|reflexivity]. apply (dl_open g s); auto.
        pose proof (ui_did _ _ _ _ U). pose proof (ui_did _ _ _ _ U9). pose proof (ui_id _ _ _ _ U). pose proof (ui_id _ _ _ _ U9). lia. }
    destruct SD as (fs1 & l1 & D1 & F1).
    destruct (IH Wes' c1 s1 gi1 H1 fs1 l1 E2 (files_fit_step _ _ _ _ _ _ FF E1) D1 _ _ _ R2) as (fs2 & l2 & D2 & F2).
    exists fs2, l2. split; [exact D2|]. now rewrite F2.
Qed.

Lemma log_reached g n c0 es o c s : reached g n c0 es o c s ->
  exists gi H fs l, UInv n s gi H /\ livem (flat 0 gi) H = kv_of c0 es /\ files_lt s /\ DL s fs l /\ rows_of fs l = written_by es o.
Proof.
  intros R. destruct (reached_inv _ _ _ _ _ _ _ R) as (_ & _ & gi & H & U & LM & FL).
  destruct R as (Hg & W & s0 & C & FF & R).
  destruct (log_run g n es Hg W c0 s0 [[]] [] [] [] (created_inv _ _ _ Hg C) FF (fresh_kv _ _ _ Hg C) _ _ _ R) as (fs & l & D & E).
  exists gi, H, fs, l. repeat (split; [assumption|]). exact E.
Qed.

(* ---- sequential mode ---- *)

Lemma fresh_sq n s0 : sq_created n s0 -> DL s0 [] [].
Proof. intros (t & _ & O). vm_compute in O. injection O as <-. apply dl_fresh; reflexivity. Qed.

Lemma sinv_ready n s m gi H : SInv n s m gi H -> files_lt s -> ready s.
Proof.
  intros U F. split; [apply U|]. pose proof (si_id _ _ _ _ _ U). pose proof (si_dn _ _ _ _ _ U).
  pose proof (nlen_sfiles _ _ _ _ _ U). unfold files_lt in F. split; lia.
Qed.

Lemma sinv_named n s m gi H k : SInv n s m gi H -> key_asked (tot gi) k -> entry_named s k.
Proof.
  intros U A e G. pose proof (seq_lookup n s m gi H k U A) as L. rewrite G in L.
  destruct L as (g1 & l1 & l2 & g2 & x & v & _ & _ & _ & Lk & _ & _ & L1 & -> & _). split; [exact L1|].
  intros _. rewrite Lk. reflexivity.
Qed.

Lemma slog_run g n es : sq_settings g -> forall c s gi H fs l, SA n s gi H -> calm g (plain es) (c, s) -> DL s fs l ->
  forall o c' s', run_cevents g (plain es) (c, s) = Some (o, (c', s')) ->
  exists fs' l', DL s' fs' l' /\ rows_of fs' l' = rows_of fs l ++ written_by es o.
Proof.
  intros Hg. induction es as [|e es IH]; intros c s gi H fs l U CM D o c' s' R.
  - cbn [run_cevents plain map] in R. injection R as <- <- <-. exists fs, l. split; [exact D|]. cbn [written_by]. now rewrite app_nil_r.
  - cbn [plain map calm fst snd] in CM. destruct CM as [C1 C2].
    destruct (event_sok g n e c s gi H Hg U C1) as (o1 & c1 & s1 & gi1 & H1 & E1 & E2 & _ & _ & E7 & _).
    cbn [plain map run_cevents run_cevent] in R. rewrite E1 in R.
    destruct (run_cevents g (map CEv es) (c1, s1)) as [[o2 [c2 s2]]|] eqn:R2; [|discriminate].
    injection R as <- <- <-.
    assert (SD : exists fs1 l1, DL s1 fs1 l1 /\ rows_of fs1 l1 ++ written_by es o2 = rows_of fs l ++ written_by (e :: es) (o1 ++ o2)).
    { destruct U as (m & U & An). destruct e as [p now q|c9|]; cbn [run_event] in E1.
      - destruct (run_req g p now q c s) as [r s9] eqn:RQ. injection E1 as <- <- <-.
        cbn [ev_calm] in C1. destruct C1 as (Wq & Ha & FL & Ad). rewrite (si_next _ _ _ _ _ U) in Ha.
        assert (EN : entry_named s (key_of q)).
        { assert (N0 : entry_named s []).
          { apply (sinv_named n s m gi H); [exact U|]. intros X. vm_compute in X. discriminate. }
          destruct q; cbn [key_of]; try exact N0; apply (sinv_named n s m gi H _ U); exact (Forall_inv Ha). }
        destruct (log_req g p now q c s fs l D (sinv_ready _ _ _ _ _ U FL) (proj2 Hg) Wq EN) as (fs1 & l1 & D1 & F1).
        + rewrite RQ. cbn [fst]. cbn [sq_event] in E7. destruct q as [| k ts | | | | | | | | ]; try exact I.
          pose proof (kv_del_msg p c (sq_map (sq_of gi H)) k ts) as M. cbn [sq_step] in E7.
          destruct (kv_del p c (sq_map (sq_of gi H)) k ts) as [r' m']. cbn [fst map] in *. injection E7 as ->. exact M.
        + rewrite RQ in D1, F1. cbn [fst snd] in *. exists fs1, l1. split; [exact D1|]. rewrite F1. cbn [app written_by]. now rewrite app_assoc.
      - injection E1 as <- <- <-. exists fs, l. auto.
      - destruct (sreopen_ok g n s m gi H Hg U) as (s9 & R1 & U9 & _ & R4 & _). rewrite R1 in E1. injection E1 as <- <- <-.
        exists fs, l. split; [|reflexivity]. apply (dl_open g s); auto.
        pose proof (si_did _ _ _ _ _ U). pose proof (si_did _ _ _ _ _ U9). pose proof (si_id _ _ _ _ _ U). pose proof (si_id _ _ _ _ _ U9). lia. }
    destruct SD as (fs1 & l1 & D1 & F1).
    destruct (IH c1 s1 gi1 H1 fs1 l1 E2 (C2 _ _ E1) D1 _ _ _ R2) as (fs2 & l2 & D2 & F2).
    exists fs2, l2. split; [exact D2|]. now rewrite F2.
Qed.

Lemma slog_reached g n c0 es o c s : sreached g n c0 (plain es) o c s ->
  exists fs l, DL s fs l /\ rows_of fs l = written_by es o.
Proof.
  intros (Hg & s0 & C & K & R). 
  exact (slog_run g n es Hg c0 s0 _ _ [] [] (screated_inv _ _ C) K (fresh_sq _ _ C) _ _ _ R).
Qed.

Lemma dl_log s fs l : DL s fs l -> log_of (dk_d (dk s)) (fs ++ [l]) (rows_of fs l).
Proof. intros D. split; [apply D|]. split; [reflexivity|apply D]. Qed.

Lemma kv_log g n c0 es o c s : reached g n c0 es o c s ->
  exists files, log_of (dk_d (dk s)) files (written_by es o).
Proof. intros R. destruct (log_reached _ _ _ _ _ _ _ R) as (_ & _ & fs & l & _ & _ & _ & D & <-). eexists. now apply dl_log. Qed.

Lemma sq_log g n c0 es o c s : sreached g n c0 (plain es) o c s ->
  exists files, log_of (dk_d (dk s)) files (written_by es o).
Proof. intros R. destruct (slog_reached _ _ _ _ _ _ _ R) as (fs & l & D & <-). eexists. now apply dl_log. Qed.
