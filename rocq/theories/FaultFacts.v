(* Failing writes to data files: the request is refused and nothing changes. *)
From Coq Require Import Strings.String Strings.Byte List NArith ZArith Bool Lia ZifyBool ZifyN ZifyNat.
From Verif Require Import Bytes BytesFacts Crc32 Layout LayoutFacts Store Text TextFacts Commands SpecKV SpecFiles Machine Reach SpecFaults
  Ghost DataFacts TableFacts CheckFacts UserInv UserSteps UserLoad UserReq UserRun KvFacts DataLog.
Import ListNotations.
Open Scope N_scope.
Local Notation length := List.length.

Notation wio := with_outcomes.

Lemma dsize_wio io s f : dsize (dk (wio io s)) f = dsize (dk s) f.
Proof. reflexivity. Qed.

Lemma index_get_wio io s k : index_get (wio io s) k = index_get s k.
Proof. reflexivity. Qed.

Lemma jump_wio io s : jump_next (wio io s) = wio io (jump_next s).
Proof. reflexivity. Qed.

Lemma unchanged_wio io s ex v : unchanged (dk (wio io s)) ex v = unchanged (dk s) ex v.
Proof. reflexivity. Qed.

(* the state left by a failed write *)
Definition spilt (s : est) (x : bytes) (file : bytes) (L : list dwrite) (io : list wout) : est :=
  mkEst (tb s) (ix s) (dt s) (mkDisk (dk_i (dk s)) (nset (d_dataid (dt s)) (file ++ x) (dk_d (dk s))) L io).

Lemma insert_fault s q io file : data_fault io -> nget (d_dataid (dt s)) (dk_d (dk s)) = Some file ->
  exists x L io', data_insert (wio io s) q = (0, spilt s x file L io').
Proof.
  intros F Hf. unfold data_insert. cbn [wio with_outcomes dt dk].
  assert (S0 : dsize (dk (wio io s)) (d_dataid (dt s)) = blen file) by (unfold dsize, dfile; cbn [wio with_outcomes dk dk_d]; now rewrite Hf).
  cbn [wio with_outcomes dt dk] in S0. rewrite S0. set (h := enc_drec _).
  destruct io as [|[|n] io]; [contradiction| |].
  - destruct io as [|[|n] io]; try contradiction.
    unfold try_write at 1. cbn [dk_io]. set (d1 := do_write _ _).
    assert (D1 : d1 = mkDisk (dk_i (dk s)) (nset (d_dataid (dt s)) (file ++ h) (dk_d (dk s))) (dk_log (dk s) ++ [WrD (d_dataid (dt s)) (blen file) h]) (WFail n :: io)).
    { unfold d1, do_write. cbn [apply_write dk_i dk_d dk_log dk_io fst snd]. now rewrite (wrfile_end _ file) by exact Hf. }
    rewrite D1. clear d1 D1.
    assert (L : d_dataid (dt s) < nlen (dk_d (dk s))) by now apply nget_lt in Hf.
    assert (S1 : dsize (mkDisk (dk_i (dk s)) (nset (d_dataid (dt s)) (file ++ h) (dk_d (dk s))) (dk_log (dk s) ++ [WrD (d_dataid (dt s)) (blen file) h]) (WFail n :: io)) (d_dataid (dt s)) = blen (file ++ h)).
    { unfold dsize, dfile. cbn [dk_d]. now rewrite nget_nset_same by exact L. }
    rewrite S1. unfold try_write, do_write. cbn [dk_io cut_write apply_write dk_i dk_d dk_log fst snd].
    rewrite (wrfile_end _ (file ++ h)) by now apply nget_nset_same. rewrite nset_nset, <- app_assoc.
    do 3 eexists. reflexivity.
  - unfold try_write, do_write. cbn [dk_io cut_write apply_write dk_i dk_d dk_log fst snd].
    rewrite (wrfile_end _ file) by exact Hf. do 3 eexists. reflexivity.
Qed.

(* replies which are refusals: nil or an error *)
Definition no_write (r : bytes) : Prop := r = NIL \/ exists t, r = x2d :: t.

Definition fault_step (s : est) (io : list wout) (err : bytes) (r rf : bytes * est) (good : bytes -> Prop) : Prop :=
  exists s1, (s1 = s \/ s1 = jump_next s) /\
   ((rf = (fst r, wio io s1) /\ snd r = s1 /\ no_write (fst r)) \/
    (fst rf = err /\ good (fst r) /\ (exists x file L io', nget (d_dataid (dt s1)) (dk_d (dk s1)) = Some file /\
       snd rf = spilt s1 x file L io'))).

Lemma fs_same s io err r t good : no_write r -> t = s -> fault_step s io err (r, t) (r, wio io s) good.
Proof. intros H ->. exists s. split; [now left|]. left. auto. Qed.

Ltac nw_err := solve [right; eexists; reflexivity | left; reflexivity].

Definition has_cur (s : est) : Prop := exists file, nget (d_dataid (dt s)) (dk_d (dk s)) = Some file /\ 0 < blen file.

Lemma set_fault g p now argv c s io : data_fault io -> dk_io (dk s) = [] -> has_cur s -> has_cur (jump_next s) ->
  fault_step s io (hardsend "-Cannot write data right now") (command_set g p now argv c s) (command_set g p now argv c (wio io s))
    (fun r => exists id, r = bulk id).
Proof.
  intros F Hio C0 C1. unfold command_set.
  assert (AA : match (if argc argv =? 4 then admin_authorized p else args_validate_null argv 3) with Some e => no_write e | None => True end).
  { unfold args_validate_null, real_args_validate, admin_authorized.
    destruct (argc argv =? 4); [destruct (p_admin p); [exact I|nw_err]|].
    repeat match goal with |- context [if ?b then _ else _] => destruct b end; try exact I; nw_err. }
  destruct (if argc argv =? 4 then _ else _) as [e|]; [now apply fs_same|]. clear AA.
  destruct (MAX_KEY_LENGTH <? _); [apply fs_same; [nw_err|reflexivity]|].
  destruct (negb (p_writable p)); [apply fs_same; [nw_err|reflexivity]|].
  destruct (is_frozen c); [apply fs_same; [nw_err|reflexivity]|].
  destruct (is_locked c); [apply fs_same; [nw_err|reflexivity]|].
  rewrite index_get_wio. set (ex := if blen (arg 1 argv) =? 0 then None else _). cbn zeta.
  change (ix (wio io s)) with (ix s).
  destruct (match ex with Some _ => n_worm c | None => false end); [apply fs_same; [nw_err|reflexivity]|].
  destruct (negb _ && _); [apply fs_same; [nw_err|reflexivity]|].
  rewrite dsize_wio, jump_wio. change (dt (wio io s)) with (dt s).
  set (s1 := if g_datasize g <? _ then jump_next s else s).
  replace (if g_datasize g <? dsize (dk s) (d_dataid (dt s)) + blen (arg 2 argv) then wio io (jump_next s) else wio io s)
    with (wio io s1) by (unfold s1; destruct (_ <? _); reflexivity).
  assert (E1 : s1 = s \/ s1 = jump_next s) by (unfold s1; destruct (_ <? _); auto).
  assert (H1 : has_cur s1) by (unfold s1; destruct (_ <? _); auto).
  assert (I1 : dk_io (dk s1) = []) by (unfold s1; destruct (_ <? _); exact Hio).
  clearbody s1. destruct H1 as (file & Hf & Hl).
  assert (NW : forall r, no_write r -> fault_step s io (hardsend "-Cannot write data right now") (r, s1) (r, wio io s1) (fun r => exists id, r = bulk id)).
  { intros r Hr. exists s1. split; [exact E1|]. left. auto. }
  assert (WR : forall q mk,
    fault_step s io (hardsend "-Cannot write data right now")
      (let '(off, s2) := data_insert s1 q in if off =? 0 then (hardsend "-Cannot write data right now", s2)
        else match index_set s2 (q_id q) (mk off s2) ex with (None, s3) => (hardsend "-Cannot write index right now", s3) | (Some _, s3) => (bulk (q_id q), s3) end)
      (let '(off, s2) := data_insert (wio io s1) q in if off =? 0 then (hardsend "-Cannot write data right now", s2)
        else match index_set s2 (q_id q) (mk off s2) ex with (None, s3) => (hardsend "-Cannot write index right now", s3) | (Some _, s3) => (bulk (q_id q), s3) end)
      (fun r => exists id, r = bulk id)).
  { intros q mk. destruct (insert_fault s1 q io file F Hf) as (x & L & io' & ->).
    rewrite (data_insert_ok s1 q file I1 Hf). destruct (N.eqb_spec (blen file) 0) as [X|_]; [lia|].
    change (0 =? 0) with true. cbn iota. exists s1. split; [exact E1|]. right. split; [reflexivity|].
    set (s2 := mkEst _ _ _ (ins_disk _ _ _)).
    destruct (set_io s2 (q_id q) (mk (blen file) s2) ex) as (r & s3 & ->); [reflexivity|].
    split; [eexists; reflexivity|]. exists x, file, L, io'. auto. }
  destruct (x_mode (ix s) =? MODE_KV).
  - unfold set_handler_userkey. rewrite unchanged_wio. destruct (blen (arg 1 argv) =? 0); [apply NW; nw_err|].
    destruct (unchanged _ _ _); [apply NW; left; reflexivity|].
    apply (WR (mkDreq (arg 2 argv) (arg 1 argv) 0 (zdb_crc32 (arg 2 argv)) (timestamp_from_set argv 3 now))
      (fun off s2 => idxreq off (blen (arg 2 argv)) (zdb_crc32 (arg 2 argv)) 0 (timestamp_from_set argv 3 now))).
  - unfold set_handler_sequential. rewrite unchanged_wio. change (ix (wio io s1)) with (ix s1). destruct ex as [x|].
    + destruct (unchanged _ _ _); [apply NW; left; reflexivity|]. cbn zeta. set (id := nfirst 8 (e_id x) ++ _).
      apply (WR (mkDreq (arg 2 argv) id 0 (zdb_crc32 (arg 2 argv)) (timestamp_from_set argv 3 now))
        (fun off s2 => idxreq off (blen (arg 2 argv)) (zdb_crc32 (arg 2 argv)) (d_dataid (dt s2)) (timestamp_from_set argv 3 now))).
    + destruct (negb _); [apply NW; nw_err|]. cbn zeta.
      apply (WR (mkDreq (arg 2 argv) (le 8 (x_nextentry (ix s1))) 0 (zdb_crc32 (arg 2 argv)) (timestamp_from_set argv 3 now))
        (fun off s2 => idxreq off (blen (arg 2 argv)) (zdb_crc32 (arg 2 argv)) (d_dataid (dt s2)) (timestamp_from_set argv 3 now))).
Qed.

Lemma del_fault p now argv c s io : data_fault io -> dk_io (dk s) = [] -> has_cur s ->
  fault_step s io (hardsend "-Cannot delete key (data)") (command_del p now argv c s) (command_del p now argv c (wio io s))
    (fun r => r = hardsend "+OK" \/ r = hardsend "-Cannot delete key (index)").
Proof.
  intros F Hio (file & Hf & Hl). unfold command_del.
  assert (AA : match (if argc argv =? 3 then admin_authorized p else args_validate argv 2) with Some e => no_write e | None => True end).
  { unfold args_validate, real_args_validate, admin_authorized.
    destruct (argc argv =? 3); [destruct (p_admin p); [exact I|nw_err]|].
    repeat match goal with |- context [if ?b then _ else _] => destruct b end; try exact I; nw_err. }
  destruct (if argc argv =? 3 then _ else _) as [e|]; [now apply fs_same|]. clear AA.
  destruct (MAX_KEY_LENGTH <? _); [apply fs_same; [nw_err|reflexivity]|].
  destruct (negb (p_writable p)); [apply fs_same; [nw_err|reflexivity]|].
  destruct (is_frozen c); [apply fs_same; [nw_err|reflexivity]|].
  destruct (is_locked c); [apply fs_same; [nw_err|reflexivity]|].
  rewrite index_get_wio. destruct (index_get s (arg 1 argv)) as [e|]; [|apply fs_same; [nw_err|reflexivity]].
  destruct (n_worm c); [apply fs_same; [nw_err|reflexivity]|].
  cbn zeta. unfold data_delete. set (q := mkDreq _ _ _ _ _).
  destruct (insert_fault s q io file F Hf) as (x & L & io' & ->).
  rewrite (data_insert_ok s q file Hio Hf). destruct (N.eqb_spec (blen file) 0) as [X|_]; [lia|].
  change (0 =? 0) with true. cbn [negb]. exists s. split; [now left|]. right. split; [reflexivity|].
  destruct (index_entry_delete _ e) as [[] s2]; (split; [cbn [fst]; auto|]); exists x, file, L, io'; auto.
Qed.

Lemma wio_nil io s : dk_io (dk s) = [] -> wio [] (wio io s) = s.
Proof. destruct s as [t x d [a b l i]]. unfold with_outcomes. cbn. intros ->. reflexivity. Qed.

Lemma uinv_spilt n s gi H x file L io : UInv n s gi H -> nget (d_dataid (dt s)) (dk_d (dk s)) = Some file ->
  UInv n (wio [] (spilt s x file L io)) gi H /\ dext (dk_d (dk s)) (dk_d (dk (spilt s x file L io))).
Proof.
  intros U Hf. pose proof (dext_nset (dk_d (dk s)) (d_dataid (dt s)) file x Hf) as E. split; [|exact E].
  destruct U as [U1 U2 U3 U4 U5 U6 U7 U8 U9 U10 U11 U12 U13 U14 U15].
  constructor; cbn [with_outcomes spilt tb ix dt dk dk_i dk_d dk_log dk_io d_dataid]; auto.
  - eapply finv_dext; [exact U1|exact E].
  - now rewrite nlen_nset.
  - eapply dhdr_ok_ext; [exact U9|exact E|]. now rewrite nlen_nset.
Qed.

Lemma uinv_has_cur n s gi H : UInv n s gi H -> has_cur s.
Proof. intros U. destruct (uinv_cur _ _ _ _ U) as (f & A & B). exists f. split; [exact A|lia]. Qed.

Lemma nw_bulk v : ~ no_write (bulk v).
Proof.
  intros [E|(t & E)]; [|discriminate]. pose proof (nil_not_bulk v) as Y.
  change (enc_reply RNil) with NIL in Y. rewrite E, bseqb_refl in Y. discriminate.
Qed.

Lemma nw_ok : ~ no_write (hardsend "+OK").
Proof. intros [E|(t & E)]; vm_compute in E; discriminate. Qed.

(* the map machine only answers a bulk, nil or an error to SET, and so on *)
Lemma set_shape p now c m k v ts :
  (exists b, fst (kv_set p now c m k v ts) = RBulk b) \/
  (no_write (enc_reply (fst (kv_set p now c m k v ts))) /\ snd (kv_set p now c m k v ts) = m /\
   spoiled (QSet k v ts) (fst (kv_set p now c m k v ts)) = None).
Proof.
  unfold kv_set. destruct ts as [t|]; [destruct (p_admin p)|];
  repeat match goal with
  | |- context [if ?b then _ else _] => destruct b
  | |- context [match kget k m with _ => _ end] => destruct (kget k m) as [[? ?]|]
  end; cbn [fst snd]; first [left; eexists; reflexivity | right; split; [nw_err|split; reflexivity]].
Qed.

Lemma del_shape p c m k ts :
  fst (kv_del p c m k ts) = ROk \/
  (no_write (enc_reply (fst (kv_del p c m k ts))) /\ enc_reply (fst (kv_del p c m k ts)) <> hardsend "-Cannot delete key (index)" /\
   snd (kv_del p c m k ts) = m /\ spoiled (QDel k ts) (fst (kv_del p c m k ts)) = None).
Proof.
  unfold kv_del. destruct ts as [t|]; [destruct (p_admin p)|]; destruct (blen k);
  repeat match goal with
  | |- context [if ?b then _ else _] => destruct b
  | |- context [match kget k m with _ => _ end] => destruct (kget k m) as [[? ?]|]
  end; cbn [fst snd]; first [left; reflexivity | right; split; [nw_err|split; [vm_compute; discriminate|split; reflexivity]]].
Qed.

Definition fout (r : bytes * est) : bytes * est := (fst r, wio [] (snd r)).

Lemma fault_req_ok g n s gi H p now q c io :
  UInv n s gi H -> g_ok g -> req_wf q -> files_lt s -> data_fault io ->
  let rf := run_req g p now q c (wio io s) in
  exists gi' H', UInv n (wio [] (snd rf)) gi' H' /\
    kv_fevent (FBad io p now q) (c, livem (flat 0 gi) H) =
      (fst (kv_fevent (FBad io p now q) (c, livem (flat 0 gi) H)), (c, livem (flat 0 gi') H')) /\
    [fst rf] = map enc_reply (fst (kv_fevent (FBad io p now q) (c, livem (flat 0 gi) H))) /\
    nlen gi' <= nlen gi + 1.
Proof.
  intros U Hg Wq Hfl F rf. set (m := livem (flat 0 gi) H).
  pose proof (req_ok g n s gi H p now q c U Hg Wq Hfl) as (R1 & _ & gi' & H' & X & R2 & R3 & R4 & R5 & R6 & _ & _ & R8). fold m in R1, R4.
  cbn [kv_fevent fst snd].
  assert (Jg : nlen gi < 4294967296) by (unfold files_lt in Hfl; rewrite (nlen_files _ _ _ _ U) in Hfl; exact Hfl).
  destruct (uinv_jump n s gi H U Jg) as (J1 & _).
  assert (S1 : forall s1, s1 = s \/ s1 = jump_next s -> exists gi1, UInv n s1 gi1 H /\ flat 0 gi1 = flat 0 gi /\ nlen gi1 <= nlen gi + 1).
  { intros s1 [->| ->]; [exists gi|exists (gi ++ [[]])]; rewrite ?flat_jump, ?nlen_app; cbn [nlen]; (split; [auto|split; [reflexivity|lia]]). }
  (* the same as without faults *)
  assert (SAME : run_req g p now q c (wio io s) = (fst (run_req g p now q c s), wio io (snd (run_req g p now q c s))) ->
     spoiled q (fst (kv_step p now c q m)) = None -> exists gi' H', UInv n (wio [] (snd rf)) gi' H' /\
    (let '(r, m') := kv_step p now c q m in match spoiled q r with Some err => ([err], (c, m)) | None => ([r], (c, m')) end) =
      (fst (let '(r, m') := kv_step p now c q m in match spoiled q r with Some err => ([err], (c, m)) | None => ([r], (c, m')) end), (c, livem (flat 0 gi') H')) /\
    [fst rf] = map enc_reply (fst (let '(r, m') := kv_step p now c q m in match spoiled q r with Some err => ([err], (c, m)) | None => ([r], (c, m')) end)) /\
    nlen gi' <= nlen gi + 1).
  { intros E Sp. exists gi', H'. unfold rf. rewrite E. cbn [fst snd].
    split; [rewrite wio_nil by apply R2; exact R2|].
    destruct (kv_step p now c q m) as [r m']. cbn [fst snd] in *. rewrite Sp. cbn [fst map]. rewrite R1, R4. split; [reflexivity|]. split; [reflexivity|exact R8]. }
  (* refused *)
  assert (BAD : forall s1 x file L io' err, (s1 = s \/ s1 = jump_next s) -> nget (d_dataid (dt s1)) (dk_d (dk s1)) = Some file ->
     snd rf = spilt s1 x file L io' -> fst rf = enc_reply err -> spoiled q (fst (kv_step p now c q m)) = Some err ->
     exists gi' H', UInv n (wio [] (snd rf)) gi' H' /\
    (let '(r, m') := kv_step p now c q m in match spoiled q r with Some err => ([err], (c, m)) | None => ([r], (c, m')) end) =
      (fst (let '(r, m') := kv_step p now c q m in match spoiled q r with Some err => ([err], (c, m)) | None => ([r], (c, m')) end), (c, livem (flat 0 gi') H')) /\
    [fst rf] = map enc_reply (fst (let '(r, m') := kv_step p now c q m in match spoiled q r with Some err => ([err], (c, m)) | None => ([r], (c, m')) end)) /\
    nlen gi' <= nlen gi + 1).
  { intros s1 x file L io' err E1 Hf E2 E3 Sp. destruct (S1 s1 E1) as (gi1 & U1 & F1 & N1).
    exists gi1, H. rewrite E2, E3. split; [now apply uinv_spilt|].
    destruct (kv_step p now c q m) as [r m']. cbn [fst snd] in *. rewrite Sp. cbn [fst map]. rewrite F1. auto. }
  destruct q as [k v ts|k ts|k|ks|k|k|k|k| |]; try (apply SAME; reflexivity).
  - destruct (set_fault g p now (argv_of (QSet k v ts)) c s io F (ui_io _ _ _ _ U) (uinv_has_cur _ _ _ _ U) (uinv_has_cur _ _ _ _ J1))
      as (s1 & E1 & [(A1 & A2 & A3)|(A1 & A2 & x & file & L & io' & A3 & A4)]).
    + apply SAME; [cbn [run_req]; rewrite A1, A2; reflexivity|]. cbn [run_req kv_step] in *.
      destruct (set_shape p now c m k v ts) as [(b & Eb)|(_ & _ & Sp)]; [|exact Sp].
      exfalso. rewrite R1, Eb in A3. exact (nw_bulk b A3).
    + apply (BAD s1 x file L io' (RErr "Cannot write data right now")); [exact E1|exact A3|exact A4|exact A1|]; cbn [run_req kv_step] in *.
      destruct (set_shape p now c m k v ts) as [(b & Eb)|(Nw & _)]; [rewrite Eb; reflexivity|].
      exfalso. destruct A2 as (id & A2). rewrite <- R1, A2 in Nw. exact (nw_bulk id Nw).
  - destruct (del_fault p now (argv_of (QDel k ts)) c s io F (ui_io _ _ _ _ U) (uinv_has_cur _ _ _ _ U))
      as (s1 & E1 & [(A1 & A2 & A3)|(A1 & A2 & x & file & L & io' & A3 & A4)]).
    + apply SAME; [cbn [run_req]; rewrite A1, A2; reflexivity|]. cbn [run_req kv_step] in *.
      destruct (del_shape p c m k ts) as [Eb|(_ & _ & _ & Sp)]; [|exact Sp].
      exfalso. rewrite R1, Eb in A3. exact (nw_ok A3).
    + apply (BAD s1 x file L io' (RErr "Cannot delete key (data)")); [exact E1|exact A3|exact A4|exact A1|]; cbn [run_req kv_step] in *.
      destruct (del_shape p c m k ts) as [Eb|(Nw & Nx & _)]; [rewrite Eb; reflexivity|].
      exfalso. rewrite <- R1 in Nw, Nx. destruct A2 as [A2|A2]; [rewrite A2 in Nw; exact (nw_ok Nw)|contradiction].
  - apply SAME; cbn [run_req kv_step]; unfold command_nsjump, admin_authorized; destruct (p_admin p); reflexivity.
Qed.

Lemma ffit_now g es c s : ffiles_fit g es (c, s) -> files_lt s.
Proof. intros F. exact (F O [] c s eq_refl). Qed.

Lemma ffit_step g e es st o st1 : ffiles_fit g (e :: es) st -> run_fevent g e st = Some (o, st1) -> ffiles_fit g es st1.
Proof.
  intros F E j o' c s R. apply (F (S j) (o ++ o') c s). cbn [firstn run_fevents]. rewrite E, R. reflexivity.
Qed.

Lemma fevent_ok g n e c s gi H : g_ok g -> fevent_wf e -> UInv n s gi H -> files_lt s ->
  exists o c' s' gi' H', run_fevent g e (c, s) = Some (o, (c', s')) /\ UInv n s' gi' H' /\
    kv_fevent e (c, livem (flat 0 gi) H) = (fst (kv_fevent e (c, livem (flat 0 gi) H)), (c', livem (flat 0 gi') H')) /\
    o = map enc_reply (fst (kv_fevent e (c, livem (flat 0 gi) H))) /\ nlen gi' <= nlen gi + 1.
Proof.
  intros Hg We U Hfl. destruct e as [e|io p now q].
  - destruct (event_ok g n e c s gi H Hg We U Hfl) as (o & c' & s' & gi' & H' & X & E1 & E2 & _ & _ & _ & E6 & E7 & E8).
    exists o, c', s', gi', H'. auto.
  - destruct We as [F Wq]. pose proof (fault_req_ok g n s gi H p now q c io U Hg Wq Hfl F) as Q. cbn zeta in Q.
    cbn [run_fevent fst snd]. destruct (run_req g p now q c (wio io s)) as [r s']. cbn [fst snd] in Q.
    destruct Q as (gi' & H' & Q1 & Q2 & Q3 & Q4). exists [r], c, (wio [] s'), gi', H'. auto.
Qed.

Lemma frun_ok g n es : g_ok g -> Forall fevent_wf es -> forall c s gi H, UInv n s gi H -> ffiles_fit g es (c, s) ->
  exists o c' s' gi' H', run_fevents g es (c, s) = Some (o, (c', s')) /\ UInv n s' gi' H' /\
    kv_frun es (c, livem (flat 0 gi) H) = (fst (kv_frun es (c, livem (flat 0 gi) H)), (c', livem (flat 0 gi') H')) /\
    o = map enc_reply (fst (kv_frun es (c, livem (flat 0 gi) H))).
Proof.
  intros Hg. induction es as [|e es IH]; intros W c s gi H U FF.
  - exists [], c, s, gi, H. auto.
  - pose proof (Forall_inv W) as We. apply Forall_inv_tail in W.
    destruct (fevent_ok g n e c s gi H Hg We U (ffit_now _ _ _ _ FF)) as (o1 & c1 & s1 & gi1 & H1 & E1 & E2 & E3 & E4 & _).
    destruct (IH W c1 s1 gi1 H1 E2 (ffit_step _ _ _ _ _ _ FF E1)) as (o2 & c2 & s2 & gi2 & H2 & F1 & F2 & F3 & F4).
    exists (o1 ++ o2), c2, s2, gi2, H2. cbn [run_fevents kv_frun]. rewrite E1, F1.
    destruct (kv_fevent e (c, livem (flat 0 gi) H)) as [r1 [k1 m1]]. cbn [fst] in *. injection E3 as -> ->.
    destruct (kv_frun es (c1, livem (flat 0 gi1) H1)) as [r2 [k2 m2]]. cbn [fst] in *. injection F3 as -> ->.
    split; [reflexivity|]. split; [exact F2|]. split; [reflexivity|]. subst. now rewrite map_app.
Qed.

(* each event adds at most one file *)
Lemma ffit_short g n es : g_ok g -> Forall fevent_wf es -> forall c s gi H, UInv n s gi H ->
  nlen gi + nlen es < 4294967296 -> ffiles_fit g es (c, s).
Proof.
  intros Hg. induction es as [|e es IH]; intros W c s gi H U Hlt j o c' s' R.
  - rewrite firstn_nil in R. cbn [run_fevents] in R. injection R as <- <- <-.
    rewrite (nlen_files _ _ _ _ U). cbn [nlen] in Hlt. change (2 ^ 32) with 4294967296. lia.
  - cbn [nlen] in Hlt. destruct j as [|j]; cbn [firstn run_fevents] in R.
    + injection R as <- <- <-. rewrite (nlen_files _ _ _ _ U). change (2 ^ 32) with 4294967296. lia.
    + pose proof (Forall_inv W) as We. apply Forall_inv_tail in W.
      destruct (fevent_ok g n e c s gi H Hg We U) as (o1 & c1 & s1 & gi1 & H1 & E1 & E2 & _ & _ & E8).
      { unfold files_lt. rewrite (nlen_files _ _ _ _ U). lia. }
      rewrite E1 in R. destruct (run_fevents g (firstn j es) (c1, s1)) as [[o2 [c2 s2]]|] eqn:R2; [|discriminate].
      injection R as <- <- <-. apply (IH W c1 s1 gi1 H1 E2) with (j := j) (o := o2) (c := c2); auto. lia.
Qed.

Lemma freached_total g n c0 es s0 : settings_ok g -> Forall fevent_wf es -> created g n s0 -> ffiles_fit g es (c0, s0) ->
  exists o c s, freached g n c0 es o c s /\ run_fevents g es (c0, s0) = Some (o, (c, s)).
Proof.
  intros Hg W C FF. pose proof (created_inv _ _ _ Hg C) as U.
  destruct (frun_ok g n es Hg W c0 s0 _ _ U FF) as (o & c & s & gi & H & R & _).
  exists o, c, s. split; [|exact R]. split; [exact Hg|]. split; [exact W|]. exists s0. auto.
Qed.

Lemma freached_inv g n c0 es o c s : freached g n c0 es o c s ->
  o = map enc_reply (fst (kv_frun es (c0, []))) /\
  exists gi H, UInv n s gi H /\ kv_frun es (c0, []) = (fst (kv_frun es (c0, [])), (c, livem (flat 0 gi) H)).
Proof.
  intros (Hg & W & s0 & C & FF & R). pose proof (created_inv _ _ _ Hg C) as U.
  destruct (frun_ok g n es Hg W c0 s0 _ _ U FF) as (o' & c' & s' & gi & H & R1 & R2 & R3 & R4).
  rewrite R in R1. injection R1 as -> -> ->. change (livem (flat 0 [[]]) []) with (@nil ver) in *.
  split; [exact R4|]. exists gi, H. auto.
Qed.

(* one request with a failing write *)
Lemma fault_no_effect g n c0 es o c s io p now q : freached g n c0 es o c s -> nlen (dk_i (dk s)) < 2 ^ 32 ->
  data_fault io -> req_wf q -> match q with QSet _ _ _ | QDel _ _ => True | _ => False end ->
  let rf := run_req g p now q c (wio io s) in
  is_accept q (fst rf) = false /\ same_reads s (snd rf).
Proof.
  intros R FL F Wq Q rf. destruct (freached_inv _ _ _ _ _ _ _ R) as (_ & gi & H & U & _).
  pose proof (fault_req_ok g n s gi H p now q c io U (proj1 R) Wq FL F) as X. cbn zeta in X. fold rf in X.
  destruct X as (gi' & H' & U' & E1 & E2 & _).
  assert (SR : livem (flat 0 gi') H' = livem (flat 0 gi) H /\ is_accept q (fst rf) = false).
  { cbn [kv_fevent fst snd] in E1, E2. destruct q as [k v ts|k ts| | | | | | | |]; try contradiction; cbn [kv_step] in *.
    - destruct (set_shape p now c (livem (flat 0 gi) H) k v ts) as [(b & Eb)|(Nw & Sm & Sp)].
      + destruct (kv_set _ _ _ _ _ _ _) as [r m']. cbn [fst snd] in *. subst r. cbn [spoiled fst map] in *.
        injection E1 as E1. injection E2 as E2. split; [congruence|]. rewrite E2. cbn [is_accept].
        destruct (bseqb_spec (enc_reply (RErr "Cannot write data right now")) (bulk k)) as [Y|Y]; [discriminate|reflexivity].
      + destruct (kv_set _ _ _ _ _ _ _) as [r m']. cbn [fst snd] in *. rewrite Sp in *. cbn [fst map] in *.
        injection E1 as E1. injection E2 as E2. split; [congruence|]. rewrite E2. cbn [is_accept].
        apply bseqb_neq. intros Y. rewrite Y in Nw. exact (nw_bulk _ Nw).
    - destruct (del_shape p c (livem (flat 0 gi) H) k ts) as [Eb|(Nw & _ & Sm & Sp)].
      + destruct (kv_del _ _ _ _ _) as [r m']. cbn [fst snd] in *. subst r. cbn [spoiled fst map] in *.
        injection E1 as E1. injection E2 as E2. split; [congruence|]. rewrite E2. reflexivity.
      + destruct (kv_del _ _ _ _ _) as [r m']. cbn [fst snd] in *. rewrite Sp in *. cbn [fst map] in *.
        injection E1 as E1. injection E2 as E2. split; [congruence|]. rewrite E2. cbn [is_accept].
        apply bseqb_neq. intros Y. rewrite Y in Nw. exact (nw_ok Nw). }
  split; [apply SR|]. destruct (same_reads_inv _ _ _ _ _ _ _ U U' (proj1 SR)) as (A & B & C).
  split; [|split]; [exact A|exact B|exact C].
Qed.

(* ---- a key stored for the first time, writes failing anywhere ---- *)

Lemma try_end d f b file ok d' : nget f (dk_d d) = Some file -> try_write (WrD f (blen file) b) d = (ok, d') ->
  exists x, dk_d d' = nset f (file ++ x) (dk_d d) /\ dk_i d' = dk_i d.
Proof.
  intros Hf. unfold try_write, do_write. destruct (dk_io d) as [|[|n] io]; cbn [cut_write apply_write dk_i dk_d fst snd]; intros E; injection E as <- <-;
    cbn [dk_i dk_d]; rewrite (wrfile_end _ file) by exact Hf; eauto.
Qed.

Lemma try_idx f off b d ok d' : try_write (WrI f off b) d = (ok, d') -> dk_d d' = dk_d d.
Proof. unfold try_write. destruct (dk_io d) as [|[|n] io]; intros E; injection E as _ <-; reflexivity. Qed.

Lemma insert_any s q off s2 file : nget (d_dataid (dt s)) (dk_d (dk s)) = Some file -> data_insert s q = (off, s2) ->
  tb s2 = tb s /\ ix s2 = ix s /\ dext (dk_d (dk s)) (dk_d (dk s2)).
Proof.
  intros Hf. unfold data_insert.
  assert (S0 : dsize (dk s) (d_dataid (dt s)) = blen file) by (unfold dsize, dfile; now rewrite Hf). rewrite S0.
  set (h := enc_drec _). destruct (try_write _ (dk s)) as [ok1 d1] eqn:E1. destruct (try_end _ _ _ _ _ _ Hf E1) as (x1 & D1 & _).
  assert (L : d_dataid (dt s) < nlen (dk_d (dk s))) by now apply nget_lt in Hf.
  assert (Hf1 : nget (d_dataid (dt s)) (dk_d d1) = Some (file ++ x1)) by (rewrite D1; now apply nget_nset_same).
  assert (X1 : dext (dk_d (dk s)) (dk_d d1)) by (rewrite D1; now apply dext_nset).
  destruct ok1; [|intros E; injection E as <- <-; auto].
  assert (S1 : dsize d1 (d_dataid (dt s)) = blen (file ++ x1)) by (unfold dsize, dfile; now rewrite Hf1). rewrite S1.
  destruct (try_write _ d1) as [ok2 d2] eqn:E2. destruct (try_end _ _ _ _ _ _ Hf1 E2) as (x2 & D2 & _).
  assert (X2 : dext (dk_d d1) (dk_d d2)) by (rewrite D2; now apply dext_nset).
  pose proof (dext_trans _ _ _ X1 X2). destruct ok2; intros E; injection E as <- <-; auto.
Qed.

Lemma read_same a k c f h : f k = h k -> read_command [a; k] c f = read_command [a; k] c h.
Proof. intros E. unfold read_command. change (arg 1 [a; k]) with k. now rewrite E. Qed.

Lemma reads_keep n s gi H s' : UInv n s gi H -> (forall k, index_get s' k = index_get s k) ->
  dext (dk_d (dk s)) (dk_d (dk s')) -> x_entries (ix s') = x_entries (ix s) -> x_datasize (ix s') = x_datasize (ix s) ->
  same_reads s s'.
Proof.
  intros U G D E1 E2. split; [|auto]. intros k.
  assert (X : forall e, index_get s k = Some e ->
    data_get (dk s') (e_off e) (e_len e) (e_dataid e) (blen (e_id e)) = data_get (dk s) (e_off e) (e_len e) (e_dataid e) (blen (e_id e)) /\
    data_check (dk s') (e_off e) (e_dataid e) = data_check (dk s) (e_off e) (e_dataid e)).
  { intros e E. pose proof (lookup_spec n s gi H k U) as L. rewrite E in L.
    destruct L as (x & w & _ & _ & _ & -> & _ & L6 & _).
    destruct L6 as (V1 & V2 & V3 & V4 & r & R1 & R2 & R3 & R4 & R5 & R6 & R7).
    cbn [entry_of e_off e_len e_dataid e_id]. pose proof (data_at_ext _ _ _ _ _ _ D R7) as R8.
    rewrite V1, V2. rewrite <- R2. split.
    - rewrite (data_get_at (dk s') _ _ r _), (data_get_at (dk s) _ _ r _); auto.
    - rewrite (data_check_at (dk s') _ _ r _ R1 R3 R8), (data_check_at (dk s) _ _ r _ R1 R3 R7). reflexivity. }
  unfold read_all, command_get, command_exists, command_length, command_keytime, command_check.
  repeat (apply f_equal2; [apply read_same|]); [| | | | |reflexivity]; unfold get_single; rewrite G;
    destruct (index_get s k) as [e|]; try reflexivity; destruct (X e eq_refl) as [Xa Xb]; rewrite ?Xa, ?Xb; reflexivity.
Qed.

Lemma insertion_fault n s gi H g p now c k v ts io : UInv n s gi H -> files_lt s -> kget k (livem (flat 0 gi) H) = None ->
  let rf := command_set g p now (argv_of (QSet k v ts)) c (wio io s) in
  fst rf = bulk k \/ same_reads s (snd rf).
Proof.
  intros U Hfl K. cbn zeta.
  assert (A : forall i, arg i (argv_of (QSet k v ts)) =
     match i with 0 => str "SET" | 1 => k | 2 => v | 3 => match ts with Some t => dec t | None => [] end | _ => [] end%nat).
  { intros i. destruct ts, i as [|[|[|[|[|i]]]]]; try reflexivity; destruct i; reflexivity. }
  assert (SR0 : same_reads s (wio io s)) by (split; [reflexivity|split; reflexivity]).
  assert (Jg : nlen gi < 4294967296) by (unfold files_lt in Hfl; rewrite (nlen_files _ _ _ _ U) in Hfl; exact Hfl).
  destruct (uinv_jump n s gi H U Jg) as (J1 & J2 & J3 & _).
  unfold command_set. destruct (if argc _ =? 4 then _ else _) as [e|]; [right; exact SR0|].
  destruct (MAX_KEY_LENGTH <? _); [right; exact SR0|].
  destruct (negb (p_writable p)); [right; exact SR0|].
  destruct (is_frozen c); [right; exact SR0|].
  destruct (is_locked c); [right; exact SR0|].
  rewrite !A, index_get_wio.
  assert (EX : (if blen k =? 0 then None else index_get s k) = None).
  { destruct (blen k =? 0); [reflexivity|]. pose proof (lookup_spec n s gi H k U) as L. destruct (index_get s k) as [e|]; [|reflexivity].
    destruct L as (x & w & _ & _ & _ & _ & _ & _ & L). congruence. }
  rewrite EX. cbn zeta iota. change (ix (wio io s)) with (ix s).
  destruct (negb _ && _); [right; exact SR0|].
  rewrite dsize_wio, jump_wio. change (dt (wio io s)) with (dt s).
  set (s1 := if g_datasize g <? dsize (dk s) (d_dataid (dt s)) + blen v then jump_next s else s).
  replace (if g_datasize g <? dsize (dk s) (d_dataid (dt s)) + blen v then wio io (jump_next s) else wio io s)
    with (wio io s1) by (unfold s1; destruct (_ <? _); reflexivity).
  assert (S1 : exists gi1, UInv n s1 gi1 H /\ tb s1 = tb s /\ dext (dk_d (dk s)) (dk_d (dk s1)) /\
    x_entries (ix s1) = x_entries (ix s) /\ x_datasize (ix s1) = x_datasize (ix s)).
  { unfold s1. destruct (_ <? _).
    - exists (gi ++ [[]]). split; [exact J1|]. split; [exact J2|]. split; [exact J3|].
      rewrite (ui_cnt _ _ _ _ J1), (ui_cnt _ _ _ _ U), (ui_dsz _ _ _ _ J1), (ui_dsz _ _ _ _ U), flat_jump. auto.
    - exists gi. split; [exact U|]. split; [reflexivity|]. split; [apply dext_refl|]. auto. }
  clearbody s1. destruct S1 as (gi1 & U1 & T1 & D1 & N1 & N2).
  assert (IG : forall s', tb s' = tb s -> x_mode (ix s') = MODE_KV -> x_ns (ix s') = n -> forall k0, index_get s' k0 = index_get s k0).
  { intros s' Et Em En k0. unfold index_get. rewrite Et, Em, En, (ui_mode _ _ _ _ U), (ui_ns _ _ _ _ U), N.eqb_refl. reflexivity. }
  assert (STAY : same_reads s (wio io s1)).
  { apply (reads_keep n s gi H _ U); [apply IG; [exact T1|apply U1|apply U1]|exact D1|exact N1|exact N2]. }
  rewrite (ui_mode _ _ _ _ U), N.eqb_refl. unfold set_handler_userkey. rewrite !A.
  destruct (blen k =? 0) eqn:K0; [right; exact STAY|].
  cbn [unchanged]. destruct (data_insert _ _) as [off s2] eqn:DI.
  destruct (uinv_cur _ _ _ _ U1) as (file & Hf & _).
  destruct (insert_any (wio io s1) _ off s2 file Hf DI) as (T2 & X2 & D2).
  cbn [with_outcomes tb ix dk dk_d] in T2, X2, D2.
  assert (DD : dext (dk_d (dk s)) (dk_d (dk s2))) by (eapply dext_trans; eauto).
  destruct (off =? 0).
  { right. cbn [snd]. apply (reads_keep n s gi H _ U); [apply IG; rewrite ?T2, ?X2; [exact T1|apply U1|apply U1]|exact DD| |]; rewrite X2; auto. }
  unfold index_set. rewrite X2, (ui_mode _ _ _ _ U1), N.eqb_refl. unfold index_insert_entry_memkey, index_append.
  destruct (try_write _ _) as [ok d1] eqn:TW. destruct ok; cbn iota.
  { destruct (insert_memory_memkey _ _ _ _) as [[t1 x1] e1]. left. reflexivity. }
  right. cbn [fst snd].
  assert (DE : dk_d d1 = dk_d (dk s2)).
  { eapply try_idx. exact TW. }
  apply (reads_keep n s gi H _ U); cbn [set_dk set_ix tb ix dk dk_d]; rewrite ?X2; cbn [x_set_updated x_set_prev x_entries x_datasize].
  - apply IG; cbn [set_dk set_ix tb ix x_set_updated x_set_prev x_mode x_ns]; rewrite ?X2; [now rewrite T2|apply U1|apply U1].
  - rewrite DE. exact DD.
  - exact N1.
  - exact N2.
Qed.

Lemma insertion_no_effect g n c0 es o c s io p now k v ts : freached g n c0 es o c s -> nlen (dk_i (dk s)) < 2 ^ 32 ->
  kget k (snd (snd (kv_frun es (c0, [])))) = None ->
  let rf := run_req g p now (QSet k v ts) c (wio io s) in
  is_accept (QSet k v ts) (fst rf) = false -> same_reads s (snd rf).
Proof.
  intros R FL K rf Acc. destruct (freached_inv _ _ _ _ _ _ _ R) as (_ & gi & H & U & E). rewrite E in K. cbn [snd] in K.
  destruct (insertion_fault n s gi H g p now c k v ts io U FL K) as [X|X]; [|exact X].
  unfold rf in Acc. cbn [run_req is_accept] in Acc. rewrite X, bseqb_refl in Acc. discriminate.
Qed.
