(* PROPERTY C66: a cursor made up by a client.  The replies of SCAN and RSCAN are None
   in the model when the walk does not end within scan_fuel passes. *)
From Coq Require Import Strings.String Strings.Byte List NArith ZArith Bool Lia.
From Verif Require Import Bytes BytesFacts Layout Store Text Commands SpecKV SpecSeq Machine Reach KvFacts
  CrashModel SeqReach SeqFacts Scan SpecScan SpecCursor CursorFacts PropKV PropSeq PropScan.
Import ListNotations.
Open Scope N_scope.
Local Notation length := List.length.

(* SCAN answers whatever is sent and whatever the index files contain *)
Theorem C66_scan_answers : forall n argv c s, nlen (dk_i (dk s)) < 2 ^ 32 -> exists r, command_scan n argv c s = Some r.
Proof. exact scan_any. Qed.
Print Assumptions C66_scan_answers.

(* RSCAN answers whatever is sent, on the files of any history *)
Theorem C66_rscan_user : forall g n c0 es o c s k argv,
  reached g n c0 es o c s -> exists r, command_rscan k argv c s = Some r.
Proof. exact rscan_user_any. Qed.
Print Assumptions C66_rscan_user.

(* also after crashes *)
Theorem C66_rscan_sequential : forall g n c0 es o c s k argv,
  sreached g n c0 es o c s -> nlen (dk_i (dk s)) < 2 ^ 32 -> exists r, command_rscan k argv c s = Some r.
Proof. exact rscan_seq_any. Qed.
Print Assumptions C66_rscan_sequential.

(* RSCAN on any files: the link of the first record of each file (bytes 38 to 41) is
   nothing or a place behind the header.  Missing: files in which it is not *)
Theorem C66_rscan_answers_partial : forall n argv c s, nlen (dk_i (dk s)) < 2 ^ 32 ->
  (forall f, In f (dk_i (dk s)) -> 63 <= blen f -> let p := unle (nfirst 4 (nskip (29 + 9) f)) in p = 0 \/ 29 <= p) ->
  exists r, command_rscan n argv c s = Some r.
Proof. exact rscan_any. Qed.
Print Assumptions C66_rscan_answers_partial.

(* a cursor is refused if and only if it does not fit what is at its place *)
Theorem C66_refusals : forall n cmd cur more c s, is_frozen c = false ->
  (fits (dk_i (dk s)) cur <-> command_scan n (cmd :: cur :: more) c s <> Some (hardsend "-Invalid key format")) /\
  (fits (dk_i (dk s)) cur <-> command_rscan n (cmd :: cur :: more) c s <> Some (hardsend "-Invalid key format")).
Proof. exact both_refuse. Qed.
Print Assumptions C66_refusals.

(* A cursor on a record, also on one that was deleted or replaced, gives the keys of the
   namespace from some point on, whoever made it up (from which point, for the cursors
   SCAN and KEYCUR give: C21_scan_user, C21_keycur_user, C23_walk_among_writes_partial) *)
Theorem C66_sound_user : forall g k c0 es o c s n cmd cur, reached g k c0 es o c s -> is_frozen c = false ->
  on_record (dk_i (dk s)) cur ->
  exists before after r, kv_of c0 es = before ++ after /\ command_scan n [cmd; cur] c s = Some r /\ scan_reply (firstn n after) r.
Proof. exact sound_user. Qed.
Print Assumptions C66_sound_user.

Theorem C66_sound_sequential : forall g k c0 es o c s n cmd cur, sreached g k c0 (plain es) o c s -> is_frozen c = false ->
  nlen (dk_i (dk s)) < 2 ^ 32 -> on_record (dk_i (dk s)) cur ->
  exists before after r, sq_map (sq_of_history c0 es) = before ++ after /\
    command_scan n [cmd; cur] c s = Some r /\ scan_reply (firstn n after) r.
Proof. exact sound_seq. Qed.
Print Assumptions C66_sound_sequential.

(* the same backwards, under the condition of C22 *)
Theorem C66_rsound_user : forall g k c0 es o c s n cmd cur, reached g k c0 es o c s -> is_frozen c = false ->
  all_used (dk_i (dk s)) -> on_record (dk_i (dk s)) cur ->
  exists before after r, kv_of c0 es = before ++ after /\ command_rscan n [cmd; cur] c s = Some r /\ scan_reply (firstn n (rev before)) r.
Proof. exact rsound_user. Qed.
Print Assumptions C66_rsound_user.

Theorem C66_rsound_sequential : forall g k c0 es o c s n cmd cur, sreached g k c0 (plain es) o c s -> is_frozen c = false ->
  nlen (dk_i (dk s)) < 2 ^ 32 -> all_used (dk_i (dk s)) -> on_record (dk_i (dk s)) cur ->
  exists before after r, sq_map (sq_of_history c0 es) = before ++ after /\
    command_rscan n [cmd; cur] c s = Some r /\ scan_reply (firstn n (rev before)) r.
Proof. exact rsound_seq. Qed.
Print Assumptions C66_rsound_sequential.

(* the number of passes allowed to a walk does not change what it finds *)
Theorem C66_passes : forall real d fuel s r, scan_loop fuel real d s = Some r ->
  forall k, scan_loop (fuel + k) real d s = Some r.
Proof. exact loop_more. Qed.
Print Assumptions C66_passes.

(* a history in user mode, and one in sequential mode with crashes *)
Example C66_ex : exists o c s, reached ex_g 5 ex_c scan_es o c s /\ nlen (dk_i (dk s)) < 2 ^ 32 /\
  command_rscan 3 [str "RSCAN"; enc_bkey (mkBkey 1 0 4 1 9)] c s = Some (hardsend "-Invalid key format").
Proof.
  destruct (kv_reached scan_es) as (o & c & s & R & E); [wf|reflexivity|].
  exists o, c, s. split; [exact R|]. split.
  - apply N.ltb_lt. refine (kv_probe (fun x => nlen (dk_i (dk (snd (snd x)))) <? 2 ^ 32) _ _ _ _ _ E _). vm_compute. reflexivity.
  - refine (kv_probe (fun x => command_rscan 3 [str "RSCAN"; enc_bkey (mkBkey 1 0 4 1 9)] (fst (snd x)) (snd (snd x))) _ _ _ _ _ E _).
    vm_compute. reflexivity.
Qed.

Example C66_ex_sequential : exists o c s, sreached ex_g 5 ex_c sq_crashes o c s /\ nlen (dk_i (dk s)) < 2 ^ 32.
Proof.
  destruct (sreached_ex sq_crashes) as (o & c & s & R & E); [vm_compute; reflexivity|]. exists o, c, s. split; [exact R|].
  apply N.ltb_lt. refine (sq_probe (fun x => nlen (dk_i (dk (snd (snd x)))) <? 2 ^ 32) _ _ _ _ _ E _). vm_compute. reflexivity.
Qed.

(* the cursor of the first record of a history, and the same with a wrong checksum *)
Example C66_ex_cursors : exists o c s, reached ex_g 5 ex_c scan_es o c s /\ is_frozen c = false /\
  fits (dk_i (dk s)) (enc_bkey (mkBkey 1 0 3 29 1257247123)) /\ all_used (dk_i (dk s)) /\ ~ fits (dk_i (dk s)) (enc_bkey (mkBkey 1 0 3 29 1257247124)).
Proof.
  destruct (kv_reached scan_es) as (o & c & s & R & E); [wf|reflexivity|]. exists o, c, s. split; [exact R|].
  assert (F : is_frozen c = false) by (refine (kv_probe (fun x => is_frozen (fst (snd x))) _ _ _ _ _ E _); vm_compute; reflexivity).
  split; [exact F|]. split.
  - apply (proj1 (C66_refusals 0 (str "SCAN") _ [] c s F)).
    assert (X : command_scan 0 [str "SCAN"; enc_bkey (mkBkey 1 0 3 29 1257247123)] c s = Some (hardsend "-No more data")).
    { refine (kv_probe (fun x => command_scan 0 [str "SCAN"; enc_bkey (mkBkey 1 0 3 29 1257247123)] (fst (snd x)) (snd (snd x))) _ _ _ _ _ E _).
      vm_compute. reflexivity. }
    rewrite X. discriminate.
  - split.
    { right. assert (X : forallb (fun f => 29 <? blen f) (dk_i (dk s)) = true).
      { refine (kv_probe (fun x => forallb (fun f => 29 <? blen f) (dk_i (dk (snd (snd x))))) _ _ _ _ _ E _). vm_compute. reflexivity. }
      rewrite forallb_forall in X. intros f Hf. apply N.ltb_lt. now apply X. }
    intros X. apply (proj1 (C66_refusals 0 (str "SCAN") _ [] c s F)) in X. apply X.
    refine (kv_probe (fun x => command_scan 0 [str "SCAN"; enc_bkey (mkBkey 1 0 3 29 1257247124)] (fst (snd x)) (snd (snd x))) _ _ _ _ _ E _).
    vm_compute. reflexivity.
Qed.

(* the first record was replaced; a cursor on it is sound *)
Example C66_ex_sound : exists o c s, reached ex_g 5 ex_c scan_es o c s /\ is_frozen c = false /\
  all_used (dk_i (dk s)) /\ on_record (dk_i (dk s)) (enc_bkey (mkBkey 1 0 3 29 1257247123)).
Proof.
  destruct C66_ex_cursors as (o & c & s & R & F & C & U & _). exists o, c, s. split; [exact R|]. split; [exact F|]. split; [exact U|].
  split; [exact C|]. intros f _. apply record_first.
Qed.

Example C66_ex_sound_sequential : exists o c s, sreached ex_g 5 ex_c (plain rscan_sq) o c s /\ is_frozen c = false /\
  nlen (dk_i (dk s)) < 2 ^ 32 /\ all_used (dk_i (dk s)) /\ on_record (dk_i (dk s)) (enc_bkey (mkBkey 8 0 3 29 1257247123)).
Proof.
  destruct (sreached_ex (plain rscan_sq)) as (o & c & s & R & E); [vm_compute; reflexivity|]. exists o, c, s. split; [exact R|].
  assert (F : is_frozen c = false) by (refine (sq_probe (fun x => is_frozen (fst (snd x))) _ _ _ _ _ E _); vm_compute; reflexivity).
  split; [exact F|].
  split. { apply N.ltb_lt. refine (sq_probe (fun x => nlen (dk_i (dk (snd (snd x)))) <? 2 ^ 32) _ _ _ _ _ E _). vm_compute. reflexivity. }
  split.
  { right. assert (X : forallb (fun f => 29 <? blen f) (dk_i (dk s)) = true).
    { refine (sq_probe (fun x => forallb (fun f => 29 <? blen f) (dk_i (dk (snd (snd x))))) _ _ _ _ _ E _). vm_compute. reflexivity. }
    rewrite forallb_forall in X. intros f Hf. apply N.ltb_lt. now apply X. }
  split; [|intros f _; apply record_first].
  apply (proj1 (C66_refusals 0 (str "SCAN") _ [] c s F)).
  assert (X : command_scan 0 [str "SCAN"; enc_bkey (mkBkey 8 0 3 29 1257247123)] c s = Some (hardsend "-No more data")).
  { refine (sq_probe (fun x => command_scan 0 [str "SCAN"; enc_bkey (mkBkey 8 0 3 29 1257247123)] (fst (snd x)) (snd (snd x))) _ _ _ _ _ E _).
    vm_compute. reflexivity. }
  rewrite X. discriminate.
Qed.

(* any bytes as index files: the walk over them ends *)
Example C66_ex_files :
  let d := mkDisk [repeat xff 200; []; repeat x00 100] [] [] [] in
  nlen (dk_i d) < 2 ^ 32 /\ option_map (fun s => (sc_fid s, sc_tgt s)) (index_next_header d 0 7) = Some (2, 29).
Proof. split; vm_compute; reflexivity. Qed.

(* ---- a row for a key that was never stored ---- *)

(* a key of 72 bytes which contains two index records *)
Definition forged_key : bytes :=
  enc_item (mkItem 1 0 7 0 0 0 0 9 0 0 (str "x")) ++ enc_item (mkItem 3 0 12 0 0 0 1234 0 0 0 (str "foo")).
Definition forged_es : list event := [EReq rw 1000 (QSet forged_key (str "one") None)].

(* the full statement is false: the client stores this key and asks for what follows a
   place inside of its record; SCAN answers with a key which is not in the namespace *)
Theorem C66_forged_row_refuted : exists o c s cur r,
  reached ex_g 5 ex_c forged_es o c s /\ blen cur = 17 /\
  map fst (kv_of ex_c forged_es) = [forged_key] /\
  command_scan 1 [str "SCAN"; cur] c s = Some r /\
  scan_reply [(str "foo", (zeros 12, 1234))] r.
Proof.
  destruct (kv_reached forged_es) as (o & c & s & R & E); [wf|reflexivity|].
  exists o, c, s, (enc_bkey (mkBkey 1 0 7 63 9)),
    (arrayhdr 2 ++ bulk (enc_bkey (mkBkey 3 0 12 98 0)) ++ arrayhdr 1 ++ scan_row (str "foo", (zeros 12, 1234))).
  split; [exact R|]. split; [reflexivity|]. split; [vm_compute; reflexivity|]. split.
  - refine (kv_probe (fun x => command_scan 1 [str "SCAN"; enc_bkey (mkBkey 1 0 7 63 9)] (fst (snd x)) (snd (snd x))) _ _ _ _ _ E _).
    vm_compute. reflexivity.
  - exists (enc_bkey (mkBkey 3 0 12 98 0)). split; [reflexivity|]. vm_compute. reflexivity.
Qed.
Print Assumptions C66_forged_row_refuted.

(* ---- one wrong bit ---- *)
Definition bit_es : list event :=
  [EReq rw 1000 (QSet (str "a") (str "one") None); EReq rw 1001 (QSet (str "b") (str "two") None);
   EReq rw 1002 (QDel (str "a") None)].

(* the lowest bit of byte 38, which is 0 in the first file *)
Definition flip (f : bytes) : bytes := nfirst 38 f ++ [x01] ++ nskip 39 f.
Definition bit_disk : disk := Eval vm_compute in
  match run_kv bit_es with
  | Some (_, (_, s)) => mkDisk (map flip (dk_i (dk s))) (dk_d (dk s)) [] []
  | None => empty_disk
  end.

(* the files with that bit wrong, as the server finds them *)
Definition damaged (s : est) : disk := mkDisk (map flip (dk_i (dk s))) (dk_d (dk s)) [] [].

Definition bit_open : disk := Eval vm_compute in
  match store_open (g_mode ex_g) 5 empty_table bit_disk with Some s => dk s | None => empty_disk end.

Lemma bit_spins : forall fuel, scan_loop fuel index_previous_header_real bit_open (mkScan 0 64 0 None SUnexpected) = None.
Proof.
  apply (loop_falls _ _ _ (mkScan 0 29 0 None SDeleted) (hd [] (dk_i bit_open))); [reflexivity|vm_compute; reflexivity|reflexivity|].
  apply (loop_never _ _ _ (hd [] (dk_i bit_open))); [reflexivity|vm_compute; reflexivity|reflexivity].
Qed.

(* the full statement is false when a bit of an index file is wrong: the server starts
   and serves the key, and RSCAN without any cursor never ends once it goes on from the
   record of that key, at place 64, however many passes it is given *)
Theorem C66_wrong_bit_refuted : exists o c s s',
  reached ex_g 5 ex_c bit_es o c s /\ map fst (kv_of ex_c bit_es) = [str "b"] /\
  store_open (g_mode ex_g) 5 empty_table (damaged s) = Some s' /\
  fst (run_req ex_g ro 9 (QGet (str "b")) c s') = bulk (str "two") /\
  option_map (fun x => option_map fst (row_of x)) (index_last_header (dk s') (ix s')) = Some (Some (0, 64)) /\
  (forall fuel, scan_loop fuel index_previous_header_real (dk s') (mkScan 0 64 0 None SUnexpected) = None) /\
  forall n, command_rscan (S n) [str "RSCAN"] c s' = None.
Proof.
  destruct (kv_reached bit_es) as (o & c & s & R & E); [wf|reflexivity|].
  assert (D : damaged s = bit_disk) by (refine (kv_probe (fun x => damaged (snd (snd x))) _ _ _ _ _ E _); vm_compute; reflexivity).
  assert (C : c = ex_c) by (refine (kv_probe (fun x => fst (snd x)) _ _ _ _ _ E _); vm_compute; reflexivity).
  destruct (store_open (g_mode ex_g) 5 empty_table bit_disk) as [s'|] eqn:O; [|vm_compute in O; discriminate].
  assert (P : forall A (f : est -> A) v, option_map f (store_open (g_mode ex_g) 5 empty_table bit_disk) = Some v -> f s' = v).
  { intros A f v X. rewrite O in X. cbn [option_map] in X. congruence. }
  assert (K : dk s' = bit_open) by (apply P; vm_compute; reflexivity).
  assert (L : option_map (fun x => option_map fst (row_of x)) (index_last_header (dk s') (ix s')) = Some (Some (0, 64))).
  { apply (P _ (fun s' => option_map (fun x => option_map fst (row_of x)) (index_last_header (dk s') (ix s')))). vm_compute. reflexivity. }
  exists o, c, s, s'. split; [exact R|]. split; [vm_compute; reflexivity|]. split; [now rewrite D|].
  split. { rewrite C. apply (P _ (fun s' => fst (run_req ex_g ro 9 (QGet (str "b")) ex_c s'))). vm_compute. reflexivity. }
  split; [exact L|]. split; [rewrite K; apply bit_spins|]. intros n. rewrite C. unfold command_rscan, scan_body.
  change (is_frozen ex_c) with false. change (argc [str "RSCAN"] =? 1) with true. cbn iota.
  destruct (index_last_header (dk s') (ix s')) as [sc|]; [|reflexivity]. cbn [option_map] in L.
  destruct (row_of sc) as [[[f' o'] it]|]; [|discriminate]. cbn [option_map fst] in L. injection L as -> ->.
  cbn [scan_walk]. unfold index_previous_header. rewrite K, bit_spins. reflexivity.
Qed.
Print Assumptions C66_wrong_bit_refuted.
