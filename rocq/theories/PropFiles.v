(* PROPERTIES C11, C41 and C47: the data files. *)
From Coq Require Import Strings.String Strings.Byte List NArith Bool Lia.
From Verif Require Import Bytes Layout Store Text Commands System SpecKV SpecSeq Machine Reach SeqReach CrashModel SpecFiles
  FileFacts DataLog RawFacts PropKV PropSeq PropScan.
Import ListNotations.
Open Scope N_scope.

(* ---- C11 ---- *)

(* From the creation of a namespace in any mode, whatever the requests, settings,
   failing writes, crashes and reloads: a data file never loses or changes a byte. *)
Theorem C11_data_files_only_grow : forall mode n t s0 s1 s2,
  store_open mode n t empty_disk = Some s0 -> life s0 s1 -> life s1 s2 -> grown (dk_d (dk s1)) (dk_d (dk s2)).
Proof. exact only_grow. Qed.
Print Assumptions C11_data_files_only_grow.

(* a write, an update, a deletion, a failing write, a crash in the middle of a
   record, a jump, a reload, another write *)
Definition got (d : est) (o : option est) : est := match o with Some s => s | None => d end.
Definition is_some {A} (o : option A) : bool := match o with Some _ => true | None => false end.
Lemma got_some d o : is_some o = true -> o = Some (got d o).
Proof. destruct o; [reflexivity|discriminate]. Qed.

Definition nothing : est := mkEst empty_table (index_init_lazy MODE_KV 5) (mkData 0 0) empty_disk.
Definition life0 : est := got nothing (store_open MODE_MIX 5 empty_table empty_disk).
Definition after (now : N) (q : req) (s : est) : est := snd (run_req ex_g adm now q ex_c s).
Definition life1 : est := after 3 (QDel (str "a") None) (after 2 (QSet (str "a") (str "two") None) (after 1 (QSet (str "a") (str "one") None) life0)).
Definition life2 : est := after 4 (QSet (str "b") (str "lost") None) (with_outcomes [WFail 7] life1).
Definition life3 : est := got nothing (crash_req ex_g adm 5 (QSet (str "c") (str "torn") None) 0 9 ex_c life2).
Definition life4 : est := got nothing (reopen ex_g (after 6 QJump life3)).
Definition life5 : est := after 7 (QSet (str "d") (str "later") None) life4.

Lemma life_trans a b c : life a b -> life b c -> life a c.
Proof. induction 1; intros L; auto; [econstructor; eauto | eapply l_reload; eauto | eapply l_died; eauto | eapply l_outcomes; eauto]. Qed.
Lemma life_after now q a s : life a s -> life a (after now q s).
Proof. intros L. apply (life_trans a s _ L). unfold after. apply (l_request ex_g adm now q ex_c). apply l_here. Qed.
Lemma life_outcomes io a s : life a s -> life a (with_outcomes io s).
Proof. intros L. apply (life_trans a s _ L). apply (l_outcomes io). apply l_here. Qed.
Lemma life_reload a s : is_some (reopen ex_g s) = true -> life a s -> life a (got nothing (reopen ex_g s)).
Proof. intros E L. apply (life_trans a s _ L). eapply l_reload; [apply (got_some nothing), E|apply l_here]. Qed.
Lemma life_died now q j n a s : is_some (crash_req ex_g adm now q j n ex_c s) = true -> life a s ->
  life a (got nothing (crash_req ex_g adm now q j n ex_c s)).
Proof. intros E L. apply (life_trans a s _ L). eapply l_died; [apply (got_some nothing), E|apply l_here]. Qed.

Example C11_ex : store_open MODE_MIX 5 empty_table empty_disk = Some life0 /\ life life0 life1 /\ life life1 life5 /\
  map blen (dk_d (dk life1)) = [28 + 22 + 22 + 19] /\ map blen (dk_d (dk life5)) = [28 + 22 + 22 + 19 + 7 + 9; 28 + 24].
Proof.
  split; [apply (got_some nothing); vm_compute; reflexivity|].
  split; [exact (life_after _ _ _ _ (life_after _ _ _ _ (life_after _ _ _ _ (l_here life0))))|].
  split; [|split; vm_compute; reflexivity].
  apply life_after. unfold life4. apply life_reload; [vm_compute; reflexivity|]. apply life_after.
  unfold life3. apply life_died; [vm_compute; reflexivity|]. apply life_after. apply life_outcomes. apply l_here.
Qed.

(* ---- C47 ---- *)

(* The data files hold, after their headers, one record for every SET and DEL that
   was answered positively, in the order of the answers, with key, value, timestamp
   and checksum, and nothing else.  Histories without crash. *)
Theorem C47_data_files_are_the_log : forall g n c0 es o c s,
  reached g n c0 es o c s -> exists files, log_of (dk_d (dk s)) files (written_by es o).
Proof. exact kv_log. Qed.
Print Assumptions C47_data_files_are_the_log.

Theorem C47_data_files_are_the_log_sequential : forall g n c0 es o c s,
  sreached g n c0 (plain es) o c s -> exists files, log_of (dk_d (dk s)) files (written_by es o).
Proof. exact sq_log. Qed.
Print Assumptions C47_data_files_are_the_log_sequential.

Definition log_es : list event := scan_es ++ [EReq rw 1008 (QSet (str "d") (str "dd") None); EReq ro 1009 (QSet (str "e") (str "no") None)].
Definition log_ws : list wrote :=
  [mkWrote (str "a") (str "one") 1000 false; mkWrote (str "b") [] 1001 false; mkWrote (str "c") (str "three") 1003 false;
   mkWrote (str "a") (str "uno!") 1004 false; mkWrote (str "d") (str "dd") 1006 false; mkWrote (str "c") [] 1007 true].
Definition log_files : list (list (N * wrote)) :=
  [[(0, nth 0 log_ws (mkWrote [] [] 0 false)); (28, nth 1 log_ws (mkWrote [] [] 0 false))];
   [(50, nth 2 log_ws (mkWrote [] [] 0 false)); (28, nth 3 log_ws (mkWrote [] [] 0 false))];
   [(52, nth 4 log_ws (mkWrote [] [] 0 false)); (28, nth 5 log_ws (mkWrote [] [] 0 false))]].

(* a repeated SET and a refused one leave no record; the first record of a file
   points into the file before *)
Example C47_ex : exists o c s, reached ex_g 5 ex_c log_es o c s /\ written_by log_es o = log_ws /\ log_of (dk_d (dk s)) log_files log_ws.
Proof.
  destruct (kv_reached log_es) as (o & c & s & R & E); [wf|vm_compute; reflexivity|]. exists o, c, s. split; [exact R|].
  split; [refine (kv_probe (fun x => written_by log_es (fst x)) _ _ _ _ _ E _); vm_compute; reflexivity|].
  split; [refine (kv_probe (fun x => dk_d (dk (snd (snd x)))) _ _ _ _ _ E _); vm_compute; reflexivity|].
  split; [vm_compute; reflexivity|]. repeat constructor.
Qed.

Example C47_ex_sequential : exists o c s, sreached ex_g 5 ex_c (plain sq_es) o c s /\
  map (fun w => (unle (w_key w), w_value w, w_gone w)) (written_by sq_es o) =
  [(0, str "one", false); (1, str "two", false); (0, str "uno", false); (3, str "three", false); (1, [], true); (3, str "tres", false);
   (5, [], false); (6, str "six", false)].
Proof.
  destruct sq_ex as (o & c & s & R & E). exists o, c, s. split; [exact R|].
  refine (sq_probe (fun x => map (fun w => (unle (w_key w), w_value w, w_gone w)) (written_by sq_es (fst x))) _ _ _ _ _ E _). vm_compute. reflexivity.
Qed.

(* ---- C41 ---- *)

Theorem C41_data_raw : forall g n c0 es o c s,
  reached g n c0 es o c s -> exists files, log_of (dk_d (dk s)) files (written_by es o) /\ raw_answers s files.
Proof. exact kv_raw. Qed.
Print Assumptions C41_data_raw.

Theorem C41_data_raw_sequential : forall g n c0 es o c s,
  sreached g n c0 (plain es) o c s -> nlen (dk_i (dk s)) < 2 ^ 32 ->
  exists files, log_of (dk_d (dk s)) files (written_by es o) /\ raw_answers s files.
Proof. exact sq_raw. Qed.
Print Assumptions C41_data_raw_sequential.

Example C41_ex : exists o c s, reached ex_g 5 ex_c log_es o c s /\
  ask_raw s 1 28 = Some (str "*6" ++ CRLF ++ bulk (str "c") ++ intreply 50 ++ bulk (hex_word 1496721289) ++ intreply 0 ++ intreply 1003 ++ bulk (str "three")) /\
  ask_raw s 0 50 = Some (hardsend "-Invalid Request") /\
  ask_raw s 2 49 = Some (hardsend "-Unexpected Internal Error") /\
  ask_raw s 2 68 = Some (hardsend "-EOF").
Proof.
  destruct (kv_reached log_es) as (o & c & s & R & E); [wf|vm_compute; reflexivity|]. exists o, c, s. split; [exact R|].
  repeat split;
   match goal with |- ask_raw s ?f ?x = _ => refine (kv_probe (fun y => ask_raw (snd (snd y)) f x) _ _ _ _ _ E _); vm_compute; reflexivity end.
Qed.

(* ... and with failing writes and crashes before and after: the record of an
   accepted SET is readable for ever at one place *)
Theorem C41_accepted_record_stays : forall mode n t s0 s1 g p now k v ts c r s2,
  store_open mode n t empty_disk = Some s0 -> life s0 s1 -> req_wf (QSet k v ts) ->
  run_req g p now (QSet k v ts) c s1 = (r, s2) -> accepted (QSet k v ts) r = true -> v <> [] ->
  exists id f off prev, r = bulk id /\
    forall s3, life s2 s3 -> f < 2 ^ 32 -> off < 2 ^ 63 ->
      ask_raw s3 f off = Some (raw_reply prev (mkWrote id v (stamp ts now) false)).
Proof. exact raw_forever. Qed.
Print Assumptions C41_accepted_record_stays.

(* after a failed write and a crash, at offset 107 in file 0: the garbage of both is before it *)
Definition life3b : est := after 6 (QSet (str "e") (str "kept") None) life3.
Definition life6 : est := got nothing (reopen ex_g (after 9 (QDel (str "e") None) (after 8 QJump life3b))).
Lemma life_3 : life life1 life3.
Proof. unfold life3. apply life_died; [vm_compute; reflexivity|]. apply life_after. apply life_outcomes. apply l_here. Qed.
Lemma life_6 : life life3b life6.
Proof. unfold life6. apply life_reload; [vm_compute; reflexivity|]. apply life_after. apply life_after. apply l_here. Qed.
Lemma life_1 : life life0 life1.
Proof. exact (life_after _ _ _ _ (life_after _ _ _ _ (life_after _ _ _ _ (l_here life0)))). Qed.
Lemma set_3b : run_req ex_g adm 6 (QSet (str "e") (str "kept") None) ex_c life3 = (bulk (str "e"), life3b).
Proof.
  assert (X : forall (x : bytes * est) y, fst x = y -> x = (y, snd x)) by (intros [u z] y; cbn; congruence).
  apply X. vm_compute. reflexivity.
Qed.
Example C41_ex_crash : life life0 life3 /\
  run_req ex_g adm 6 (QSet (str "e") (str "kept") None) ex_c life3 = (bulk (str "e"), life3b) /\
  accepted (QSet (str "e") (str "kept") None) (bulk (str "e")) = true /\ life life3b life6 /\
  ask_raw life6 0 107 = Some (raw_reply 72 (mkWrote (str "e") (str "kept") 6 false)).
Proof.
  split; [exact (life_trans _ _ _ life_1 life_3)|]. split; [exact set_3b|]. split; [vm_compute; reflexivity|].
  split; [exact life_6|]. vm_compute. reflexivity.
Qed.
