(* PROPERTIES of index-dump (C51) and quick-compaction (C49).  Vocabulary: SpecTools.v. *)
From Coq Require Import Strings.String Strings.Byte List NArith Bool Lia.
From Verif Require Import Bytes BytesFacts Crc32 Layout Store Text Commands System SpecKV Machine Reach CrashModel
  SpecSeq SeqReach SpecFiles SpecCheck Rebuild UserRun KvFacts SeqRun SeqFacts PropKV PropScan PropSeq PropFiles Tools SpecTools DumpFacts QuickFacts.
Import ListNotations.
Open Scope N_scope.
Local Notation length := List.length.

(* ---- C51: index-dump ---- *)

(* One block of lines for every index file, numbered; together, one line for every value
   that was accepted, in order, with the key, the length, the checksum and the time; and
   the lines without the flag of deletion are those of the current contents. *)
Theorem C51_dump_tells_user : forall g n c0 es o c s, reached g n c0 es o c s ->
  exists L, index_dump (server_index (dk_i (dk s))) = DDone L /\ nlen L = nlen (dk_i (dk s)) /\ Forall (numbered 1 29) L /\
    Forall2 tells (values_of (written_by es o)) (List.concat L) /\
    Forall2 tells (kv_of c0 es) (filter not_deleted (List.concat L)).
Proof. exact dump_user. Qed.
Print Assumptions C51_dump_tells_user.

(* Sequential mode: one line for every key that was ever given out. *)
Theorem C51_dump_tells_sequential : forall g n c0 es o c s, sreached g n c0 (plain es) o c s ->
  exists L, index_dump (server_index (dk_i (dk s))) = DDone L /\ nlen L = nlen (dk_i (dk s)) /\ Forall (numbered 1 29) L /\
    nlen (List.concat L) = sq_next (sq_of_history c0 es) /\
    Forall2 tells (sq_map (sq_of_history c0 es)) (filter not_deleted (List.concat L)).
Proof. exact dump_seq. Qed.
Print Assumptions C51_dump_tells_sequential.

Definition lines (d : dir) : list (list (N * bytes * N * N)) :=
  match index_dump d with DDone L => map (map (fun r => (sh_nr r, sh_key r, sh_len r, sh_flags r))) L | _ => [] end.

Example C51_ex : exists o c s, reached ex_g 5 ex_c log_es o c s /\
  lines (server_index (dk_i (dk s))) =
    [[(1, str "a", 3, 1); (2, str "b", 0, 0)]; [(1, str "c", 5, 1); (2, str "a", 4, 0)]; [(1, str "d", 2, 0)]].
Proof.
  destruct (kv_reached log_es) as (o & c & s & R & E); [wf|vm_compute; reflexivity|]. exists o, c, s. split; [exact R|].
  refine (kv_probe (fun x => lines (server_index (dk_i (dk (snd (snd x)))))) _ _ _ _ _ E _). vm_compute. reflexivity.
Qed.

Example C51_sequential_ex : exists o c s, sreached ex_g 5 ex_c (plain sq_es) o c s /\
  map (map (fun x => snd x)) (lines (server_index (dk_i (dk s)))) = [[0; 1; 1]; [0; 1; 0]; [0]].
Proof.
  destruct sq_ex as (o & c & s & R & E). exists o, c, s. split; [exact R|].
  refine (sq_probe (fun x => map (map (fun x => snd x)) (lines (server_index (dk_i (dk (snd (snd x))))))) _ _ _ _ _ E _). vm_compute. reflexivity.
Qed.

(* FINDING.  The number of the data file that is printed is wrong: a new key stored while
   file 1 is current is shown as being in file 0 (zdbd/commands_set.c:141). *)
Definition jumped : list event :=
  [EReq rw 1 (QSet (str "a") (str "one") None); EReq adm 1 QJump; EReq rw 2 (QSet (str "b") (str "two") None)].
Theorem C51_data_file_refuted : exists es o c s L r, reached ex_g 5 ex_c es o c s /\
  index_dump (server_index (dk_i (dk s))) = DDone L /\ In r (List.concat L) /\
  sh_key r = str "b" /\ sh_dataid r = 0 /\
  map (fun f => fread f (sh_off r + 18) 4) (dk_d (dk s)) = [str "aone"; str "btwo"].
Proof.
  destruct (kv_reached jumped) as (o & c & s & R & E); [wf|vm_compute; reflexivity|].
  exists jumped, o, c, s.
  exists [[mkShown 1 29 1 3 28 0 0 1 0 (zdb_crc32 (str "one")) 0 0 (str "a")]; [mkShown 1 29 1 3 28 0 0 2 29 (zdb_crc32 (str "two")) 0 0 (str "b")]].
  exists (mkShown 1 29 1 3 28 0 0 2 29 (zdb_crc32 (str "two")) 0 0 (str "b")).
  split; [exact R|]. split; [|split; [right; left; reflexivity|split; [reflexivity|split; [reflexivity|]]]].
  - refine (kv_probe (fun x => index_dump (server_index (dk_i (dk (snd (snd x)))))) _ _ _ _ _ E _). vm_compute. reflexivity.
  - refine (kv_probe (fun x => map (fun f => fread f _ 4) (dk_d (dk (snd (snd x))))) _ _ _ _ _ E _). vm_compute. reflexivity.
Qed.
Print Assumptions C51_data_file_refuted.

(* ---- C49: quick-compaction ---- *)

(* What is proved.  User mode, any number of data files: the tool either exits, which
   only happens if a new key was stored after the first data file was left (below), or
   it writes as many data files as there are, which together hold a record for every
   value that was accepted, in order; the current ones, that is the contents of the
   namespace, are whole (unless empty), of the others only the key and the time are
   left.  Every record is linked to the one before.
   Missing, because false: that a server can use the output (below). *)
Theorem C49_files_compacted_partial : forall g n c0 es o c s, reached g n c0 es o c s ->
  (quick_compact (server_index (dk_i (dk s))) (server_data (dk_d (dk s))) = QExit /\ 1 < nlen (dk_d (dk s)) /\ new_later g n c0 es) \/
  (exists i files,
    quick_compact (server_index (dk_i (dk s))) (server_data (dk_d (dk s))) = QDone (named legacy_index_name 0 i, squeezed_files 0 0 files) /\
    nlen i = nlen (dk_i (dk s)) /\ nlen files = nlen (dk_d (dk s)) /\
    map snd (concat files) = values_of (written_by es o) /\ map snd (filter fst (concat files)) = kv_of c0 es).
Proof. exact quick_many. Qed.
Print Assumptions C49_files_compacted_partial.

(* One data file: the tool always ends. *)
Theorem C49_data_compacted_partial : forall g n c0 es o c s, reached g n c0 es o c s -> nlen (dk_d (dk s)) = 1 ->
  exists i rows,
    quick_compact (server_index (dk_i (dk s))) (server_data (dk_d (dk s))) =
      QDone ([(legacy_index_name 0, i)], [(legacy_data_name 0, file_header 0 ++ squeezed 0 28 rows)]) /\
    map snd rows = values_of (written_by es o) /\ map snd (filter fst rows) = kv_of c0 es.
Proof. exact quick_single. Qed.
Print Assumptions C49_data_compacted_partial.

(* FINDING.  The output has the file names of an old version, on which the server
   refuses to start. *)
Theorem C49_output_refused_refuted : forall idir ddir oi od smode ns t,
  quick_compact idir ddir = QDone (oi, od) -> oi <> [] -> start_on smode ns t oi od = None.
Proof. exact quick_refused. Qed.
Print Assumptions C49_output_refused_refuted.

Definition two_es : list event :=
  [EReq rw 1 (QSet (str "a") (str "one") None); EReq rw 2 (QSet (str "b") (str "two") None);
   EReq rw 3 (QSet (str "c") (str "x") None); EReq rw 4 (QDel (str "c") None)].
Definition packed_of (s : est) : packed (dir * dir) := quick_compact (server_index (dk_i (dk s))) (server_data (dk_d (dk s))).
Definition outs (p : packed (dir * dir)) : dir * dir := match p with QDone x => x | _ => ([], []) end.
Definition is_done (p : packed (dir * dir)) : bool := match p with QDone _ => true | _ => false end.
Lemma done_outs p : is_done p = true -> p = QDone (fst (outs p), snd (outs p)).
Proof. destruct p as [[]| |]; [reflexivity|discriminate|discriminate]. Qed.
Definition restarted (p : packed (dir * dir)) : option est :=
  start_on MODE_MIX 5 empty_table (renamed (fst (outs p)) index_name) (renamed (snd (outs p)) data_name).
Definition gets (s : option est) (ks : list bytes) : list bytes :=
  match s with Some s => map (fun k => fst (run_req ex_g adm 9 (QGet k) ex_c s)) ks | None => [] end.

(* the hypotheses of C49_data_compacted_partial and of C49_output_refused_refuted are met *)
Example C49_ex : exists o c s oi od, reached ex_g 5 ex_c two_es o c s /\ nlen (dk_d (dk s)) = 1 /\
  packed_of s = QDone (oi, od) /\ oi <> [] /\ map (fun x => blen (snd x)) od = [28 + 22 + 22 + 19].
Proof.
  destruct (kv_reached two_es) as (o & c & s & R & E); [wf|vm_compute; reflexivity|].
  exists o, c, s, (fst (outs (packed_of s))), (snd (outs (packed_of s))). split; [exact R|]. split.
  { refine (kv_probe (fun x => nlen (dk_d (dk (snd (snd x))))) _ _ _ _ _ E _). vm_compute. reflexivity. }
  split; [apply done_outs; refine (kv_probe (fun x => is_done (packed_of (snd (snd x)))) _ _ _ _ _ E _); vm_compute; reflexivity|].
  split.
  - assert (X : nlen (fst (outs (packed_of s))) = 1); [|intros Z; rewrite Z in X; discriminate X].
    refine (kv_probe (fun x => nlen (fst (outs (packed_of (snd (snd x)))))) _ _ _ _ _ E _). vm_compute. reflexivity.
  - refine (kv_probe (fun x => map (fun y => blen (snd y)) (snd (outs (packed_of (snd (snd x)))))) _ _ _ _ _ E _). vm_compute. reflexivity.
Qed.

(* FINDING.  Even after the files have been renamed, the index points to the record
   before the right one (tools/quick-compaction/quick-compact.c): the second key has the
   value of the first. *)
Theorem C49_wrong_value_refuted : exists es o c s oi od s', reached ex_g 5 ex_c es o c s /\
  kget (str "b") (kv_of ex_c es) = Some (str "two", 2) /\
  packed_of s = QDone (oi, od) /\
  start_on MODE_MIX 5 empty_table (renamed oi index_name) (renamed od data_name) = Some s' /\
  fst (run_req ex_g adm 9 (QGet (str "b")) ex_c s') = bulk (str "one").
Proof.
  destruct (kv_reached two_es) as (o & c & s & R & E); [wf|vm_compute; reflexivity|].
  exists two_es, o, c, s, (fst (outs (packed_of s))), (snd (outs (packed_of s))), (got nothing (restarted (packed_of s))). split; [exact R|].
  split; [vm_compute; reflexivity|].
  split; [apply done_outs; refine (kv_probe (fun x => is_done (packed_of (snd (snd x)))) _ _ _ _ _ E _); vm_compute; reflexivity|].
  split.
  - apply (got_some nothing). refine (kv_probe (fun x => is_some (restarted (packed_of (snd (snd x))))) _ _ _ _ _ E _). vm_compute. reflexivity.
  - refine (kv_probe (fun x => fst (run_req ex_g adm 9 (QGet (str "b")) ex_c (got nothing (restarted (packed_of (snd (snd x))))))) _ _ _ _ _ E _).
    vm_compute. reflexivity.
Qed.
Print Assumptions C49_wrong_value_refuted.

(* FINDING.  A new key that is stored after the first data file was left makes the tool
   exit: the index says that its data is in file 0, of which the name is then spelled in
   the old way. *)
Theorem C49_second_file_refuted : exists es o c s, reached ex_g 5 ex_c es o c s /\ packed_of s = QExit.
Proof.
  destruct (kv_reached jumped) as (o & c & s & R & E); [wf|vm_compute; reflexivity|]. exists jumped, o, c, s. split; [exact R|].
  refine (kv_probe (fun x => packed_of (snd (snd x))) _ _ _ _ _ E _). vm_compute. reflexivity.
Qed.
Print Assumptions C49_second_file_refuted.

(* FINDING.  If the index is rebuilt from the data file that the tool has written, the
   keys that were deleted are back, with an empty value. *)
Definition rebuilt_index (p : packed (dir * dir)) : option est :=
  match rebuild MODE_KV 0 [] (map snd (snd (outs p))) with RDone s => Some s | _ => None end.
Definition rebuilt_start (p : packed (dir * dir)) : option est :=
  match rebuilt_index p with
  | Some r => start_on MODE_MIX 5 empty_table (server_index (dk_i (dk r))) (renamed (snd (outs p)) data_name)
  | None => None
  end.
Theorem C49_rebuilt_deleted_refuted : exists es o c s oi od r s', reached ex_g 5 ex_c es o c s /\
  kget (str "c") (kv_of ex_c es) = None /\
  packed_of s = QDone (oi, od) /\ rebuild MODE_KV 0 [] (map snd od) = RDone r /\
  start_on MODE_MIX 5 empty_table (server_index (dk_i (dk r))) (renamed od data_name) = Some s' /\
  map (fun k => fst (run_req ex_g adm 9 (QGet k) ex_c s')) [str "a"; str "b"; str "c"] = [bulk (str "one"); bulk (str "two"); bulk []].
Proof.
  destruct (kv_reached two_es) as (o & c & s & R & E); [wf|vm_compute; reflexivity|].
  exists two_es, o, c, s, (fst (outs (packed_of s))), (snd (outs (packed_of s))), (got nothing (rebuilt_index (packed_of s))), (got nothing (rebuilt_start (packed_of s))).
  split; [exact R|]. split; [vm_compute; reflexivity|].
  split; [apply done_outs; refine (kv_probe (fun x => is_done (packed_of (snd (snd x)))) _ _ _ _ _ E _); vm_compute; reflexivity|].
  assert (X1 : rebuilt_index (packed_of s) = Some (got nothing (rebuilt_index (packed_of s)))).
  { apply got_some. refine (kv_probe (fun x => is_some (rebuilt_index (packed_of (snd (snd x))))) _ _ _ _ _ E _). vm_compute. reflexivity. }
  assert (X2 : rebuilt_start (packed_of s) = Some (got nothing (rebuilt_start (packed_of s)))).
  { apply got_some. refine (kv_probe (fun x => is_some (rebuilt_start (packed_of (snd (snd x))))) _ _ _ _ _ E _). vm_compute. reflexivity. }
  split; [|split].
  - unfold rebuilt_index in X1 at 1. destruct (rebuild MODE_KV 0 [] (map snd (snd (outs (packed_of s))))); [congruence|discriminate X1|discriminate X1].
  - unfold rebuilt_start in X2 at 1. rewrite X1 in X2. exact X2.
  -
    assert (Y : gets (rebuilt_start (packed_of s)) [str "a"; str "b"; str "c"] = [bulk (str "one"); bulk (str "two"); bulk []]).
    { refine (kv_probe (fun x => gets (rebuilt_start (packed_of (snd (snd x)))) [str "a"; str "b"; str "c"]) _ _ _ _ _ E _). vm_compute. reflexivity. }
    rewrite X2 in Y. exact Y.
Qed.
Print Assumptions C49_rebuilt_deleted_refuted.

(* C49_files_compacted_partial is met in both ways: C49_second_file_refuted above, and
   two data files, when the keys in the second one are not new: the record in the second
   file is linked to the last one of the first. *)
Definition rewritten : list event :=
  [EReq rw 1 (QSet (str "a") (str "one") None); EReq adm 1 QJump; EReq rw 2 (QSet (str "a") (str "two") None)].
Example C49_ex_two_files : exists o c s, reached ex_g 5 ex_c rewritten o c s /\
  snd (outs (packed_of s)) =
    [(legacy_data_name 0, file_header 0 ++ enc_drec (mkDrec 1 0 0 0 DATA_ENTRY_TRUNCATED 1 (str "a")));
     (legacy_data_name 1, file_header 1 ++ enc_drec (mkDrec 1 3 28 (zdb_crc32 (str "two")) 0 2 (str "a")) ++ str "two")].
Proof.
  destruct (kv_reached rewritten) as (o & c & s & R & E); [wf|vm_compute; reflexivity|]. exists o, c, s. split; [exact R|].
  refine (kv_probe (fun x => snd (outs (packed_of (snd (snd x))))) _ _ _ _ _ E _). vm_compute. reflexivity.
Qed.
