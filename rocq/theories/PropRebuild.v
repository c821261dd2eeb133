(* PROPERTY C34: the index rebuilt from the data files. *)
From Coq Require Import Strings.String Strings.Byte List NArith Bool Lia.
From Verif Require Import Bytes Layout Store Text Commands System SpecKV Machine Reach CrashModel SpecFiles
  Rebuild SpecRebuild RebuildFacts PropKV PropScan PropFiles.
Import ListNotations.
Open Scope N_scope.

(* After any history of requests and restarts of a user-key namespace, the tool run
   over its data files succeeds, and the server loads the index files it made
   with the data files as they were: every key reads as before (GET, EXISTS,
   LENGTH, KEYTIME, CHECK), the counts are the same, and every later history is
   answered as the original namespace would have answered it. *)
Theorem C34_rebuild : forall g n c0 es o c s,
  reached g n c0 es o c s ->
  exists s1, rebuild MODE_KV 0 [] (dk_d (dk s)) = RDone s1 /\
    forall t, clear_of n t -> exists s2, loads g n t (dk_i (dk s1)) (dk_d (dk s)) s2 /\
      shows s2 (kv_of c0 es) /\ same_reads s s2 /\ same_future g s s2.
Proof. exact rebuild_all. Qed.
Print Assumptions C34_rebuild.

(* With a time limit, when the timestamps of the records do not go back: the
   namespace as of that time. *)
Theorem C34_rollback_in_time : forall g n c0 es o c s limit,
  reached g n c0 es o c s -> in_order (written_by es o) ->
  exists s1, rebuild MODE_KV limit [] (dk_d (dk s)) = RDone s1 /\
    forall t, clear_of n t -> exists s2, loads g n t (dk_i (dk s1)) (dk_d (dk s)) s2 /\
      shows s2 (replay (until limit (written_by es o))).
Proof. exact rebuild_until. Qed.
Print Assumptions C34_rollback_in_time.

(* a history over three files with an update and a deletion; the last record is the
   deletion of c at time 1007, so that a limit of 1006 shows c again *)
Example C34_ex : exists o c s, reached ex_g 5 ex_c log_es o c s /\ in_order (written_by log_es o) /\
  kv_of ex_c log_es = [(str "b", ([], 1001)); (str "a", (str "uno!", 1004)); (str "d", (str "dd", 1006))] /\
  replay (until 1006 (written_by log_es o)) =
    [(str "b", ([], 1001)); (str "c", (str "three", 1003)); (str "a", (str "uno!", 1004)); (str "d", (str "dd", 1006))] /\
  replay (until 1003 (written_by log_es o)) =
    [(str "a", (str "one", 1000)); (str "b", ([], 1001)); (str "c", (str "three", 1003))] /\
  clear_of 5 empty_table.
Proof.
  destruct (kv_reached log_es) as (o & c & s & R & E); [wf|vm_compute; reflexivity|]. exists o, c, s. split; [exact R|].
  assert (W : written_by log_es o = log_ws).
  { refine (kv_probe (fun x => written_by log_es (fst x)) _ _ _ _ _ E _); vm_compute; reflexivity. }
  rewrite W. split; [vm_compute; intuition discriminate|]. split; [vm_compute; reflexivity|]. split; [vm_compute; reflexivity|].
  split; [vm_compute; reflexivity|]. intros h e [].
Qed.

(* FINDING.  A pass that meets a record later than the limit ends there, and the
   tool goes on with the next file.  The deletion of a key whose record was left
   out then follows a null pointer. *)
Theorem C34_rollback_refuted : exists g n c0 es o c s limit,
  reached g n c0 es o c s /\ 0 < limit /\ rebuild MODE_KV limit [] (dk_d (dk s)) = RUb.
Proof.
  destruct (kv_reached [EReq adm 1 (QSet (str "a") (str "one") (Some 100)); EReq adm 2 QJump; EReq adm 3 (QDel (str "a") (Some 50))])
    as (o & c & s & R & E); [wf|reflexivity|].
  exists ex_g, 5, ex_c, [EReq adm 1 (QSet (str "a") (str "one") (Some 100)); EReq adm 2 QJump; EReq adm 3 (QDel (str "a") (Some 50))], o, c, s, 60.
  split; [exact R|]. split; [reflexivity|].
  refine (kv_probe (fun x => rebuild MODE_KV 60 [] (dk_d (dk (snd (snd x))))) _ _ _ _ _ E _). vm_compute. reflexivity.
Qed.
Print Assumptions C34_rollback_refuted.

(* ... or the value comes from the wrong side of the limit: the last write at or
   before time 60 is "two", the tool finds "one" *)
Definition late_es : list event :=
  [EReq adm 1 (QSet (str "a") (str "one") (Some 10)); EReq adm 2 (QSet (str "b") (str "x") (Some 100));
   EReq adm 3 (QSet (str "a") (str "two") (Some 20))].
Definition done_index (r : rebuilt) : list bytes := match r with RDone s => dk_i (dk s) | _ => [] end.
Definition is_done (r : rebuilt) : bool := match r with RDone _ => true | _ => false end.
Definition rolled (limit : N) (s : est) : option est :=
  store_open MODE_MIX 5 empty_table (mkDisk (done_index (rebuild MODE_KV limit [] (dk_d (dk s)))) (dk_d (dk s)) [] []).
Theorem C34_rollback_wrong_value_refuted : exists c0 es o c s limit s2,
  reached ex_g 5 c0 es o c s /\ is_done (rebuild MODE_KV limit [] (dk_d (dk s))) = true /\ rolled limit s = Some s2 /\
  kget (str "a") (replay (until limit (written_by es o))) = Some (str "two", 20) /\
  nth 0 (read_all s2 (str "a")) [] = bulk (str "one").
Proof.
  destruct (kv_reached late_es) as (o & c & s & R & E); [wf|reflexivity|].
  exists ex_c, late_es, o, c, s, 60, (got nothing (rolled 60 s)). split; [exact R|].
  split; [refine (kv_probe (fun x => is_done (rebuild MODE_KV 60 [] (dk_d (dk (snd (snd x)))))) _ _ _ _ _ E _); vm_compute; reflexivity|].
  split; [|split].
  - apply got_some. refine (kv_probe (fun x => is_some (rolled 60 (snd (snd x)))) _ _ _ _ _ E _). vm_compute. reflexivity.
  - refine (kv_probe (fun x => kget (str "a") (replay (until 60 (written_by late_es (fst x))))) _ _ _ _ _ E _). vm_compute. reflexivity.
  - refine (kv_probe (fun x => nth 0 (read_all (got nothing (rolled 60 (snd (snd x)))) (str "a")) []) _ _ _ _ _ E _). vm_compute. reflexivity.
Qed.
Print Assumptions C34_rollback_wrong_value_refuted.

(* FINDING.  The process dies after 9 bytes of a record of the data file; it is
   started again and a SET is accepted.  The server reads the value, but the tool
   takes the torn record and the beginning of the good one as one record, and exits. *)
Definition crashed : est :=
  got nothing (crash_req ex_g adm 5 (QSet (str "c") (str "torn") None) 0 9 ex_c (after 1 (QSet (str "a") (str "one") None) life0)).
Definition crashed1 : est := after 6 (QSet (str "e") (str "kept") None) crashed.
Lemma crashed_life : life life0 crashed1.
Proof. unfold crashed1. apply life_after. unfold crashed. apply life_died; [vm_compute; reflexivity|]. apply life_after. apply l_here. Qed.
Theorem C34_rebuild_after_crash_refuted : exists s0 s,
  store_open MODE_MIX 5 empty_table empty_disk = Some s0 /\ life s0 s /\
  nth 0 (read_all s (str "e")) [] = bulk (str "kept") /\
  is_done (rebuild MODE_KV 0 [] (dk_d (dk s))) = false.
Proof.
  exists life0, crashed1. split; [apply (got_some nothing); vm_compute; reflexivity|]. split; [exact crashed_life|].
  split; vm_compute; reflexivity.
Qed.
Print Assumptions C34_rebuild_after_crash_refuted.
