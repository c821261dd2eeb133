(* PROPERTIES of requests during which the disk refuses a write.  Vocabulary:
   SpecFaults.v, SpecFiles.v (with_outcomes), Reach.v. *)
From Coq Require Import List NArith Bool Strings.Byte Strings.String.
From Verif Require Import Bytes BytesFacts Layout Store Text Commands SpecKV SpecSeq SpecFiles Machine Reach SpecFaults
  CrashModel SeqReach UserReq KvFacts PropKV PropSeq FaultFacts FaultSeq.
Import ListNotations.
Open Scope N_scope.

(* Over any history in which the writes to data files fail now and then, part of the
   bytes reaching the disk or not, every reply is that of a map which ignores the
   requests that failed. *)
Theorem C35_failed_data_writes_are_ignored : forall g n c0 es o c s, freached g n c0 es o c s ->
  o = map enc_reply (fst (kv_frun es (c0, []))).
Proof. intros g n c0 es o c s R. exact (proj1 (freached_inv g n c0 es o c s R)). Qed.
Print Assumptions C35_failed_data_writes_are_ignored.

Theorem C35_every_history_runs : forall g n c0 es s0, settings_ok g -> Forall fevent_wf es -> created g n s0 ->
  ffiles_fit g es (c0, s0) -> exists o c s, freached g n c0 es o c s /\ run_fevents g es (c0, s0) = Some (o, (c, s)).
Proof. exact freached_total. Qed.
Print Assumptions C35_every_history_runs.

(* a SET or DEL whose data write fails is refused, no reply and no counter changes *)
Theorem C35_failed_data_write_partial : forall g n c0 es o c s io p now q, freached g n c0 es o c s ->
  nlen (dk_i (dk s)) < 2 ^ 32 -> data_fault io -> req_wf q -> match q with QSet _ _ _ | QDel _ _ => True | _ => False end ->
  let rf := run_req g p now q c (with_outcomes io s) in
  is_accept q (fst rf) = false /\ same_reads s (snd rf).
Proof. exact fault_no_effect. Qed.
Print Assumptions C35_failed_data_write_partial.

(* the same in sequential mode, after any history with crashes; a new file may only be
   started if the current one holds a record (see C05_empty_file_hides_an_identifier_refuted) *)
Theorem C35_failed_data_write_sequential_partial : forall g n c0 es o c s io p now q, sreached g n c0 es o c s ->
  nlen (dk_i (dk s)) < 2 ^ 32 -> data_fault io -> match q with QSet _ _ _ | QDel _ _ => True | _ => False end ->
  let rf := run_req g p now q c (with_outcomes io s) in
  (nlen (dk_i (dk s)) < nlen (dk_i (dk (snd rf))) -> settled s) ->
  sq_accept q (fst rf) = false /\ same_sreads s (snd rf) /\ x_nextentry (ix (snd rf)) = x_nextentry (ix s).
Proof. exact fault_no_effect_seq. Qed.
Print Assumptions C35_failed_data_write_sequential_partial.

(* the first SET of a key, whichever write fails *)
Theorem C35_failed_insertion_partial : forall g n c0 es o c s io p now k v ts, freached g n c0 es o c s ->
  nlen (dk_i (dk s)) < 2 ^ 32 -> kget k (snd (snd (kv_frun es (c0, [])))) = None ->
  let rf := run_req g p now (QSet k v ts) c (with_outcomes io s) in
  is_accept (QSet k v ts) (fst rf) = false -> same_reads s (snd rf).
Proof. exact insertion_no_effect. Qed.
Print Assumptions C35_failed_insertion_partial.

(* ---- the hypotheses can be met ---- *)
Definition fx_set (k v : string) : event := EReq rw 7 (QSet (str k) (str v) None).
Definition fx_get (k : string) : event := EReq ro 8 (QGet (str k)).
Definition fx_es : list fevent :=
  [FOk (fx_set "a" "one"); FBad [WFail 5] rw 9 (QSet (str "a") (str "two") None); FOk (fx_get "a");
   FBad [WOk; WFail 1] rw 9 (QSet (str "b") (str "two") None); FOk (fx_get "b");
   FBad [WFail 0] rw 9 (QDel (str "a") None); FOk ERestart; FOk (fx_get "a");
   FOk (fx_set "b" "three"); FBad [WFail 3] rw 9 (QSet (str "b") (str "three") None); FOk ERestart; FOk (fx_get "b")].

Lemma fx_wf : Forall fevent_wf fx_es.
Proof. repeat constructor; vm_compute; try discriminate; auto. Qed.

Lemma fx_run : exists o c s, freached ex_g 5 ex_c fx_es o c s /\ nlen (dk_i (dk s)) < 2 ^ 32.
Proof.
  destruct (created_total ex_g 5 ex_settings) as (s0 & C).
  assert (FF : ffiles_fit ex_g fx_es (ex_c, s0)).
  { apply (ffit_short ex_g 5 fx_es ex_settings fx_wf _ _ _ _ (created_inv _ _ _ ex_settings C)). reflexivity. }
  destruct (freached_total ex_g 5 ex_c fx_es s0 ex_settings fx_wf C FF) as (o & c & s & R & E).
  exists o, c, s. split; [exact R|]. apply (FF (List.length fx_es) o c s). now rewrite firstn_all.
Qed.

Example C35_faults_example : exists o c s, freached ex_g 5 ex_c fx_es o c s /\ nlen (dk_i (dk s)) < 2 ^ 32 /\
  o = [bulk (str "a"); hardsend "-Cannot write data right now"; bulk (str "one");
       hardsend "-Cannot write data right now"; hardsend "$-1"; hardsend "-Cannot delete key (data)"; bulk (str "one");
       bulk (str "b"); hardsend "$-1"; bulk (str "three")] /\
  kget (str "zz") (snd (snd (kv_frun fx_es (ex_c, [])))) = None.
Proof.
  destruct fx_run as (o & c & s & R & L). exists o, c, s. split; [exact R|]. split; [exact L|].
  split; [|vm_compute; reflexivity]. rewrite (C35_failed_data_writes_are_ignored _ _ _ _ _ _ _ R). vm_compute. reflexivity.
Qed.

(* an update whose value is written in part only *)
Definition fsq_io : list wout := [WOk; WFail 2].
Definition fsq_req : req := QSet (ident 0) (str "eins") None.
Definition fsq_view (x : list bytes * (nscfg * est)) : bool * N * bytes * bool * bytes :=
  let s := snd (snd x) in
  let rf := run_req ex_g rw 9 fsq_req (fst (snd x)) (with_outcomes fsq_io s) in
  (nlen (dk_i (dk s)) <? 2 ^ 32, nlen (dk_i (dk (snd rf))) - nlen (dk_i (dk s)), fst rf,
   blen (List.concat (dk_d (dk s))) <? blen (List.concat (dk_d (dk (snd rf)))),
   fst (run_req ex_g ro 9 (QGet (ident 0)) (fst (snd x)) (with_outcomes [] (snd rf)))).

Example C35_sequential_fault_example : exists o c s, sreached ex_g 5 ex_c (plain sq_es) o c s /\
  nlen (dk_i (dk s)) < 2 ^ 32 /\ data_fault fsq_io /\
  (nlen (dk_i (dk s)) < nlen (dk_i (dk (snd (run_req ex_g rw 9 fsq_req c (with_outcomes fsq_io s))))) -> settled s) /\
  fsq_view (o, (c, s)) = (true, 0, hardsend "-Cannot write data right now", true, bulk (str "uno")).
Proof.
  destruct sq_ex as (o & c & s & R & E). exists o, c, s. split; [exact R|].
  assert (V : fsq_view (o, (c, s)) = (true, 0, hardsend "-Cannot write data right now", true, bulk (str "uno"))).
  { refine (sq_probe fsq_view _ _ _ _ _ E _). vm_compute. reflexivity. }
  pose proof (f_equal (fun v => fst (fst (fst (fst v)))) V) as V1. pose proof (f_equal (fun v => snd (fst (fst (fst v)))) V) as V2.
  unfold fsq_view in V1, V2. cbn [fst snd] in V1, V2.
  split; [|split; [exact I|split; [|exact V]]].
  - now apply N.ltb_lt.
  - intros L. exfalso. revert V2 L. generalize (nlen (dk_i (dk s))). generalize (nlen (dk_i (dk (snd (run_req ex_g rw 9 fsq_req c (with_outcomes fsq_io s)))))).
    intros a b H1 H2. apply N.sub_0_le in H1. apply (N.lt_irrefl b). eapply N.lt_le_trans; eassumption.
Qed.

(* ---- the full statement is false when a write to an index file fails ---- *)

(* replies, then number of entries and bytes *)
Definition fx_run_from (es : list fevent) : option (list bytes * N * N) :=
  match store_open MODE_MIX 5 empty_table empty_disk with
  | Some s0 =>
      match run_fevents ex_g es (ex_c, s0) with
      | Some (o, (_, s)) => Some (o, x_entries (ix s), x_datasize (ix s))
      | None => None
      end
  | None => None
  end.

(* SET on an existing key is answered with an error and the key is gone, although it
   still counts, with the size of the value that was refused *)
Theorem C35_failed_overwrite_refuted :
  fx_run_from [FOk (fx_set "a" "one"); FBad [WOk; WOk; WOk; WFail 0] rw 9 (QSet (str "a") (str "second") None); FOk (fx_get "a")]
  = Some ([bulk (str "a"); hardsend "-Cannot write index right now"; hardsend "$-1"], 1, 6).
Proof. vm_compute. reflexivity. Qed.
Print Assumptions C35_failed_overwrite_refuted.

(* DEL is answered with an error and the key is gone until the next restart *)
Theorem C35_failed_delete_refuted :
  fx_run_from [FOk (fx_set "a" "one"); FBad [WOk; WOk; WFail 0] rw 9 (QDel (str "a") None); FOk (fx_get "a"); FOk ERestart; FOk (fx_get "a")]
  = Some ([bulk (str "a"); hardsend "-Cannot delete key (index)"; hardsend "$-1"; bulk (str "one")], 1, 3).
Proof. vm_compute. reflexivity. Qed.
Print Assumptions C35_failed_delete_refuted.

(* an index record cut in the middle: later requests are answered well, but the next
   restart does not get through the index file (the record is cut, what follows is
   read as part of it) *)
Definition torn_es (io : list wout) (e : list fevent) : list fevent :=
  [FOk (fx_set "a" "one"); FBad io rw 9 (QSet (str "b") (str "two") None); FOk (fx_set "c" "three"); FOk (fx_get "c")] ++ e.

Theorem C35_torn_index_write_refuted :
  fx_run_from (torn_es [WOk; WOk; WFail 10] []) =
    Some ([bulk (str "a"); hardsend "-Cannot write index right now"; bulk (str "c"); bulk (str "three")], 2, 8) /\
  fx_run_from (torn_es [WOk; WOk; WFail 10] [FOk ERestart]) = None /\
  fx_run_from (torn_es [WOk; WOk; WFail 0] [FOk ERestart]) =
    Some ([bulk (str "a"); hardsend "-Cannot write index right now"; bulk (str "c"); bulk (str "three")], 2, 8).
Proof. vm_compute. repeat split. Qed.
Print Assumptions C35_torn_index_write_refuted.
