(* PROPERTIES of sequential namespaces.  Vocabulary: SpecSeq.v (the machine handing
   out identifiers), SeqReach.v (reachable states, observations), Reach.v, CrashModel.v. *)
From Coq Require Import List NArith Bool Strings.Byte Strings.String Sorted Lia.
From Verif Require Import Bytes BytesFacts Layout Store Text Commands SpecKV SpecSeq Machine Reach CrashModel CrashSpec
  SeqMap KvFacts SeqReach SeqRun SeqFacts PropKV.
Import ListNotations.
Open Scope N_scope.

(* ---- histories used to show that the hypotheses can be met ---- *)
Definition sq_ins (v : string) : event := EReq rw 1 (QSet [] (str v) None).
Definition sq_upd (i : N) (v : string) : event := EReq rw 2 (QSet (ident i) (str v) None).
Definition sq_del (i : N) : event := EReq rw 3 (QDel (ident i) None).
Definition sq_get (i : N) : event := EReq rw 4 (QGet (ident i)).
Definition sq_jump : event := EReq adm 5 QJump.

Definition run_sq (es : list cevent) : option (list bytes * (nscfg * est)) :=
  match store_open MODE_SEQ 5 empty_table empty_disk with
  | Some s0 => run_cevents ex_g es (ex_c, s0)
  | None => None
  end.

Definition sq_checked (es : list cevent) : bool :=
  match store_open MODE_SEQ 5 empty_table empty_disk with Some s0 => calm_b ex_g es (ex_c, s0) | None => false end.

Lemma sq_ex_settings : sq_settings ex_g.
Proof. split; [now right|]. vm_compute. discriminate. Qed.

Lemma sreached_ex es : sq_checked es = true ->
  exists o c s, sreached ex_g 5 ex_c es o c s /\ run_sq es = Some (o, (c, s)).
Proof.
  unfold sq_checked, run_sq. intros A. destruct (store_open MODE_SEQ 5 empty_table empty_disk) as [s0|] eqn:O; [|discriminate].
  apply calm_b_ok in A. assert (C : sq_created 5 s0) by (exists empty_table; split; [intros h e []|exact O]).
  destruct (sreached_total _ _ ex_c es s0 sq_ex_settings C A) as (o & c & s & R).
  exists o, c, s. split; [|exact R]. split; [apply sq_ex_settings|]. exists s0. auto.
Qed.

Lemma sq_probe {A} (f : list bytes * (nscfg * est) -> A) es o c s v : run_sq es = Some (o, (c, s)) ->
  option_map f (run_sq es) = Some v -> f (o, (c, s)) = v.
Proof. intros E X. rewrite E in X. cbn [option_map] in X. congruence. Qed.

(* insertions, updates, a deletion, an update of a deleted identifier, jumps, restarts *)
Definition sq_es : list event :=
  [sq_ins "one"; sq_ins "two"; sq_upd 0 "uno"; sq_upd 0 "uno"; sq_jump; sq_ins "three"; sq_del 1; sq_upd 1 "x";
   ERestart; sq_upd 3 "tres"; sq_ins ""; sq_jump; sq_ins "six"; ERestart; sq_get 0; sq_get 1; sq_get 3; sq_get 5; sq_get 6; sq_get 7;
   EReq ro 9 (QSet [] (str "no") None)].

Lemma sq_ex : exists o c s, sreached ex_g 5 ex_c (plain sq_es) o c s /\ run_sq (plain sq_es) = Some (o, (c, s)).
Proof. apply sreached_ex. vm_compute. reflexivity. Qed.

(* ---- C05 ---- *)

(* every insertion is answered with a number greater than all those before, even
   across restarts and crashes *)
Theorem C05_identifiers_are_fresh : forall g n c0 es o c s, sreached g n c0 es o c s ->
  exists L, handed_out (combine (crequests es) o) = map (fun i => bulk (ident i)) L /\
    StronglySorted N.lt L /\ Forall (fun i => i < 2 ^ 64) L.
Proof. exact ids_fresh. Qed.
Print Assumptions C05_identifiers_are_fresh.

Theorem C05_identifiers_never_repeat : forall g n c0 es o c s, sreached g n c0 es o c s ->
  NoDup (handed_out (combine (crequests es) o)).
Proof. exact ids_nodup. Qed.
Print Assumptions C05_identifiers_never_repeat.

Theorem C05_replies_are_those_of_the_machine : forall g n c0 es o c s,
  sreached g n c0 (plain es) o c s -> o = map enc_reply (fst (sq_run es (c0, sq_empty))).
Proof. intros g n c0 es o c s R. exact (proj1 (splain_inv _ _ _ _ _ _ _ R)). Qed.
Print Assumptions C05_replies_are_those_of_the_machine.

(* GET in terms of the requests and their replies only *)
Theorem C05_get_returns_last_accepted_write : forall g n c0 es o c s p now k,
  sreached g n c0 (plain es) o c s -> req_calm g p now (QGet k) c s -> 0 < blen k -> blen k <= 255 -> n_lock c <> 2 ->
  fst (run_req g p now (QGet k) c s) =
  match sq_last k (combine (requests es) o) None with Some v => bulk v | None => hardsend "$-1" end.
Proof. exact sget_last. Qed.
Print Assumptions C05_get_returns_last_accepted_write.

(* the run never gets stuck *)
Theorem C05_every_history_runs : forall g n c0 es s0, sq_settings g -> sq_created n s0 -> calm g es (c0, s0) ->
  exists o c s, run_cevents g es (c0, s0) = Some (o, (c, s)).
Proof. exact sreached_total. Qed.
Print Assumptions C05_every_history_runs.

Example C05_example : exists o c s, sreached ex_g 5 ex_c (plain sq_es) o c s /\
  o = [bulk (ident 0); bulk (ident 1); bulk (ident 0); hardsend "$-1"; hardsend "+OK"; bulk (ident 3); hardsend "+OK";
       hardsend "-Invalid key, only update authorized"; bulk (ident 3); bulk (ident 5); hardsend "+OK"; bulk (ident 6);
       bulk (str "uno"); hardsend "$-1"; bulk (str "tres"); bulk []; bulk (str "six"); hardsend "$-1";
       hardsend "-Namespace is in read-only mode"].
Proof.
  destruct sq_ex as (o & c & s & R & E). exists o, c, s. split; [exact R|].
  refine (sq_probe fst _ _ _ _ _ E _). vm_compute. reflexivity.
Qed.

(* outside the quantifier of C05: when a file is left empty (two jumps in a row), the
   next identifier cannot be read *)
Theorem C05_empty_file_hides_an_identifier_refuted : exists es,
  Forall event_wf es /\
  option_map fst (run_sq (plain (es ++ [sq_ins "two"; sq_get 1]))) =
    Some [bulk (ident 0); hardsend "+OK"; hardsend "+OK"; bulk (ident 1); hardsend "$-1"].
Proof.
  exists [sq_ins "one"; sq_jump; sq_jump]. split; [repeat constructor; vm_compute; discriminate|]. vm_compute. reflexivity.
Qed.
Print Assumptions C05_empty_file_hides_an_identifier_refuted.

(* ---- C06 ---- *)

(* missing for the full statement: restarts that find the current index file empty *)
Theorem C06_restart_is_invisible_partial : forall g n n' c0 es o c s o' c' s',
  sreached g n c0 (plain es) o c s -> sreached g n' c0 (plain (strip es)) o' c' s' ->
  never_locked es -> n_lock c0 = 0 ->
  o = o' /\ c = c' /\ same_sreads s' s /\ x_nextentry (ix s) = x_nextentry (ix s').
Proof. exact srestart_invisible. Qed.
Print Assumptions C06_restart_is_invisible_partial.

(* what is stored reads the same after any restart, empty current file or not, and
   the next identifier is the same *)
Theorem C06_stored_values_survive_any_restart : forall g n c0 es o c s, sreached g n c0 es o c s ->
  exists s', reopen g s = Some s' /\ same_sreads s s' /\ x_nextentry (ix s') = x_nextentry (ix s).
Proof. exact one_srestart. Qed.
Print Assumptions C06_stored_values_survive_any_restart.

Example C06_example : exists o c s o' c' s', sreached ex_g 5 ex_c (plain sq_es) o c s /\
  sreached ex_g 5 ex_c (plain (strip sq_es)) o' c' s' /\ never_locked sq_es /\ n_lock ex_c = 0 /\ strip sq_es <> sq_es.
Proof.
  destruct sq_ex as (o & c & s & R & E). destruct (sreached_ex (plain (strip sq_es))) as (o' & c' & s' & R' & _); [vm_compute; reflexivity|].
  exists o, c, s, o', c', s'. split; [exact R|]. split; [exact R'|]. split; [repeat constructor|]. split; [reflexivity|discriminate].
Qed.

(* the full statement is false: after a jump and a restart, the identifier handed out
   next is not readable; without the restart it is *)
Theorem C06_restart_after_jump_refuted : exists es,
  Forall event_wf es /\ never_locked es /\ n_lock ex_c = 0 /\
  option_map fst (run_sq (plain (strip es))) = Some [bulk (ident 0); hardsend "+OK"; bulk (ident 1); bulk (str "two")] /\
  option_map fst (run_sq (plain es)) = Some [bulk (ident 0); hardsend "+OK"; bulk (ident 1); hardsend "$-1"].
Proof.
  exists [sq_ins "one"; sq_jump; ERestart; sq_ins "two"; sq_get 1].
  split; [repeat constructor; vm_compute; discriminate|]. split; [repeat constructor|]. split; [reflexivity|].
  split; vm_compute; reflexivity.
Qed.
Print Assumptions C06_restart_after_jump_refuted.

(* ---- C07 ---- *)

(* missing for the full statement: the point between the creation of an index file
   and the write of its header (false there, see below) *)
Theorem C07_crash_shows_old_or_new_partial : forall g n c0 es o c s p now q j t,
  sreached g n c0 es o c s -> req_calm g p now q c s ->
  between_writes (new_writes (dk s) (dk (snd (run_req g p now q c s)))) j t ->
  exists s', crash_req g p now q j t c s = Some s' /\
    (same_sreads s s' \/ same_sreads (snd (run_req g p now q c s)) s').
Proof. exact one_scrash. Qed.
Print Assumptions C07_crash_shows_old_or_new_partial.

Theorem C07_other_identifiers_unchanged_partial : forall g n c0 es o c s p now q j t,
  sreached g n c0 es o c s -> req_calm g p now q c s ->
  between_writes (new_writes (dk s) (dk (snd (run_req g p now q c s)))) j t ->
  exists s', crash_req g p now q j t c s = Some s' /\
    forall i, i < x_nextentry (ix s) -> target q <> Some (ident i) ->
      read_all s' (ident i) = read_all s (ident i) /\
      read_all (snd (run_req g p now q c s)) (ident i) = read_all s (ident i).
Proof. exact scrash_others. Qed.
Print Assumptions C07_other_identifiers_unchanged_partial.

(* whole histories with crashes *)
Theorem C07_histories_with_crashes_partial : forall g n c0 es o c s, sreached g n c0 es o c s ->
  exists r st, o = map enc_reply r /\ sc_run es (c0, sq_empty) r (c, st) /\
    forall k, key_asked (sq_next st) k -> read_all s k = reads_of (sq_map st) k.
Proof. exact scrash_refines. Qed.
Print Assumptions C07_histories_with_crashes_partial.

(* crashes inside a data write, before and after the index writes of an update, of an
   insertion and of a deletion, and in a jump, with work after each *)
Definition sq_crashes : list cevent :=
  plain [sq_ins "one"; sq_ins "two"] ++
  [CCrash rw 3 (QSet [] (str "three") None) 0 7; CCrash rw 3 (QSet [] (str "three") None) 1 2;
   CCrash rw 3 (QSet [] (str "three") None) 2 0; CCrash rw 3 (QSet [] (str "three") None) 3 0;
   CCrash rw 4 (QSet (ident 0) (str "uno") None) 2 0; CCrash rw 4 (QSet (ident 0) (str "uno") None) 3 0;
   CCrash rw 4 (QSet (ident 0) (str "eins") None) 4 0;
   CCrash rw 5 (QDel (ident 1) None) 2 0; CCrash rw 5 (QDel (ident 1) None) 3 0; CCrash adm 6 QJump 0 0] ++
  plain [sq_jump; sq_ins "last"; sq_get 0; sq_get 1; sq_get 2; sq_get 3; sq_get 4; sq_get 5].

Example C07_example : exists o c s, sreached ex_g 5 ex_c sq_crashes o c s /\
  o = [bulk (ident 0); bulk (ident 1); hardsend "+OK"; bulk (ident 5); bulk (str "eins"); hardsend "$-1"; bulk (str "three");
       hardsend "$-1"; hardsend "$-1"; bulk (str "last")].
Proof.
  destruct (sreached_ex sq_crashes) as (o & c & s & R & E); [vm_compute; reflexivity|]. exists o, c, s. split; [exact R|].
  refine (sq_probe fst _ _ _ _ _ E _). vm_compute. reflexivity.
Qed.

(* the full statement is false at the remaining point: the restart succeeds and an
   insertion is accepted, but the restart after that fails *)
Theorem C07_index_file_without_header_refuted : exists es,
  (exists o c s, sreached ex_g 5 ex_c es o c s /\ run_sq es = Some (o, (c, s))) /\
  (exists o c s, run_sq (es ++ [CCrash adm 8 QJump 1 0; CEv (sq_ins "b")]) = Some (o, (c, s))) /\
  run_sq (es ++ [CCrash adm 8 QJump 1 0; CEv (sq_ins "b"); CEv ERestart]) = None.
Proof.
  exists (plain [sq_ins "one"]). split; [|split].
  - apply sreached_ex. vm_compute. reflexivity.
  - destruct (run_sq _) as [[o [c s]]|] eqn:E; [eauto|]. exfalso. revert E. vm_compute. discriminate.
  - vm_compute. reflexivity.
Qed.
Print Assumptions C07_index_file_without_header_refuted.

(* outside the quantifier: an index record overwritten in part is neither the old nor
   the new one *)
Theorem C07_torn_overwrite_refuted : exists t,
  option_map fst (run_sq (plain [sq_ins "twotwo"] ++ [CCrash rw 2 (QSet (ident 0) (str "uno!") None) 3 t; CEv (sq_get 0)]))
  = Some [bulk (ident 0); hardsend "-Internal Error"].
Proof. exists 4. vm_compute. reflexivity. Qed.
Print Assumptions C07_torn_overwrite_refuted.

(* ---- C08: any list of starts, any identifier ---- *)
Theorem C08_search_finds_the_greatest_start : forall f m id, nondec ((0, f) :: m) ->
  exists p, index_seqmap_from_seq ((0, f) :: m) id = Some p /\ In p ((0, f) :: m) /\ fst p <= id /\
    forall q, In q ((0, f) :: m) -> fst q <= id -> fst q <= fst p.
Proof. exact search_greatest. Qed.
Print Assumptions C08_search_finds_the_greatest_start.

Example C08_example : let m := [(0, 0); (3, 1); (10, 2); (17, 3); (40, 4)] in
  map (index_seqmap_from_seq m) [0; 2; 3; 9; 10; 39; 40; 18446744073709551615]
  = [Some (0, 0); Some (0, 0); Some (3, 1); Some (3, 1); Some (10, 2); Some (17, 3); Some (40, 4); Some (40, 4)].
Proof. vm_compute. reflexivity. Qed.

(* the map of a running namespace meets the hypothesis *)
Theorem C08_file_starts_are_sorted : forall g n c0 es o c s, sreached g n c0 es o c s ->
  exists m, x_seq (ix s) = Some ((0, 0) :: m) /\ nondec ((0, 0) :: m).
Proof. exact map_sorted. Qed.
Print Assumptions C08_file_starts_are_sorted.

Example C08_example_map : exists o c s, sreached ex_g 5 ex_c (plain sq_es) o c s /\
  x_seq (ix s) = Some [(0, 0); (0, 0); (3, 1); (6, 2)].
Proof.
  destruct sq_ex as (o & c & s & R & E). exists o, c, s. split; [exact R|].
  refine (sq_probe (fun x => x_seq (ix (snd (snd x)))) _ _ _ _ _ E _). vm_compute. reflexivity.
Qed.

(* ---- C09 ---- *)

(* missing for the full statement: keys of one hundred million and above that were
   never handed out *)
Theorem C09_unknown_identifiers_read_as_absent_partial : forall g n c0 es o c s k,
  sreached g n c0 (plain es) o c s -> blen k = 8 -> x_nextentry (ix s) <= unle k -> unle k < 100000000 ->
  read_all s k = reads_of [] k.
Proof. exact sunknown. Qed.
Print Assumptions C09_unknown_identifiers_read_as_absent_partial.

Example C09_example : exists o c s, sreached ex_g 5 ex_c (plain sq_es) o c s /\ blen (ident 99999999) = 8 /\
  x_nextentry (ix s) <= unle (ident 99999999) /\ unle (ident 99999999) < 100000000.
Proof.
  destruct sq_ex as (o & c & s & R & E). exists o, c, s. split; [exact R|]. split; [reflexivity|].
  assert (X : x_nextentry (ix s) = 7).
  { refine (sq_probe (fun x => x_nextentry (ix (snd (snd x)))) _ _ _ _ 7 E _). vm_compute. reflexivity. }
  rewrite X. vm_compute. split; [discriminate|reflexivity].
Qed.

(* the full statement is false: offsets are computed on 32 bits, so the key 2^31 reads
   and deletes record 0 *)
Theorem C09_aliased_key_refuted :
  option_map fst (run_sq (plain [sq_ins "one"; sq_get (2 ^ 31); sq_del (2 ^ 31); sq_get 0])) =
  Some [bulk (ident 0); bulk (str "one"); hardsend "+OK"; hardsend "$-1"].
Proof. vm_compute. reflexivity. Qed.
Print Assumptions C09_aliased_key_refuted.

(* ---- C13, C14, C15, C35 in sequential mode ---- *)
Theorem C13_quota_sequential : forall g n c0 es o c s p now k v ts,
  sreached g n c0 (plain es) o c s -> req_calm g p now (QSet k v ts) c s ->
  n_maxsize c <> 0 -> n_maxsize c + 2 ^ 32 <= 2 ^ 64 -> ksize (sq_map (sq_of_history c0 es)) + 2 ^ 32 <= 2 ^ 64 ->
  let r := fst (run_req g p now (QSet k v ts) c s) in
  let m := sq_map (sq_of_history c0 es) in
  let m' := sq_map (snd (sq_step p now c (QSet k v ts) (sq_of_history c0 es))) in
  (sq_accept (QSet k v ts) r = true -> ksize m' <= n_maxsize c /\ ksize m' + oldlen k m = ksize m + blen v) /\
  (r = hardsend "-No space left on this namespace" -> n_maxsize c < ksize m + blen v - oldlen k m /\ m' = m).
Proof. exact squota. Qed.
Print Assumptions C13_quota_sequential.

Example C13_example_sequential : exists o c s, sreached ex_g 5 ex_c (plain sq_es) o c s /\ n_maxsize c = 100 /\
  req_calm ex_g rw 0 (QSet (ident 0) (repeat x41 90) None) c s /\
  fst (run_req ex_g rw 0 (QSet (ident 0) (repeat x41 93) None) c s) = bulk (ident 0) /\
  fst (run_req ex_g rw 0 (QSet (ident 0) (repeat x41 94) None) c s) = hardsend "-No space left on this namespace".
Proof.
  destruct sq_ex as (o & c & s & R & E). exists o, c, s. split; [exact R|].
  split; [refine (sq_probe (fun x => n_maxsize (fst (snd x))) _ _ _ _ _ E _); vm_compute; reflexivity|].
  split; [apply req_calm_b_ok; refine (sq_probe (fun x => req_calm_b ex_g rw 0 (QSet (ident 0) (repeat x41 90) None) (fst (snd x)) (snd (snd x))) _ _ _ _ _ E _); vm_compute; reflexivity|].
  split; [refine (sq_probe (fun x => fst (run_req ex_g rw 0 (QSet (ident 0) (repeat x41 93) None) (fst (snd x)) (snd (snd x)))) _ _ _ _ _ E _); vm_compute; reflexivity|].
  refine (sq_probe (fun x => fst (run_req ex_g rw 0 (QSet (ident 0) (repeat x41 94) None) (fst (snd x)) (snd (snd x)))) _ _ _ _ _ E _); vm_compute; reflexivity.
Qed.

Theorem C14_counters_are_exact_sequential : forall g n c0 es o c s, sreached g n c0 (plain es) o c s ->
  x_entries (ix s) = kcount (sq_map (sq_of_history c0 es)) mod 2 ^ 64 /\
  x_datasize (ix s) = ksize (sq_map (sq_of_history c0 es)) mod 2 ^ 64.
Proof. exact scount. Qed.
Print Assumptions C14_counters_are_exact_sequential.

Example C14_example_sequential : kcount (sq_map (sq_of_history ex_c sq_es)) = 4 /\ ksize (sq_map (sq_of_history ex_c sq_es)) = 10.
Proof. vm_compute. split; reflexivity. Qed.

Theorem C15_worm_keeps_every_identifier : forall g n c0 es o c s ws,
  sreached g n c0 (plain es) o c s -> n_worm c = true -> only_requests ws -> calm g (plain ws) (c, s) ->
  exists o' s', run_cevents g (plain ws) (c, s) = Some (o', (c, s')) /\
    forall k, key_asked (x_nextentry (ix s)) k -> command_exists [str "EXISTS"; k] open_cfg s = intreply 1 ->
      read_all s' k = read_all s k.
Proof. exact sworm_history. Qed.
Print Assumptions C15_worm_keeps_every_identifier.

Example C15_example_sequential : exists o c s, sreached ex_g 5 ex_c (plain (sq_es ++ [ECfg worm_c])) o c s /\ n_worm c = true /\
  calm ex_g (plain [sq_upd 0 "other"; sq_del 0; sq_ins "new"]) (c, s) /\
  command_exists [str "EXISTS"; ident 0] open_cfg s = intreply 1.
Proof.
  destruct (sreached_ex (plain (sq_es ++ [ECfg worm_c]))) as (o & c & s & R & E); [vm_compute; reflexivity|].
  exists o, c, s. split; [exact R|].
  split; [refine (sq_probe (fun x => n_worm (fst (snd x))) _ _ _ _ _ E _); vm_compute; reflexivity|].
  split; [apply calm_b_ok; refine (sq_probe (fun x => calm_b ex_g (plain [sq_upd 0 "other"; sq_del 0; sq_ins "new"]) (snd x)) _ _ _ _ _ E _); vm_compute; reflexivity|].
  refine (sq_probe (fun x => command_exists [str "EXISTS"; ident 0] open_cfg (snd (snd x))) _ _ _ _ _ E _); vm_compute; reflexivity.
Qed.

(* no write error here *)
Theorem C35_refused_requests_change_nothing_sequential_partial : forall g n c0 es o c s p now q,
  sreached g n c0 es o c s -> req_calm g p now q c s -> sq_accept q (fst (run_req g p now q c s)) = false ->
  same_sreads s (snd (run_req g p now q c s)) /\ x_nextentry (ix (snd (run_req g p now q c s))) = x_nextentry (ix s).
Proof. exact srefused. Qed.
Print Assumptions C35_refused_requests_change_nothing_sequential_partial.

Example C35_example_sequential : exists o c s, sreached ex_g 5 ex_c (plain sq_es) o c s /\
  req_calm ex_g rw 0 (QSet (ident 1) (str "x") None) c s /\
  sq_accept (QSet (ident 1) (str "x") None) (fst (run_req ex_g rw 0 (QSet (ident 1) (str "x") None) c s)) = false.
Proof.
  destruct sq_ex as (o & c & s & R & E). exists o, c, s. split; [exact R|].
  split; [apply req_calm_b_ok; refine (sq_probe (fun x => req_calm_b ex_g rw 0 (QSet (ident 1) (str "x") None) (fst (snd x)) (snd (snd x))) _ _ _ _ _ E _); vm_compute; reflexivity|].
  refine (sq_probe (fun x => sq_accept (QSet (ident 1) (str "x") None) (fst (run_req ex_g rw 0 (QSet (ident 1) (str "x") None) (fst (snd x)) (snd (snd x))))) _ _ _ _ _ E _).
  vm_compute. reflexivity.
Qed.
