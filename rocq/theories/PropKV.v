(* PROPERTIES of user-key namespaces.  Vocabulary: SpecKV.v (the map machine),
   Reach.v (reachable states and observations). *)
From Coq Require Import List NArith Bool Strings.Byte Strings.String.
From Verif Require Import Bytes BytesFacts Layout Store Text Commands SpecKV Machine Reach KvFacts.
Import ListNotations.
Open Scope N_scope.

(* a history used below to show that the hypotheses can be met: overwrites, an
   equal overwrite, a deletion, jumps, restarts, an empty key, a read-only client *)
Definition ex_g : settings := mkSettings MODE_MIX 1000.
Definition ex_c : nscfg := mkCfg (str "default") None true false 100 0.
Definition rw : perm := mkPerm false true.
Definition ro : perm := mkPerm false false.
Definition adm : perm := mkPerm true true.
Definition ex_es : list event :=
  [EReq rw 1000 (QSet (str "a") (str "one") None);
   EReq rw 1001 (QSet (str "b") [] None);
   EReq rw 1002 (QSet (str "a") (str "two!") None);
   EReq rw 1003 (QSet (str "a") (str "two!") None);
   EReq adm 1004 QJump;
   EReq ro 1005 (QSet (str "a") (str "no") None);
   EReq rw 1006 (QSet [] (str "x") None);
   ERestart;
   EReq adm 1007 (QSet (str "c") (str "xyz") (Some 77));
   EReq rw 1008 (QDel (str "b") None);
   EReq rw 1009 (QDel (str "b") None);
   ERestart;
   EReq ro 1010 (QMget [str "a"; str "b"; str "c"]);
   EReq ro 1011 (QKeytime (str "c"));
   EReq ro 1012 QDbsize].

Lemma ex_settings : settings_ok ex_g.
Proof. split; [now right|]. vm_compute. discriminate. Qed.

Lemma ex_wf : Forall event_wf ex_es.
Proof. repeat constructor; vm_compute; try discriminate; auto. Qed.

Lemma ex_run : exists o c s, reached ex_g 5 ex_c ex_es o c s.
Proof.
  destruct (created_total ex_g 5 ex_settings) as (s0 & C).
  destruct (reached_total ex_g 5 ex_c ex_es s0 ex_settings ex_wf C) as (o & c & s & R & _); [|eauto].
  apply (files_fit_created _ _ _ _ _ ex_settings ex_wf C). reflexivity.
Qed.

Theorem C01_replies_are_those_of_a_map : forall g n c0 es o c s,
  reached g n c0 es o c s -> o = map enc_reply (fst (kv_run es (c0, []))).
Proof. intros g n c0 es o c s R. exact (proj1 (reached_inv g n c0 es o c s R)). Qed.
Print Assumptions C01_replies_are_those_of_a_map.

(* the run never gets stuck *)
Theorem C01_every_history_runs : forall g n c0 es, settings_ok g -> Forall event_wf es ->
  exists s0, created g n s0 /\
    (files_fit g es (c0, s0) -> exists o c s, run_events g es (c0, s0) = Some (o, (c, s))).
Proof.
  intros g n c0 es Hg W. destruct (created_total g n Hg) as (s0 & C). exists s0. split; [exact C|].
  intros FF. destruct (reached_total g n c0 es s0 Hg W C FF) as (o & c & s & _ & R). exists o, c, s. exact R.
Qed.
Print Assumptions C01_every_history_runs.

(* GET in terms of the requests and their replies only *)
Theorem C01_get_returns_last_accepted_write : forall g n c0 es o c s p now k,
  reached g n c0 es o c s -> 0 < blen k -> blen k <= 255 -> n_lock c <> 2 ->
  fst (run_req g p now (QGet k) c s) =
  match last_write k (combine (requests es) o) None with Some v => bulk v | None => hardsend "$-1" end.
Proof. exact get_last_write. Qed.
Print Assumptions C01_get_returns_last_accepted_write.

Theorem C01_file_numbers_fit : forall g n s0 c es, settings_ok g -> Forall event_wf es -> created g n s0 ->
  nlen es < 2 ^ 32 - 1 -> files_fit g es (c, s0).
Proof. exact files_fit_created. Qed.
Print Assumptions C01_file_numbers_fit.

Example C01_example : exists o c s, reached ex_g 5 ex_c ex_es o c s /\
  o = [bulk (str "a"); bulk (str "b"); bulk (str "a"); hardsend "$-1"; hardsend "+OK";
       hardsend "-Namespace is in read-only mode"; hardsend "-Invalid argument, key needed";
       bulk (str "c"); hardsend "+OK"; hardsend "-Key not found";
       arrayhdr 3 ++ bulk (str "two!") ++ hardsend "$-1" ++ bulk (str "xyz");
       intreply 77; intreply 2].
Proof.
  destruct ex_run as (o & c & s & R). exists o, c, s. split; [exact R|].
  rewrite (C01_replies_are_those_of_a_map _ _ _ _ _ _ _ R). vm_compute. reflexivity.
Qed.

(* the model itself computes the same bytes (colliding namespaces, fresh table) *)
Example C01_example_model :
  match store_open MODE_MIX 5 empty_table empty_disk with
  | Some s0 => match run_events ex_g ex_es (ex_c, s0) with
               | Some (o, _) => o = map enc_reply (fst (kv_run ex_es (ex_c, [])))
               | None => False
               end
  | None => False
  end.
Proof. vm_compute. reflexivity. Qed.

Theorem C02_restart_is_invisible : forall g n n' c0 es o c s o' c' s',
  reached g n c0 es o c s -> reached g n' c0 (strip es) o' c' s' ->
  never_locked es -> n_lock c0 = 0 ->
  o = o' /\ c = c' /\ same_reads s' s.
Proof. exact restart_invisible. Qed.
Print Assumptions C02_restart_is_invisible.

Example C02_example : exists o c s o' c' s', reached ex_g 5 ex_c ex_es o c s /\
  reached ex_g 5 ex_c (strip ex_es) o' c' s' /\ never_locked ex_es /\ n_lock ex_c = 0 /\
  strip ex_es <> ex_es.
Proof.
  destruct ex_run as (o & c & s & R). exists o, c, s.
  assert (W : Forall event_wf (strip ex_es)) by (repeat constructor; vm_compute; try discriminate; auto).
  destruct (created_total ex_g 5 ex_settings) as (s0 & C).
  destruct (reached_total ex_g 5 ex_c (strip ex_es) s0 ex_settings W C) as (o' & c' & s' & R' & _).
  { apply (files_fit_created _ _ _ _ _ ex_settings W C). reflexivity. }
  exists o', c', s'. split; [exact R|]. split; [exact R'|]. split; [repeat constructor|]. split; [reflexivity|discriminate].
Qed.

Theorem C12_offsets_fit : forall g n c0 es o c s v, reached g n c0 es o c s -> blen v <= 8388608 ->
  let s1 := if g_datasize g <? dsize (dk s) (d_dataid (dt s)) + blen v then jump_next s else s in
  dsize (dk s1) (d_dataid (dt s1)) < 2 ^ 32 /\ isize (dk s1) (x_indexid (ix s1)) < 2 ^ 32.
Proof. exact offsets_fit. Qed.
Print Assumptions C12_offsets_fit.

(* the location kept for a key is the place where its record lies *)
Theorem C12_locations_are_exact : forall g n c0 es o c s k v ts,
  reached g n c0 es o c s -> kget k (kv_of c0 es) = Some (v, ts) ->
  exists e file, index_get s k = Some e /\ dfile (dk s) (e_dataid e) = Some file /\
    fread file (e_off e + 18) (blen k) = k /\ fread file (e_off e + 18 + blen k) (e_len e) = v /\
    e_off e < 2 ^ 32 /\ e_idxoff e < 2 ^ 32.
Proof. exact located. Qed.
Print Assumptions C12_locations_are_exact.

Example C12_example : exists o c s, reached ex_g 5 ex_c ex_es o c s /\
  kget (str "a") (kv_of ex_c ex_es) = Some (str "two!", 1002).
Proof. destruct ex_run as (o & c & s & R). exists o, c, s. split; [exact R|reflexivity]. Qed.

(* an accepted SET fits in the quota and is charged the difference; a SET refused
   for lack of space does not fit and changes nothing *)
Theorem C13_quota : forall g n c0 es o c s p now k v ts,
  reached g n c0 es o c s -> req_wf (QSet k v ts) ->
  n_maxsize c <> 0 -> n_maxsize c + 2 ^ 32 <= 2 ^ 64 -> ksize (kv_of c0 es) + 2 ^ 32 <= 2 ^ 64 ->
  let r := fst (run_req g p now (QSet k v ts) c s) in
  let m := kv_of c0 es in
  let m' := kv_of c0 (es ++ [EReq p now (QSet k v ts)]) in
  (r = bulk k -> ksize m' <= n_maxsize c /\ ksize m' + oldlen k m = ksize m + blen v) /\
  (r = hardsend "-No space left on this namespace" -> n_maxsize c < ksize m + blen v - oldlen k m /\ m' = m).
Proof. exact quota. Qed.
Print Assumptions C13_quota.

Definition big : bytes := repeat x41 98.
Example C13_example : exists o c s, reached ex_g 5 ex_c ex_es o c s /\ n_maxsize c = 100 /\
  fst (run_req ex_g rw 0 (QSet (str "a") (repeat x41 97) None) c s) = bulk (str "a") /\
  fst (run_req ex_g rw 0 (QSet (str "a") big None) c s) = hardsend "-No space left on this namespace".
Proof.
  destruct ex_run as (o & c & s & R). exists o, c, s. split; [exact R|].
  destruct (reached_inv _ _ _ _ _ _ _ R) as (_ & Hc & _).
  assert (HC : c = ex_c) by (rewrite Hc; reflexivity). subst c. split; [reflexivity|].
  destruct (reached_req _ _ _ _ _ _ _ rw 0 (QSet (str "a") (repeat x41 97) None) R) as (? & ? & ? & ? & _ & _ & E & _).
  { split; [vm_compute; discriminate|exact I]. }
  destruct (reached_req _ _ _ _ _ _ _ rw 0 (QSet (str "a") big None) R) as (? & ? & ? & ? & _ & _ & E' & _).
  { split; [vm_compute; discriminate|exact I]. }
  rewrite E, E'. split; vm_compute; reflexivity.
Qed.

Theorem C14_counters_are_exact : forall g n c0 es o c s, reached g n c0 es o c s ->
  x_entries (ix s) = kcount (kv_of c0 es) mod 2 ^ 64 /\ x_datasize (ix s) = ksize (kv_of c0 es) mod 2 ^ 64.
Proof. exact counters. Qed.
Print Assumptions C14_counters_are_exact.

Example C14_example : exists o c s, reached ex_g 5 ex_c ex_es o c s /\
  kcount (kv_of ex_c ex_es) = 2 /\ ksize (kv_of ex_c ex_es) = 7.
Proof. destruct ex_run as (o & c & s & R). exists o, c, s. split; [exact R|split; reflexivity]. Qed.

Theorem C15_worm_keeps_every_key : forall g n c0 es o c s ws,
  reached g n c0 es o c s -> n_worm c = true ->
  only_requests ws -> Forall event_wf ws -> files_fit g ws (c, s) ->
  exists o' c' s', run_events g ws (c, s) = Some (o', (c', s')) /\
    forall k, command_exists [str "EXISTS"; k] open_cfg s = intreply 1 -> read_all s' k = read_all s k.
Proof. exact worm_keeps. Qed.
Print Assumptions C15_worm_keeps_every_key.

Definition worm_c : nscfg := mkCfg (str "w") None true true 0 0.
Definition worm_ws : list event :=
  [EReq adm 1 (QSet (str "a") (str "other") (Some 3)); EReq adm 2 (QDel (str "a") None);
   EReq rw 3 (QSet (str "d") (str "new") None)].
Example C15_example : exists o c s, reached ex_g 5 ex_c (ex_es ++ [ECfg worm_c]) o c s /\ n_worm c = true /\
  only_requests worm_ws /\ Forall event_wf worm_ws /\
  command_exists [str "EXISTS"; str "a"] open_cfg s = intreply 1.
Proof.
  assert (W : Forall event_wf (ex_es ++ [ECfg worm_c])) by (repeat constructor; vm_compute; try discriminate; auto).
  destruct (created_total ex_g 5 ex_settings) as (s0 & C).
  destruct (reached_total ex_g 5 ex_c (ex_es ++ [ECfg worm_c]) s0 ex_settings W C) as (o & c & s & R & _).
  { apply (files_fit_created _ _ _ _ _ ex_settings W C). reflexivity. }
  exists o, c, s. split; [exact R|]. destruct (reached_inv _ _ _ _ _ _ _ R) as (_ & Hc & gi & H & U & E & _).
  split; [rewrite Hc; reflexivity|]. split; [repeat constructor|].
  split; [repeat constructor; vm_compute; try discriminate; auto|].
  pose proof (read_all_spec _ _ _ _ (str "a") U) as RA. rewrite E in RA. unfold read_all in RA.
  injection RA as _ RA _ _ _. rewrite RA. reflexivity.
Qed.

(* any state, reachable or not, any argument list, any client *)
Theorem C16_locked_or_frozen_no_change : forall g p now argv c s, n_lock c = 1 \/ n_lock c = 2 ->
  snd (command_set g p now argv c s) = s /\ snd (command_del p now argv c s) = s.
Proof. intros g p now argv c s H. exact (conj (set_denied g p now argv c s ltac:(tauto)) (del_denied p now argv c s ltac:(tauto))). Qed.
Print Assumptions C16_locked_or_frozen_no_change.

(* replies of a frozen namespace do not depend on its contents.  SCAN, RSCAN, KEYCUR and
   HISTORY are in PropHist.v; the full statement, for every command, is false of KSCAN
   and DATA RAW (C16_kscan_refuted, C16_data_raw_refuted there) *)
Theorem C16_frozen_reveals_nothing_partial : forall argv c s s', n_lock c = 2 ->
  command_get argv c s = command_get argv c s' /\ command_mget argv c s = command_mget argv c s' /\
  command_exists argv c s = command_exists argv c s' /\ command_check argv c s = command_check argv c s' /\
  command_length argv c s = command_length argv c s' /\ command_keytime argv c s = command_keytime argv c s'.
Proof.
  intros argv c s s' H. exact (conj (read_frozen argv c _ _ H) (conj (mget_frozen argv c s s' H)
    (conj (read_frozen argv c _ _ H) (conj (read_frozen argv c _ _ H) (conj (read_frozen argv c _ _ H) (read_frozen argv c _ _ H)))))).
Qed.
Print Assumptions C16_frozen_reveals_nothing_partial.

Example C16_example : fst (command_set ex_g adm 0 [str "SET"; str "k"; str "v"] (mkCfg [] None true false 0 1)
    (mkEst empty_table (index_init_lazy MODE_KV 0) (mkData 0 0) empty_disk))
  = hardsend "-Namespace is temporarily locked (read-only)".
Proof. reflexivity. Qed.

Theorem C17_read_only_sessions_change_nothing : forall g p now argv c s, p_writable p = false ->
  snd (command_set g p now argv c s) = s /\ snd (command_del p now argv c s) = s.
Proof. intros g p now argv c s H. exact (conj (set_denied g p now argv c s ltac:(tauto)) (del_denied p now argv c s ltac:(tauto))). Qed.
Print Assumptions C17_read_only_sessions_change_nothing.

(* no write error here; the case of a failing disk write is in PropFaults.v *)
Theorem C35_refused_requests_change_nothing_partial : forall g n c0 es o c s p now q,
  reached g n c0 es o c s -> req_wf q ->
  is_accept q (fst (run_req g p now q c s)) = false -> same_reads s (snd (run_req g p now q c s)).
Proof. exact refused_no_effect. Qed.
Print Assumptions C35_refused_requests_change_nothing_partial.

Example C35_example : exists o c s, reached ex_g 5 ex_c ex_es o c s /\
  is_accept (QSet (str "a") (str "two!") None) (fst (run_req ex_g rw 0 (QSet (str "a") (str "two!") None) c s)) = false /\
  is_accept (QSet (str "a") big None) (fst (run_req ex_g rw 0 (QSet (str "a") big None) c s)) = false /\
  is_accept (QDel (str "zz") None) (fst (run_req ex_g rw 0 (QDel (str "zz") None) c s)) = false.
Proof.
  destruct ex_run as (o & c & s & R). exists o, c, s. split; [exact R|].
  destruct (reached_inv _ _ _ _ _ _ _ R) as (_ & Hc & _).
  assert (HC : c = ex_c) by (rewrite Hc; reflexivity). subst c.
  destruct (reached_req _ _ _ _ _ _ _ rw 0 (QSet (str "a") (str "two!") None) R) as (? & ? & ? & ? & _ & _ & E & _).
  { split; [vm_compute; discriminate|exact I]. }
  destruct (reached_req _ _ _ _ _ _ _ rw 0 (QSet (str "a") big None) R) as (? & ? & ? & ? & _ & _ & E' & _).
  { split; [vm_compute; discriminate|exact I]. }
  destruct (reached_req _ _ _ _ _ _ _ rw 0 (QDel (str "zz") None) R I) as (? & ? & ? & ? & _ & _ & E'' & _).
  rewrite E, E', E''. repeat split; vm_compute; reflexivity.
Qed.

(* any state *)
Theorem C37_mget_is_a_list_of_gets : forall ks c s, ks <> [] ->
  Forall (fun k => 0 < blen k /\ blen k <= 255) ks -> n_lock c <> 2 ->
  command_mget (str "MGET" :: ks) c s
  = arrayhdr (nlen ks) ++ List.concat (map (fun k => command_get [str "GET"; k] c s) ks).
Proof. exact mget_gets. Qed.
Print Assumptions C37_mget_is_a_list_of_gets.
