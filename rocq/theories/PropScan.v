(* PROPERTIES C21, C22, C23 and C45: SCAN, RSCAN, KEYCUR and KSCAN. *)
From Coq Require Import Strings.String Strings.Byte List NArith ZArith Bool Permutation Lia.
From Verif Require Import Bytes BytesFacts Layout Store Text Commands SpecKV SpecSeq Machine Reach KvFacts
  CrashModel SeqReach SeqFacts Scan SpecScan ScanRun ScanTop ScanMix PropKV PropSeq.
Import ListNotations.
Open Scope N_scope.
Local Notation length := List.length.

(* ---- examples ---- *)
Definition run_kv (es : list event) : option (list bytes * (nscfg * est)) :=
  match store_open (g_mode ex_g) 5 empty_table empty_disk with
  | Some s0 => run_events ex_g es (ex_c, s0)
  | None => None
  end.

Lemma kv_reached es : Forall event_wf es -> nlen es < 1000 ->
  exists o c s, reached ex_g 5 ex_c es o c s /\ run_kv es = Some (o, (c, s)).
Proof.
  intros W L. unfold run_kv. destruct (store_open (g_mode ex_g) 5 empty_table empty_disk) as [s0|] eqn:O; [|discriminate O].
  assert (C : created ex_g 5 s0) by (exists empty_table; split; [intros h e []|exact O]).
  destruct (reached_total ex_g 5 ex_c es s0 ex_settings W C) as (o & c & s & R & E); [|eauto].
  apply (files_fit_created _ _ _ _ _ ex_settings W C). change (2 ^ 32 - 1) with 4294967295. lia.
Qed.

Lemma kv_probe {A} (f : list bytes * (nscfg * est) -> A) es o c s v : run_kv es = Some (o, (c, s)) ->
  option_map f (run_kv es) = Some v -> f (o, (c, s)) = v.
Proof. intros E X. rewrite E in X. cbn [option_map] in X. congruence. Qed.

Ltac wf := repeat constructor; vm_compute; try discriminate; auto.

(* a walk of SCAN over the namespace of the example *)
Definition answer (f : nat -> list bytes -> nscfg -> est -> option bytes) (slices : list nat) (cmd : bytes)
    (x : list bytes * (nscfg * est)) : option (list bytes) :=
  follow (fun n argv => f n argv (fst (snd x)) (snd (snd x))) cmd None slices.

(* ---- C21 ---- *)

(* user mode: the rows are the keys of the map with the length of their values and
   their timestamps, in the order of the last writes *)
Theorem C21_scan_user : forall g n c0 es o c s cmd,
  reached g n c0 es o c s -> is_frozen c = false ->
  walks (fun k argv => command_scan k argv c s) cmd None true (kv_of c0 es).
Proof. exact user_scan. Qed.
Print Assumptions C21_scan_user.

(* sequential mode: in the order of the identifiers *)
Theorem C21_scan_sequential : forall g n c0 es o c s cmd,
  sreached g n c0 (plain es) o c s -> is_frozen c = false -> nlen (dk_i (dk s)) < 2 ^ 32 ->
  walks (fun k argv => command_scan k argv c s) cmd None true (sq_map (sq_of_history c0 es)).
Proof. exact seq_scan. Qed.
Print Assumptions C21_scan_sequential.

(* every key comes once, and the walk ends, if each call has time for one entry *)
Theorem C21_walks_are_complete_partial : forall (slices : list nat) first (rows : kv),
  Forall (fun n => 1 <= n)%nat slices -> (length rows < length slices)%nat ->
  List.concat (chunks first slices rows) = rows /\ exists cs, chunks first slices rows = cs ++ [[]].
Proof. intros slices first rows. exact (chunks_complete slices first rows). Qed.
Print Assumptions C21_walks_are_complete_partial.

(* otherwise what comes is a beginning of the rows *)
Theorem C21_walks_are_prefixes : forall (slices : list nat) first (rows : kv),
  exists rest, rows = List.concat (chunks first slices rows) ++ rest.
Proof. intros slices first rows. exact (chunks_prefix slices first rows). Qed.
Print Assumptions C21_walks_are_prefixes.

Theorem C21_keys_are_distinct : forall c0 es, NoDup (map fst (kv_of c0 es)).
Proof. exact nodup_of. Qed.
Print Assumptions C21_keys_are_distinct.

(* KEYCUR gives the cursor of a key; from there SCAN returns the rows after the key and
   RSCAN the rows before it, in reverse *)
Theorem C21_keycur_user : forall g n c0 es o c s A k v B,
  reached g n c0 es o c s -> is_frozen c = false -> kv_of c0 es = A ++ (k, v) :: B -> resumes c s k A B.
Proof. exact user_keycur. Qed.
Print Assumptions C21_keycur_user.

Theorem C21_keycur_sequential : forall g n c0 es o c s A k v B,
  sreached g n c0 (plain es) o c s -> is_frozen c = false -> nlen (dk_i (dk s)) < 2 ^ 32 ->
  sq_map (sq_of_history c0 es) = A ++ (k, v) :: B -> resumes c s k A B.
Proof. exact seq_keycur. Qed.
Print Assumptions C21_keycur_sequential.

(* three files, an update, a deletion and an empty value *)
Definition scan_es : list event :=
  [EReq rw 1000 (QSet (str "a") (str "one") None);
   EReq rw 1001 (QSet (str "b") [] None);
   EReq adm 1002 QJump;
   EReq rw 1003 (QSet (str "c") (str "three") None);
   EReq rw 1004 (QSet (str "a") (str "uno!") None);
   EReq adm 1005 QJump;
   EReq rw 1006 (QSet (str "d") (str "dd") None);
   EReq rw 1007 (QDel (str "c") None);
   ERestart].

Example C21_ex : exists o c s, reached ex_g 5 ex_c scan_es o c s /\ is_frozen c = false /\ all_used (dk_i (dk s)) /\
  map fst (kv_of ex_c scan_es) = [str "b"; str "a"; str "d"] /\
  chunks true [1; 1; 3]%nat (kv_of ex_c scan_es) =
    [[(str "b", ([], 1001)); (str "a", (str "uno!", 1004))]; [(str "d", (str "dd", 1006))]; []].
Proof.
  destruct (kv_reached scan_es) as (o & c & s & R & E); [wf|reflexivity|]. exists o, c, s. split; [exact R|].
  split; [refine (kv_probe (fun x => is_frozen (fst (snd x))) _ _ _ _ _ E _); vm_compute; reflexivity|].
  split; [|split; vm_compute; reflexivity].
  right. assert (X : forallb (fun f => 29 <? blen f) (dk_i (dk s)) = true).
  { refine (kv_probe (fun x => forallb (fun f => 29 <? blen f) (dk_i (dk (snd (snd x))))) _ _ _ _ _ E _). vm_compute. reflexivity. }
  rewrite forallb_forall in X. intros f Hf. apply N.ltb_lt. now apply X.
Qed.

Example C21_ex_sequential : exists o c s, sreached ex_g 5 ex_c (plain sq_es) o c s /\ is_frozen c = false /\
  nlen (dk_i (dk s)) < 2 ^ 32 /\ nlen (sq_map (sq_of_history ex_c sq_es)) = 4.
Proof.
  destruct sq_ex as (o & c & s & R & E). exists o, c, s. split; [exact R|].
  split; [refine (sq_probe (fun x => is_frozen (fst (snd x))) _ _ _ _ _ E _); vm_compute; reflexivity|].
  split; [|vm_compute; reflexivity].
  apply N.ltb_lt. refine (sq_probe (fun x => nlen (dk_i (dk (snd (snd x)))) <? 2 ^ 32) _ _ _ _ _ E _). vm_compute. reflexivity.
Qed.

Example C21_ex_keycur : exists A v B, kv_of ex_c scan_es = A ++ (str "a", v) :: B /\ A <> [] /\ B <> [].
Proof. exists [(str "b", ([], 1001))], (str "uno!", 1004), [(str "d", (str "dd", 1006))]. split; [vm_compute; reflexivity|]. split; discriminate. Qed.

(* the full statement is false: a call that has no time for any entry answers that
   there is no more data, and the rest of the keys is never returned *)
Theorem C21_no_time_refuted : exists es o c s slices rs,
  reached ex_g 5 ex_c es o c s /\ is_frozen c = false /\
  follow (fun k argv => command_scan k argv c s) (str "SCAN") None slices = Some rs /\
  (exists rs', rs = rs' ++ [hardsend "-No more data"]) /\
  (length (List.concat (chunks true slices (kv_of ex_c es))) < length (kv_of ex_c es))%nat.
Proof.
  destruct (kv_reached scan_es) as (o & c & s & R & E); [wf|reflexivity|].
  assert (F : is_frozen c = false).
  { refine (kv_probe (fun x => is_frozen (fst (snd x))) _ _ _ _ _ E _). vm_compute. reflexivity. }
  destruct (user_scan _ _ _ _ _ _ _ (str "SCAN") R F [0; 0]%nat) as (rs & R1 & R2).
  exists scan_es, o, c, s, [0; 0]%nat, rs. split; [exact R|]. split; [exact F|]. split; [exact R1|]. split.
  - change (chunks true [0; 0]%nat (kv_of ex_c scan_es)) with [[(str "b", ([] : bytes, 1001))]; []] in R2.
    inversion R2 as [|? r1 ? rs1 H1 H2]; subst. inversion H2 as [|? r2 ? rs2 H3 H4]; subst. inversion H4; subst.
    cbn [scan_reply] in H3. subst r2. exists [r1]. reflexivity.
  - vm_compute. auto.
Qed.
Print Assumptions C21_no_time_refuted.

(* the full statement is false: a timestamp of 2^31 or more is sent as a negative number *)
Theorem C21_late_timestamp_refuted : exists es o c s,
  reached ex_g 5 ex_c es o c s /\ kv_of ex_c es = [(str "a", (str "one", 3000000000))] /\
  command_scan 1 [str "SCAN"] c s =
    Some (arrayhdr 2 ++ bulk (enc_bkey (mkBkey 1 0 3 29 1257247123)) ++ arrayhdr 1 ++
          str "*3" ++ CRLF ++ bulk (str "a") ++ str ":3" ++ CRLF ++ str ":-1294967296" ++ CRLF).
Proof.
  destruct (kv_reached [EReq adm 1000 (QSet (str "a") (str "one") (Some 3000000000))]) as (o & c & s & R & E); [wf|reflexivity|].
  exists [EReq adm 1000 (QSet (str "a") (str "one") (Some 3000000000))], o, c, s. split; [exact R|]. split; [vm_compute; reflexivity|].
  refine (kv_probe (fun x => command_scan 1 [str "SCAN"] (fst (snd x)) (snd (snd x))) _ _ _ _ _ E _). vm_compute. reflexivity.
Qed.
Print Assumptions C21_late_timestamp_refuted.

(* ---- C22 ---- *)

Theorem C22_rscan_user : forall g n c0 es o c s cmd,
  reached g n c0 es o c s -> is_frozen c = false -> all_used (dk_i (dk s)) ->
  walks (fun k argv => command_rscan k argv c s) cmd None true (rev (kv_of c0 es)).
Proof. exact user_rscan. Qed.
Print Assumptions C22_rscan_user.

Theorem C22_rscan_sequential : forall g n c0 es o c s cmd,
  sreached g n c0 (plain es) o c s -> is_frozen c = false -> nlen (dk_i (dk s)) < 2 ^ 32 -> all_used (dk_i (dk s)) ->
  walks (fun k argv => command_rscan k argv c s) cmd None true (rev (sq_map (sq_of_history c0 es))).
Proof. exact seq_rscan. Qed.
Print Assumptions C22_rscan_sequential.

Example C22_ex : exists o c s, reached ex_g 5 ex_c scan_es o c s /\ is_frozen c = false /\ all_used (dk_i (dk s)) /\
  rev (map fst (kv_of ex_c scan_es)) = [str "d"; str "a"; str "b"].
Proof.
  destruct C21_ex as (o & c & s & R & F & A & K & _). exists o, c, s. split; [exact R|]. split; [exact F|]. split; [exact A|].
  rewrite K. reflexivity.
Qed.

Definition rscan_sq : list event := [sq_ins "one"; sq_ins "two"; sq_jump; sq_ins "three"; sq_del 1].

Example C22_ex_sequential : exists o c s, sreached ex_g 5 ex_c (plain rscan_sq) o c s /\ is_frozen c = false /\
  nlen (dk_i (dk s)) < 2 ^ 32 /\ all_used (dk_i (dk s)) /\ nlen (sq_map (sq_of_history ex_c rscan_sq)) = 2.
Proof.
  destruct (sreached_ex (plain rscan_sq)) as (o & c & s & R & E); [vm_compute; reflexivity|]. exists o, c, s. split; [exact R|].
  split; [refine (sq_probe (fun x => is_frozen (fst (snd x))) _ _ _ _ _ E _); vm_compute; reflexivity|].
  split. { apply N.ltb_lt. refine (sq_probe (fun x => nlen (dk_i (dk (snd (snd x)))) <? 2 ^ 32) _ _ _ _ _ E _). vm_compute. reflexivity. }
  split; [|vm_compute; reflexivity].
  right. assert (X : forallb (fun f => 29 <? blen f) (dk_i (dk s)) = true).
  { refine (sq_probe (fun x => forallb (fun f => 29 <? blen f) (dk_i (dk (snd (snd x))))) _ _ _ _ _ E _). vm_compute. reflexivity. }
  rewrite forallb_forall in X. intros f Hf. apply N.ltb_lt. now apply X.
Qed.

(* outside the quantifier of C22: after a jump and before the next write RSCAN fails *)
Theorem C22_empty_file_refuted : exists es o c s,
  reached ex_g 5 ex_c es o c s /\ is_frozen c = false /\ kv_of ex_c es <> [] /\
  forall n, command_rscan n [str "RSCAN"] c s = Some (hardsend "-Internal Error").
Proof.
  destruct (kv_reached [EReq rw 1000 (QSet (str "a") (str "one") None); EReq adm 1001 QJump]) as (o & c & s & R & E); [wf|reflexivity|].
  exists [EReq rw 1000 (QSet (str "a") (str "one") None); EReq adm 1001 QJump], o, c, s. split; [exact R|].
  split. { refine (kv_probe (fun x => is_frozen (fst (snd x))) _ _ _ _ _ E _). vm_compute. reflexivity. }
  split; [vm_compute; discriminate|]. intros n.
  assert (F : is_frozen c = false).
  { refine (kv_probe (fun x => is_frozen (fst (snd x))) _ _ _ _ _ E _). vm_compute. reflexivity. }
  assert (X : option_map (fun sc => (match row_of sc with None => true | Some _ => false end, scan_failure sc)) (index_last_header (dk s) (ix s))
     = Some (true, hardsend "-Internal Error")).
  { refine (kv_probe (fun x => option_map (fun sc => (match row_of sc with None => true | Some _ => false end, scan_failure sc))
      (index_last_header (dk (snd (snd x))) (ix (snd (snd x))))) _ _ _ _ _ E _). vm_compute. reflexivity. }
  unfold command_rscan, scan_body. rewrite F. change (argc [str "RSCAN"] =? 1) with true. cbn iota.
  destruct (index_last_header (dk s) (ix s)) as [sc|]; [|discriminate]. cbn [option_map] in X.
  destruct (row_of sc); [discriminate|]. congruence.
Qed.
Print Assumptions C22_empty_file_refuted.

(* ---- C23 ---- *)

(* user mode: requests, restarts, jumps and changes of settings run between the calls of
   a walk; each call has time for one entry at least and the namespace is not locked
   read-write when it comes.  Every row is in the map when its call comes; a key nobody
   asks to write or delete during the walk comes at most once, with its value, exactly
   once if the walk ended, and never if it was not there *)
Theorem C23_walk_among_writes_partial : forall g n c0 es o c s cmd steps,
  reached g n c0 es o c s ->
  Forall event_wf (all_events steps) -> files_fit g (all_events steps) (c, s) ->
  Forall (fun x => 1 <= fst x)%nat steps ->
  Forall (fun st => is_frozen (fst st) = false) (moments steps (c, kv_of c0 es)) ->
  exists rs rowss,
    mixed (fun k argv st => command_scan k argv (fst st) (snd st))
      (fun es st => option_map snd (run_events g es st)) cmd None steps (c, s) = Some rs /\
    Forall2 scan_reply rowss rs /\
    Forall2 (fun rows st => incl rows (snd st)) rowss (firstn (length rowss) (moments steps (c, kv_of c0 es))) /\
    (forall k, (forall e, In e (all_events steps) -> ~ asks k e) ->
      match kget k (kv_of c0 es) with
      | None => rows_of k rowss = []
      | Some v => (rows_of k rowss = [] \/ rows_of k rowss = [(k, v)]) /\ (ended rowss -> rows_of k rowss = [(k, v)])
      end).
Proof. exact user_mixed. Qed.
Print Assumptions C23_walk_among_writes_partial.

(* the cursor is on a key that is deleted, another key is moved to the end by an update,
   a file is closed and the server restarts: b and e come once *)
Definition mix_es : list event :=
  [EReq rw 1000 (QSet (str "a") (str "one") None);
   EReq rw 1001 (QSet (str "b") (str "two") None);
   EReq rw 1002 (QSet (str "c") (str "three") None);
   EReq rw 1003 (QSet (str "d") (str "four") None);
   EReq rw 1004 (QSet (str "e") (str "five") None)].
Definition mix_steps : list (nat * list event) :=
  [(1%nat, [EReq rw 1005 (QDel (str "b") None); EReq rw 1006 (QSet (str "c") (str "drei") None); EReq adm 1007 QJump; ERestart]);
   (1%nat, [EReq rw 1008 (QSet (str "f") (str "six") None); EReq rw 1009 (QDel (str "d") None)]);
   (2%nat, []); (1%nat, []); (1%nat, [])].

Example C23_ex : exists o c s, reached ex_g 5 ex_c mix_es o c s /\ Forall event_wf (all_events mix_steps) /\
  files_fit ex_g (all_events mix_steps) (c, s) /\ Forall (fun x => 1 <= fst x)%nat mix_steps /\
  Forall (fun st => is_frozen (fst st) = false) (moments mix_steps (c, kv_of ex_c mix_es)) /\
  (forall e, In e (all_events mix_steps) -> ~ asks (str "e") e) /\
  kget (str "e") (kv_of ex_c mix_es) = Some (str "five", 1004) /\
  option_map (fun rs => (nlen rs, last rs [])) (mixed (fun k argv st => command_scan k argv (fst st) (snd st))
      (fun es st => option_map snd (run_events ex_g es st)) (str "SCAN") None mix_steps (c, s)) = Some (5, hardsend "-No more data").
Proof.
  destruct (kv_reached mix_es) as (o & c & s & R & E); [wf|reflexivity|]. exists o, c, s. split; [exact R|].
  split; [wf|]. assert (W : Forall event_wf (all_events mix_steps)) by wf.
  split; [eapply files_fit_reached; [exact R|exact W|]; apply N.ltb_lt;
    refine (kv_probe (fun x => nlen (dk_i (dk (snd (snd x)))) + nlen (all_events mix_steps) <? 2 ^ 32) _ _ _ _ _ E _); vm_compute; reflexivity|].
  split; [repeat constructor|].
  split; [replace c with ex_c by (symmetry; refine (kv_probe (fun x => fst (snd x)) _ _ _ _ _ E _); vm_compute; reflexivity);
    vm_compute; repeat constructor|].
  split; [|split; [vm_compute; reflexivity|]].
  - intros e He (p & now & ts & [(v & ->)| ->]); vm_compute in He; intuition discriminate.
  - refine (kv_probe (fun x => option_map (fun rs => (nlen rs, last rs [])) (mixed (fun k argv st => command_scan k argv (fst st) (snd st))
      (fun es st => option_map snd (run_events ex_g es st)) (str "SCAN") None mix_steps (snd x))) _ _ _ _ _ E _). vm_compute. reflexivity.
Qed.

Definition bad_es : list event := [sq_ins "one"; sq_ins "two"; sq_ins "three"].
Definition bad_steps : list (nat * list event) := [(1%nat, [sq_upd 1 "a longer value"]); (1%nat, []); (1%nat, [])].
Definition bad_rs : option (list bytes) := Eval vm_compute in
  match run_sq (plain bad_es) with
  | Some (_, st) => mixed (fun k argv st => command_scan k argv (fst st) (snd st))
      (fun es st => option_map snd (run_cevents ex_g (plain es) st)) (str "SCAN") None bad_steps st
  | None => None
  end.

(* the full statement is false in sequential mode: an update of the key the cursor is on
   makes the cursor invalid, and the keys after it are never returned *)
Theorem C23_sequential_refuted : exists es o c s steps r,
  sreached ex_g 5 ex_c (plain es) o c s /\ is_frozen c = false /\
  Forall event_wf (all_events steps) /\ Forall (fun x => 1 <= fst x)%nat steps /\
  (forall e, In e (all_events steps) -> ~ asks (ident 2) e) /\
  kget (ident 2) (sq_map (sq_of_history ex_c es)) = Some (str "three", 1) /\
  next_cursor r <> None /\
  mixed (fun k argv st => command_scan k argv (fst st) (snd st))
    (fun es st => option_map snd (run_cevents ex_g (plain es) st)) (str "SCAN") None steps (c, s) =
  Some [r; hardsend "-Invalid key format"].
Proof.
  destruct (sreached_ex (plain bad_es)) as (o & c & s & R & E); [vm_compute; reflexivity|].
  exists bad_es, o, c, s, bad_steps, (match bad_rs with Some (r :: _) => r | _ => [] end). split; [exact R|].
  split; [refine (sq_probe (fun x => is_frozen (fst (snd x))) _ _ _ _ _ E _); vm_compute; reflexivity|].
  split; [repeat constructor; vm_compute; discriminate|]. split; [repeat constructor|].
  split; [intros e He (p & now & ts & [(v & ->)| ->]); vm_compute in He; intuition discriminate|].
  split; [vm_compute; reflexivity|]. split; [vm_compute; discriminate|].
  refine (sq_probe (fun x => mixed (fun k argv st => command_scan k argv (fst st) (snd st))
    (fun es st => option_map snd (run_cevents ex_g (plain es) st)) (str "SCAN") None bad_steps (snd x)) _ _ _ _ _ E _).
  vm_compute. reflexivity.
Qed.
Print Assumptions C23_sequential_refuted.

(* ---- C45 ---- *)

(* KSCAN returns the keys that start with the prefix, each once *)
Theorem C45_kscan_returns_the_matching_keys : forall g n c0 es o c s b cmd p,
  reached g n c0 es o c s -> all_buckets b -> 0 < blen p -> 0 < blen cmd ->
  exists ks, command_kscan false b [cmd; p] s = kscan_reply ks /\
    Permutation ks (filter (starts p) (map fst (kv_of c0 es))).
Proof. exact user_kscan. Qed.
Print Assumptions C45_kscan_returns_the_matching_keys.

Example C45_ex : exists b o c s, all_buckets b /\ reached ex_g 5 ex_c scan_es o c s /\ 0 < blen (str "d") /\
  filter (starts (str "d")) (map fst (kv_of ex_c scan_es)) = [str "d"] /\
  command_kscan false [index_key_hash (str "a"); index_key_hash (str "d")] [str "KSCAN"; str "d"] s = kscan_reply [str "d"].
Proof.
  destruct buckets_exist as (b & B). destruct (kv_reached scan_es) as (o & c & s & R & E); [wf|reflexivity|].
  exists b, o, c, s. split; [exact B|]. split; [exact R|]. split; [reflexivity|]. split; [vm_compute; reflexivity|].
  refine (kv_probe (fun x => command_kscan false [index_key_hash (str "a"); index_key_hash (str "d")] [str "KSCAN"; str "d"] (snd (snd x))) _ _ _ _ _ E _).
  vm_compute. reflexivity.
Qed.
