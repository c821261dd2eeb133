(* PROPERTY C24: HISTORY. *)
From Coq Require Import Strings.String Strings.Byte List NArith ZArith Bool Lia Permutation.
From Verif Require Import Bytes BytesFacts Layout Store Text Commands System SpecKV Machine Reach KvFacts
  SpecScan ScanTop ScanMix Scan History SpecHist HistFacts PropKV PropScan.
Import ListNotations.
Open Scope N_scope.
Local Notation length := List.length.

(* The full statement is: for every reached state, not frozen, and every key that is
   there, the replies tell all the versions (all_told in place of told_but_oldest).  It
   is false (C24_refuted): the oldest version is read in the first data file wherever it
   was written.  All that is proved without a condition is that there are as many replies
   as versions, that each tells its version but the oldest, and that they stop. *)
Theorem C24_all_but_the_oldest_partial : forall g n c0 es o c s cmd k j,
  reached g n c0 es o c s -> is_frozen c = false -> kget k (kv_of c0 es) <> None ->
  (length (versions k c0 es) <= j)%nat ->
  exists rs, ask_versions (fun argv => command_history argv c s) cmd k None j = Some rs /\
    told_but_oldest (versions k c0 es) rs.
Proof. exact history_but_oldest. Qed.
Print Assumptions C24_all_but_the_oldest_partial.

(* All versions are told, in whatever files the later ones are, if the key was inserted
   while the namespace had a single index file *)
Theorem C24_history_partial : forall g n c0 es1 o1 c1 s1 es2 o2 c s cmd k j,
  reached g n c0 es1 o1 c1 s1 -> nlen (dk_i (dk s1)) = 1 ->
  Forall event_wf es2 -> files_fit g es2 (c1, s1) -> run_events g es2 (c1, s1) = Some (o2, (c, s)) ->
  stays k es2 (c1, kv_of c0 es1) -> is_frozen c = false -> (length (versions k c0 (es1 ++ es2)) <= j)%nat ->
  exists rs, ask_versions (fun argv => command_history argv c s) cmd k None j = Some rs /\
    all_told (versions k c0 (es1 ++ es2)) rs.
Proof. exact history_all. Qed.
Print Assumptions C24_history_partial.

(* a key that is not there has no history, even if it had one *)
Theorem C24_no_history : forall g n c0 es o c s cmd k,
  reached g n c0 es o c s -> is_frozen c = false -> blen k <= 255 -> kget k (kv_of c0 es) = None ->
  command_history [cmd; k] c s = Some (hardsend "-Key not found").
Proof. exact history_absent. Qed.
Print Assumptions C24_no_history.

Definition hist_es1 : list event :=
  [EReq rw 1000 (QSet (str "x") (str "other") None);
   EReq rw 1001 (QSet (str "a") (str "zero") None);
   EReq rw 1002 (QDel (str "a") None);
   EReq rw 1003 (QSet (str "a") (str "one") None)].
Definition hist_es2 : list event :=
  [EReq adm 1004 QJump;
   EReq rw 1005 (QSet (str "a") (str "two!") None);
   EReq rw 1006 (QSet (str "a") (str "two!") None);
   EReq rw 1007 (QDel (str "x") None);
   ERestart;
   EReq adm 1008 QJump;
   EReq rw 1009 (QSet (str "a") [] None)].

Example C24_ex : exists o1 c1 s1 o2 c s, reached ex_g 5 ex_c hist_es1 o1 c1 s1 /\ nlen (dk_i (dk s1)) = 1 /\
  Forall event_wf hist_es2 /\ files_fit ex_g hist_es2 (c1, s1) /\
  run_events ex_g hist_es2 (c1, s1) = Some (o2, (c, s)) /\
  stays (str "a") hist_es2 (c1, kv_of ex_c hist_es1) /\ is_frozen c = false /\
  versions (str "a") ex_c (hist_es1 ++ hist_es2) = [([], 1009); (str "two!", 1005); (str "one", 1003)] /\
  kget (str "x") (kv_of ex_c (hist_es1 ++ hist_es2)) = None.
Proof.
  destruct (kv_reached hist_es1) as (o1 & c1 & s1 & R & E); [wf|reflexivity|].
  assert (W2 : Forall event_wf hist_es2) by wf.
  assert (FF : files_fit ex_g hist_es2 (c1, s1)).
  { eapply files_fit_reached; [exact R|exact W2|]. apply N.ltb_lt.
    refine (kv_probe (fun x => nlen (dk_i (dk (snd (snd x)))) + nlen hist_es2 <? 2 ^ 32) _ _ _ _ _ E _). vm_compute. reflexivity. }
  destruct (run_only_total _ _ _ _ _ _ _ _ R W2 FF) as (o2 & c & s & E2).
  exists o1, c1, s1, o2, c, s. split; [exact R|].
  split; [refine (kv_probe (fun x => nlen (dk_i (dk (snd (snd x))))) _ _ _ _ _ E _); vm_compute; reflexivity|].
  split; [exact W2|]. split; [exact FF|]. split; [exact E2|].
  assert (Ec : c1 = ex_c) by (refine (kv_probe (fun x => fst (snd x)) _ _ _ _ _ E _); vm_compute; reflexivity).
  split; [rewrite Ec; vm_compute; repeat split; discriminate|].
  split; [|split; vm_compute; reflexivity].
  assert (X : option_map (fun x => is_frozen (fst (snd x))) (run_events ex_g hist_es2 (c1, s1)) = Some false).
  { refine (kv_probe (fun x => option_map (fun x => is_frozen (fst (snd x))) (run_events ex_g hist_es2 (snd x))) _ _ _ _ _ E _). vm_compute. reflexivity. }
  rewrite E2 in X. cbn [option_map fst snd] in X. congruence.
Qed.

(* the full statement is false: the first version of a key that was inserted in a later
   file is read in the first one, where it may be the value of another key *)
Definition bad_hist : list event :=
  [EReq rw 1000 (QSet (str "a") (str "my secret") None);
   EReq adm 1001 QJump;
   EReq rw 1002 (QSet (str "b") (str "my answer") None)].
Theorem C24_refuted : exists es o c s,
  reached ex_g 5 ex_c es o c s /\ is_frozen c = false /\
  versions (str "b") ex_c es = [(str "my answer", 1002)] /\
  ask_versions (fun argv => command_history argv c s) (str "HISTORY") (str "b") None 5 =
    Some [hist_reply None (str "my secret", 1002)].
Proof.
  destruct (kv_reached bad_hist) as (o & c & s & R & E); [wf|reflexivity|]. exists bad_hist, o, c, s. split; [exact R|].
  split; [refine (kv_probe (fun x => is_frozen (fst (snd x))) _ _ _ _ _ E _); vm_compute; reflexivity|].
  split; [vm_compute; reflexivity|].
  refine (kv_probe (fun x => ask_versions (fun argv => command_history argv (fst (snd x)) (snd (snd x))) (str "HISTORY") (str "b") None 5) _ _ _ _ _ E _).
  vm_compute. reflexivity.
Qed.
Print Assumptions C24_refuted.

(* ---- C16: the commands of this file and of PropScan.v in a frozen namespace ---- *)

Theorem C16_frozen_walks_reveal_nothing_partial : forall n argv c s s', n_lock c = 2 ->
  command_scan n argv c s = command_scan n argv c s' /\ command_rscan n argv c s = command_rscan n argv c s' /\
  command_keycur argv c s = command_keycur argv c s' /\ command_history argv c s = command_history argv c s'.
Proof. exact walks_frozen. Qed.
Print Assumptions C16_frozen_walks_reveal_nothing_partial.

Definition frozen_es : list event := scan_es ++ [ECfg (mkCfg (str "default") None true false 100 2)].

(* KSCAN lists the keys of a frozen namespace *)
Theorem C16_kscan_refuted : exists b es o c s, all_buckets b /\ reached ex_g 5 ex_c es o c s /\ n_lock c = 2 /\
  command_kscan false b [str "KSCAN"; str "d"] s = kscan_reply [str "d"].
Proof.
  destruct buckets_exist as (b & B). destruct (kv_reached frozen_es) as (o & c & s & R & E); [wf|reflexivity|].
  exists b, frozen_es, o, c, s. split; [exact B|]. split; [exact R|].
  split; [refine (kv_probe (fun x => n_lock (fst (snd x))) _ _ _ _ _ E _); vm_compute; reflexivity|].
  destruct (user_kscan _ _ _ _ _ _ _ b (str "KSCAN") (str "d") R B eq_refl eq_refl) as (ks & K1 & K2).
  change (filter (starts (str "d")) (map fst (kv_of ex_c frozen_es))) with [str "d"] in K2.
  apply Permutation_sym, Permutation_length_1_inv in K2. rewrite K1, K2. reflexivity.
Qed.
Print Assumptions C16_kscan_refuted.

(* DATA RAW returns values of a frozen namespace to an administrator *)
Theorem C16_data_raw_refuted : exists es o c s, reached ex_g 5 ex_c es o c s /\ n_lock c = 2 /\
  command_data adm [str "DATA"; str "RAW"; str "0"; str "28"] s =
  Some (arrayhdr 6 ++ bulk (str "a") ++ intreply 0 ++ bulk (str "0x4af01193") ++ intreply 0 ++ intreply 1000 ++ bulk (str "one")).
Proof.
  destruct (kv_reached frozen_es) as (o & c & s & R & E); [wf|reflexivity|].
  exists frozen_es, o, c, s. split; [exact R|].
  split; [refine (kv_probe (fun x => n_lock (fst (snd x))) _ _ _ _ _ E _); vm_compute; reflexivity|].
  refine (kv_probe (fun x => command_data adm [str "DATA"; str "RAW"; str "0"; str "28"] (snd (snd x))) _ _ _ _ _ E _).
  vm_compute. reflexivity.
Qed.
Print Assumptions C16_data_raw_refuted.
