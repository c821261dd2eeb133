(* PROPERTIES of the tools.  Vocabulary: SpecTools.v. *)
From Coq Require Import Strings.String Strings.Byte List NArith Bool Lia.
From Verif Require Import Bytes BytesFacts Crc32 Layout Store Text Commands System SpecKV Machine Reach CrashModel
  SpecSeq SeqReach SpecFiles SpecCheck Rebuild Tools SpecTools ToolFacts UserRun KvFacts SeqRun SeqFacts PropKV PropScan PropSeq PropFiles.
Import ListNotations.
Open Scope N_scope.
Local Notation length := List.length.

(* ---- C48: integrity-check ---- *)

(* The data files of a namespace are the log of what was written.  If in one of them
   any number of values are damaged, each within four consecutive bytes, the pass over
   the file finds exactly that number; none if the file is as written. *)
Theorem C48_damage_counted_user : forall g n c0 es o c s, reached g n c0 es o c s ->
  exists files, log_of (dk_d (dk s)) files (written_by es o) /\
    forall f rows, nth_error files f = Some rows -> counts_damage (N.of_nat f) rows.
Proof. exact counts_user. Qed.
Print Assumptions C48_damage_counted_user.

Theorem C48_damage_counted_sequential : forall g n c0 es o c s, sreached g n c0 (plain es) o c s ->
  exists files, log_of (dk_d (dk s)) files (written_by es o) /\
    forall f rows, nth_error files f = Some rows -> counts_damage (N.of_nat f) rows.
Proof. exact counts_seq. Qed.
Print Assumptions C48_damage_counted_sequential.

(* the exit status of the program, for a directory where the name it is given exists and
   the file of that number is the damaged one *)
Theorem C48_exit_status_partial : forall d f rows b k, f < 2 ^ 32 ->
  dget (str "zdb-data-" ++ dec f) d <> None -> dget (data_name f) d = Some (file_header f ++ b) ->
  counts_damage f rows -> damage rows b k ->
  integrity_check d (str "zdb-data-" ++ dec f) = Some (k mod 256).
Proof. exact tool_status. Qed.
Print Assumptions C48_exit_status_partial.

(* A file which does not start with the mark and the version of a data file, or is shorter
   than its header, is refused. *)
Theorem C48_other_files : forall d f file, f < 2 ^ 32 ->
  dget (str "zdb-data-" ++ dec f) d <> None -> dget (data_name f) d = Some file ->
  (blen file < 28 \/ nfirst 8 file <> str "DAT0" ++ le 4 3) ->
  integrity_check d (str "zdb-data-" ++ dec f) = Some 1.
Proof. exact foreign_file. Qed.
Print Assumptions C48_other_files.

Example C48_other_files_example : let d := [(str "zdb-data-0", []); (str "d0", str "IDX0" ++ le 4 3 ++ le 8 0 ++ le 8 0 ++ le 4 0)] in
  dget (str "zdb-data-" ++ dec 0) d <> None /\ option_map blen (dget (data_name 0) d) = Some 28 /\
  option_map (nfirst 8) (dget (data_name 0) d) <> Some (str "DAT0" ++ le 4 3) /\
  integrity_check [(str "zdb-data-0", []); (str "d0", file_header 0)] (str "zdb-data-0") = Some 0.
Proof. split; [vm_compute; discriminate|]. split; [reflexivity|]. split; [vm_compute; discriminate|vm_compute; reflexivity]. Qed.

(* FINDING.  The program only takes names that start with zdb-data-, the files of the
   server are called d0, d1, ...: in the directory of a namespace every name is refused
   with exit status 1, whatever the files contain. *)
Theorem C48_server_files_refuted : forall ds name, integrity_check (server_data ds) name = Some 1.
Proof. exact refused_all. Qed.
Print Assumptions C48_server_files_refuted.

(* the first byte of every value is changed *)
Definition spoil1 (v : bytes) : bytes := match v with [] => [] | b :: t => (if Byte.eqb b x00 then x01 else x00) :: t end.
Fixpoint spoil (rows : list (N * wrote)) : bytes :=
  match rows with
  | [] => []
  | (p, w) :: t => (rec_front p w ++ spoil1 (w_value w)) ++ spoil t
  end.

Lemma spoil_burst v : v <> [] -> burst v (spoil1 v).
Proof.
  destruct v as [|b t]; [congruence|]. intros _. exists [], [b], [if Byte.eqb b x00 then x01 else x00], t. cbn [spoil1 app].
  split; [reflexivity|]. split; [reflexivity|]. split; [reflexivity|]. split; [cbn [List.length]; lia|]. intros [=X]. destruct (Byte.eqb b x00) eqn:E; rewrite <- X in E; discriminate E.
Qed.

Lemma spoil_damage rows : Forall (fun x => w_value (snd x) <> []) rows -> damage rows (spoil rows) (nlen rows).
Proof.
  induction 1 as [|[p w] t W F IH]; cbn [spoil nlen]; [constructor|].
  rewrite <- N.add_1_r. apply dm_hit; auto. now apply spoil_burst.
Qed.

(* FINDING.  The number of errors is the exit status, of which the system keeps 8 bits:
   a file with 256 damaged values is reported as sound. *)
Definition big_g : settings := mkSettings MODE_MIX 100000.
Definition run_big (es : list event) : option (list bytes * (nscfg * est)) :=
  match store_open (g_mode big_g) 5 empty_table empty_disk with
  | Some s0 => run_events big_g es (ex_c, s0)
  | None => None
  end.
Lemma big_settings : settings_ok big_g.
Proof. split; [right; reflexivity|discriminate]. Qed.
Lemma big_reached es : Forall event_wf es -> nlen es < 1000 ->
  exists o c s, reached big_g 5 ex_c es o c s /\ run_big es = Some (o, (c, s)).
Proof.
  intros W L. unfold run_big. destruct (store_open (g_mode big_g) 5 empty_table empty_disk) as [s0|] eqn:O; [|discriminate O].
  assert (C : created big_g 5 s0) by (exists empty_table; split; [intros h e []|exact O]).
  destruct (reached_total big_g 5 ex_c es s0 big_settings W C) as (o & c & s & R & E); [|eauto].
  apply (files_fit_created _ _ _ _ _ big_settings W C). change (2 ^ 32 - 1) with 4294967295. lia.
Qed.
Lemma big_probe {A} (f : list bytes * (nscfg * est) -> A) es o c s v : run_big es = Some (o, (c, s)) ->
  option_map f (run_big es) = Some v -> f (o, (c, s)) = v.
Proof. intros E X. rewrite E in X. cbn [option_map] in X. congruence. Qed.

Definition two_sets : list event :=
  [EReq rw 7 (QSet (str "a") (str "x") None); EReq rw 8 (QSet (str "a") (str "y") None)].
Definition many_es : list event := List.concat (repeat two_sets 128).
Definition many_ws : list wrote :=
  List.concat (repeat [mkWrote (str "a") (str "x") 7 false; mkWrote (str "a") (str "y") 8 false] 128).
Fixpoint link_up (p off : N) (ws : list wrote) : list (N * wrote) :=
  match ws with [] => [] | w :: t => (p, w) :: link_up off (off + rec_size w) t end.
Definition many_rows : list (N * wrote) := link_up 0 28 many_ws.

Theorem C48_exit_status_refuted : exists c0 es o c s rows b,
  reached big_g 5 c0 es o c s /\ log_of (dk_d (dk s)) [rows] (written_by es o) /\
  damage rows b 256 /\
  integrity_check [(str "zdb-data-0", []); (str "d0", file_header 0 ++ b)] (str "zdb-data-0") = Some 0.
Proof.
  destruct (big_reached many_es) as (o & c & s & R & E); [wf|vm_compute; reflexivity|].
  exists ex_c, many_es, o, c, s, many_rows, (spoil many_rows). split; [exact R|]. split.
  { split; [|split].
    - refine (big_probe (fun x => dk_d (dk (snd (snd x)))) _ _ _ _ _ E _). vm_compute. reflexivity.
    - transitivity many_ws; [vm_compute; reflexivity|]. symmetry.
      refine (big_probe (fun x => written_by many_es (fst x)) _ _ _ _ _ E _). vm_compute. reflexivity.
    - constructor; [|constructor]. vm_compute. repeat split. }
  split.
  - change 256 with (nlen many_rows). apply spoil_damage. apply Forall_forall. intros x Hx.
    assert (X : forallb (fun y => negb (bseqb (w_value (snd y)) [])) many_rows = true) by (vm_compute; reflexivity).
    rewrite forallb_forall in X. specialize (X x Hx). intros Z. rewrite Z in X. discriminate X.
  - vm_compute. reflexivity.
Qed.
Print Assumptions C48_exit_status_refuted.

(* three files; the second one holds the values "three" and "uno!" *)
Definition hurt_rows : bytes :=
  (rec_front 50 (nth 2 log_ws (mkWrote [] [] 0 false)) ++ str "thREe") ++ rec_bytes 28 (nth 3 log_ws (mkWrote [] [] 0 false)) ++ [].
Example C48_ex : exists o c s, reached ex_g 5 ex_c log_es o c s /\
  log_of (dk_d (dk s)) log_files (written_by log_es o) /\
  damage (nth 1 log_files []) hurt_rows 1 /\
  data_integrity (file_header 1 ++ hurt_rows) = KReturn 1 /\
  map data_integrity (dk_d (dk s)) = [KReturn 0; KReturn 0; KReturn 0] /\
  (* FINDING.  The checksum covers the value only: a damaged key is not noticed. *)
  map data_integrity (map (fun f => fwrite f 46 (str "q")) (dk_d (dk s))) = [KReturn 0; KReturn 0; KReturn 0].
Proof.
  destruct C47_ex as (o & c & s & R & W & L). destruct (kv_reached log_es) as (o' & c' & s' & R' & E); [wf|vm_compute; reflexivity|].
  exists o', c', s'. split; [exact R'|].
  assert (W' : written_by log_es o' = log_ws).
  { refine (kv_probe (fun x => written_by log_es (fst x)) _ _ _ _ _ E _); vm_compute; reflexivity. }
  assert (D' : dk_d (dk s') = files_bytes 0 log_files).
  { refine (kv_probe (fun x => dk_d (dk (snd (snd x)))) _ _ _ _ _ E _); vm_compute; reflexivity. }
  split. { rewrite W'. split; [exact D'|apply L]. }
  split. { apply (dm_hit _ _ _ _ _ 0); [|apply dm_keep, dm_end].
    exists (str "th"), (str "re"), (str "RE"), (str "e"). repeat split; [cbn; lia|discriminate]. }
  rewrite D'. split; [|split]; vm_compute; reflexivity.
Qed.

(* sequential mode *)
Example C48_sequential_ex : exists o c s, sreached ex_g 5 ex_c (plain sq_es) o c s /\
  forallb (fun k => match k with KReturn 0 => true | _ => false end) (map data_integrity (dk_d (dk s))) = true /\
  1 < nlen (dk_d (dk s)).
Proof.
  destruct sq_ex as (o & c & s & R & E). exists o, c, s. split; [exact R|]. split.
  - refine (sq_probe (fun x => forallb (fun k => match k with KReturn 0 => true | _ => false end) (map data_integrity (dk_d (dk (snd (snd x)))))) _ _ _ _ _ E _).
    vm_compute. reflexivity.
  - assert (X : (1 <? nlen (dk_d (dk s))) = true); [|now apply N.ltb_lt].
    refine (sq_probe (fun x => 1 <? nlen (dk_d (dk (snd (snd x))))) _ _ _ _ _ E _). vm_compute. reflexivity.
Qed.
