(* PROPERTY C67: HISTORY with a position given by the client. *)
From Coq Require Import Strings.String Strings.Byte List NArith ZArith Bool Lia.
From Verif Require Import Bytes BytesFacts Layout Store Text Commands SpecKV Machine Reach KvFacts
  Scan History SpecHist SpecCursor SpecPosition PositionFacts PropKV PropScan PropHist.
Import ListNotations.
Open Scope N_scope.
Local Notation length := List.length.

(* Whatever the 8 bytes and whatever the files contain, there is a reply.  It tells
   something if and only if the bytes of the key are at the place, and what it tells is a
   piece of a data file of the namespace; any other reply is a refusal *)
Theorem C67_positions : forall cmd key pos c s, is_frozen c = false -> (length key <= 255)%nat ->
  exists r, command_history [cmd; key; pos] c s = Some r /\
    (names (dk_i (dk s)) key pos <-> tells (dk_d (dk s)) r) /\ (tells (dk_d (dk s)) r \/ In r refusals).
Proof. exact position_told. Qed.
Print Assumptions C67_positions.

(* what is told is what the record at the place says *)
Theorem C67_value : forall cmd key pos c s f, is_frozen c = false -> (length key <= 255)%nat ->
  names (dk_i (dk s)) key pos -> nth_error (dk_i (dk s)) (N.to_nat (unle (part 0 4 pos))) = Some f ->
  let o := N.to_nat (unle (part 4 4 pos)) in
  command_history [cmd; key; pos] c s = Some (told_there (dk_d (dk s)) f o).
Proof. exact position_value. Qed.
Print Assumptions C67_value.

(* the two kinds of replies exclude each other *)
Theorem C67_told_or_refused : forall d r, tells d r -> ~ In r refusals.
Proof. exact refusal_is_not_told. Qed.
Print Assumptions C67_told_or_refused.

(* what a client sees of the key a at the place of its version before the last, and with
   the position one byte further *)
Definition pos_es : list event :=
  [EReq rw 1000 (QSet (str "x") (str "other") None);
   EReq rw 1001 (QSet (str "a") (str "one") None);
   EReq rw 1002 (QSet (str "a") (str "two!") None)].

Example C67_ex : exists o c s, reached ex_g 5 ex_c pos_es o c s /\ is_frozen c = false /\ (length (str "a") <= 255)%nat /\
  command_history [str "HISTORY"; str "a"] c s = Some (hist_reply (Some (enc_ekey (mkEkey 0 64))) (str "two!", 1002)) /\
  command_history [str "HISTORY"; str "a"; enc_ekey (mkEkey 0 64)] c s = Some (hist_reply None (str "one", 1001)) /\
  command_history [str "HISTORY"; str "a"; enc_ekey (mkEkey 0 65)] c s = Some (hardsend "-Invalid arguments (invalid key)").
Proof.
  destruct (kv_reached pos_es) as (o & c & s & R & E); [wf|reflexivity|]. exists o, c, s. split; [exact R|].
  split; [refine (kv_probe (fun x => is_frozen (fst (snd x))) _ _ _ _ _ E _); vm_compute; reflexivity|].
  split; [apply Nat.leb_le; reflexivity|].
  split; [refine (kv_probe (fun x => command_history [str "HISTORY"; str "a"] (fst (snd x)) (snd (snd x))) _ _ _ _ _ E _); vm_compute; reflexivity|].
  split; refine (kv_probe (fun x => command_history [str "HISTORY"; str "a"; enc_ekey _] (fst (snd x)) (snd (snd x))) _ _ _ _ _ E _);
    vm_compute; reflexivity.
Qed.

(* the hypotheses of C67_value for this position *)
Definition pos_files : list bytes * list bytes := Eval vm_compute in
  match run_kv pos_es with Some (_, (_, s)) => (dk_i (dk s), dk_d (dk s)) | None => ([], []) end.

Example C67_ex_value : exists o c s f, reached ex_g 5 ex_c pos_es o c s /\
  let pos := enc_ekey (mkEkey 0 64) in
  names (dk_i (dk s)) (str "a") pos /\ nth_error (dk_i (dk s)) (N.to_nat (unle (part 0 4 pos))) = Some f /\
  N.to_nat (unle (part 4 4 pos)) = 64%nat /\ (0 < said f 64 5 4)%nat /\
  told_there (dk_d (dk s)) f 64 = hist_reply None (str "one", 1001).
Proof.
  destruct (kv_reached pos_es) as (o & c & s & R & E); [wf|reflexivity|]. exists o, c, s, (hd [] (fst pos_files)). split; [exact R|].
  assert (X : (dk_i (dk s), dk_d (dk s)) = pos_files).
  { refine (kv_probe (fun x => (dk_i (dk (snd (snd x))), dk_d (dk (snd (snd x))))) _ _ _ _ _ E _). vm_compute. reflexivity. }
  assert (X1 : dk_i (dk s) = fst pos_files) by (rewrite <- X; reflexivity).
  assert (X2 : dk_d (dk s) = snd pos_files) by (rewrite <- X; reflexivity). rewrite X1, X2. cbv zeta. split.
  - split; [reflexivity|]. split; [vm_compute; discriminate|]. exists (hd [] (fst pos_files)). split; [reflexivity|].
    split; [apply Nat.leb_le; vm_compute; reflexivity|vm_compute; reflexivity].
  - split; [reflexivity|]. split; [reflexivity|]. split; [apply Nat.leb_le; vm_compute; reflexivity|vm_compute; reflexivity].
Qed.

(* the full statement is false: the version told is one of another key, which only begins
   with the key asked for; the key asked for was never stored *)
Definition other_es : list event :=
  [EReq rw 1000 (QSet (str "p") (str "public") None); EReq rw 1001 (QSet (str "secret") (str "my secret") None)].
Theorem C67_other_key_refuted : exists o c s pos,
  reached ex_g 5 ex_c other_es o c s /\ is_frozen c = false /\ length pos = 8%nat /\
  versions (str "s") ex_c other_es = [] /\
  command_history [str "HISTORY"; str "s"] c s = Some (hardsend "-Key not found") /\
  command_history [str "HISTORY"; str "s"; pos] c s = Some (hist_reply None (str "my secret", 1001)).
Proof.
  destruct (kv_reached other_es) as (o & c & s & R & E); [wf|reflexivity|]. exists o, c, s, (enc_ekey (mkEkey 0 64)). split; [exact R|].
  split; [refine (kv_probe (fun x => is_frozen (fst (snd x))) _ _ _ _ _ E _); vm_compute; reflexivity|].
  split; [reflexivity|]. split; [vm_compute; reflexivity|].
  split; [refine (kv_probe (fun x => command_history [str "HISTORY"; str "s"] (fst (snd x)) (snd (snd x))) _ _ _ _ _ E _); vm_compute; reflexivity|].
  refine (kv_probe (fun x => command_history [str "HISTORY"; str "s"; enc_ekey (mkEkey 0 64)] (fst (snd x)) (snd (snd x))) _ _ _ _ _ E _).
  vm_compute. reflexivity.
Qed.
Print Assumptions C67_other_key_refuted.
