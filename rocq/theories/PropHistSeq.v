(* PROPERTY C24 in sequential mode: HISTORY.  (User mode: PropHist.v.) *)
From Coq Require Import List NArith Bool Strings.Byte Strings.String.
From Verif Require Import Bytes BytesFacts Layout Store Text Commands SpecKV SpecSeq Machine Reach
  CrashModel SeqReach KvFacts Scan History SpecHist HistSeq PropKV PropSeq.
Import ListNotations.
Open Scope N_scope.
Local Notation length := List.length.

(* The full statement holds: all the versions are told, whatever files they are in *)
Theorem C24_history_sequential : forall g n c0 es o c s cmd k j,
  sreached g n c0 (plain es) o c s -> is_frozen c = false -> kget k (sq_map (sq_of_history c0 es)) <> None ->
  (length (sq_versions k c0 es) <= j)%nat ->
  exists rs, ask_versions (fun argv => command_history argv c s) cmd k None j = Some rs /\
    all_told (sq_versions k c0 es) rs.
Proof. exact shistory_all. Qed.
Print Assumptions C24_history_sequential.

Theorem C24_no_history_sequential : forall g n c0 es o c s cmd k,
  sreached g n c0 (plain es) o c s -> is_frozen c = false -> blen k <= 255 -> key_asked (x_nextentry (ix s)) k ->
  kget k (sq_map (sq_of_history c0 es)) = None ->
  command_history [cmd; k] c s = Some (hardsend "-Key not found").
Proof. exact shistory_absent. Qed.
Print Assumptions C24_no_history_sequential.

(* an identifier handed out in the second file, with versions in three files *)
Definition shist_es : list event :=
  [sq_ins "one"; sq_upd 0 "uno"; sq_jump; sq_ins "my answer"; sq_upd 2 "second"; sq_upd 2 "second"; sq_upd 0 "eins";
   ERestart; sq_jump; sq_upd 2 "third"; sq_del 0].

Example C24_sequential_example : exists o c s, sreached ex_g 5 ex_c (plain shist_es) o c s /\ is_frozen c = false /\
  map fst (sq_versions (ident 2) ex_c shist_es) = [str "third"; str "second"; str "my answer"] /\
  kget (ident 2) (sq_map (sq_of_history ex_c shist_es)) <> None /\
  kget (ident 0) (sq_map (sq_of_history ex_c shist_es)) = None /\ key_asked (x_nextentry (ix s)) (ident 0).
Proof.
  destruct (sreached_ex (plain shist_es)) as (o & c & s & R & E); [vm_compute; reflexivity|]. exists o, c, s. split; [exact R|].
  split; [refine (sq_probe (fun x => is_frozen (fst (snd x))) _ _ _ _ _ E _); vm_compute; reflexivity|].
  split; [vm_compute; reflexivity|]. split; [vm_compute; discriminate|]. split; [vm_compute; reflexivity|].
  intros _. right. reflexivity.
Qed.
