(* PROPERTY C57: passwords are not disclosed. *)
From Coq Require Import Strings.String Strings.Byte List NArith ZArith Bool.
From Verif Require Import Bytes Layout Store Text Commands Sha1 Dispatch Namespace System Resp Server
  SpecAuth AuthFacts SpecServer SpecSecret SecretFacts PropAuth.
Import ListNotations.
Open Scope N_scope.

(* Two servers which differ in the administrator's password, in the passwords of the
   namespaces and in the passwords the clients present, and nowhere else.  As long as AUTH,
   SELECT and NSSET are answered alike in both histories, all that clients other than masters and
   mirrors receive is the same, byte for byte, and so is the state, passwords excepted. *)
Theorem C57_secret : forall g g' es, same_server g g' -> forall es' w w' outs outs' w1 w1',
  same_state w w' -> alike g g' es es' w w' ->
  run_sevents g es w = Some (outs, w1) -> run_sevents g' es' w' = Some (outs', w1') ->
  received g' es' w' = received g es w /\ same_state w1 w1'.
Proof. exact secret_run. Qed.
Print Assumptions C57_secret.

(* From the first start of both. *)
Theorem C57_from_start : forall g g' es es' w0 w0' outs outs' w w', same_server g g' ->
  first_boot g = Some w0 -> first_boot g' = Some w0' -> alike g g' es es' w0 w0' ->
  run_sevents g es w0 = Some (outs, w) -> run_sevents g' es' w0' = Some (outs', w') ->
  received g' es' w0' = received g es w0 /\ same_state w w'.
Proof. exact secret_first. Qed.
Print Assumptions C57_from_start.

(* What the two leave in their directories is alike, so both may be started again. *)
Theorem C57_stored : forall g g' es es' w0 w0' outs outs' w w', server_ok g -> server_ok g' ->
  first_boot g = Some w0 -> first_boot g' = Some w0' ->
  all_covered g es w0 -> all_covered g' es' w0' ->
  run_sevents g es w0 = Some (outs, w) -> run_sevents g' es' w0' = Some (outs', w') ->
  same_state w w' -> Forall2 same_stored (stored_of w) (stored_of w').
Proof. exact secret_stored. Qed.
Print Assumptions C57_stored.

(* the server of the examples with another administrator's password *)
Definition ex57_g : server := mkServer (mkSettings MODE_MIX 1000) (Some (str "another")) false true false.

Definition same57 (fd : N) (ws : list string) : twin := TBoth (req fd ws).
Definition other57 (fd : N) (ws ws' : list string) : twin := TReq fd (ex_env 100) (map str ws) (map str ws').
Definition ex57 : list twin :=
  [ TBoth (SConnect 4); TBoth (SConnect 5);
    other57 4 ["AUTH"; "root"] ["AUTH"; "another"]; same57 4 ["NSNEW"; "priv"];
    other57 4 ["NSSET"; "priv"; "password"; "pw"] ["NSSET"; "priv"; "password"; "longer"]; same57 4 ["NSSET"; "priv"; "public"; "0"];
    same57 5 ["AUTH"; "guess"]; other57 5 ["AUTH"; "another"] ["AUTH"; "root"];
    same57 5 ["NSINFO"; "priv"]; same57 5 ["SELECT"; "priv"]; other57 5 ["SELECT"; "priv"; "longer"] ["SELECT"; "priv"; "pw"];
    other57 5 ["SELECT"; "priv"; "pw"] ["SELECT"; "priv"; "longer"]; same57 5 ["SET"; "k"; "value"];
    same57 5 ["GET"; "k"]; same57 5 ["NSINFO"; "priv"]; same57 4 ["NSINFO"; "priv"]; same57 4 ["NSLIST"] ]%string.

Definition first57 (g : server) : world := match first_boot g with Some w => w | None => mkWorld empty_table [] 0 [] end.

(* the hypotheses are met: both run, are alike, and differ in passwords *)
Example C57_example :
  same_server ex_g ex57_g /\ alike ex_g ex57_g (map left_event ex57) (map right_event ex57) (first57 ex_g) (first57 ex57_g) /\
  option_map fst (run_sevents ex_g (map left_event ex57) (first57 ex_g)) <> None /\
  option_map (fun r => List.length (fst r)) (run_sevents ex57_g (map right_event ex57) (first57 ex57_g)) = Some 17%nat /\
  map left_event ex57 <> map right_event ex57.
Proof.
  split; [vm_compute; repeat split; reflexivity|]. split; [apply alike_b_ok; vm_compute; reflexivity|].
  split; [vm_compute; discriminate|]. split; [vm_compute; reflexivity|]. vm_compute. discriminate.
Qed.

(* Masters are told the password of a namespace by NSINFO: for them the claim is false. *)
Definition ex57_master : list twin :=
  (firstn 6 ex57 ++ [same57 4 ["MASTER"]; same57 4 ["NSINFO"; "priv"; "0011223344556677"]])%list%string.
Definition last_reply (g : server) (es : list sevent) : option bytes :=
  option_map (fun r => answer (List.last (fst r) [])) (run_sevents g es (first57 g)).

Theorem C57_masters_refuted : exists es es',
  alike ex_g ex57_g es es' (first57 ex_g) (first57 ex57_g) /\
  exists b b', last_reply ex_g es = Some b /\ last_reply ex57_g es' = Some b' /\ b <> b'.
Proof.
  exists (map left_event ex57_master), (map right_event ex57_master). split; [apply alike_b_ok; vm_compute; reflexivity|].
  exists (match last_reply ex_g (map left_event ex57_master) with Some b => b | None => [] end),
    (match last_reply ex57_g (map right_event ex57_master) with Some b => b | None => [] end).
  split; [vm_compute; reflexivity|]. split; [vm_compute; reflexivity|]. vm_compute. discriminate.
Qed.
Print Assumptions C57_masters_refuted.
