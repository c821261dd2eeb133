(* PROPERTY C58: what mirrors are told; and how WAIT begins (C38). *)
From Coq Require Import Strings.String Strings.Byte List NArith ZArith Bool.
From Verif Require Import Bytes Layout Store Text Commands Sha1 Dispatch Namespace System Resp Server
  SpecAuth AuthFacts WaitFacts SpecMirror MirrorFacts PropAuth.
Import ListNotations.
Open Scope N_scope.

(* A client which has said MIRROR and does not wait, over any events other than its own requests,
   its end and a restart: it receives the encoding of each request of the others, in
   order, and nothing else. *)
Theorem C58_feed : forall g k es w outs w' ck, run_sevents g es w = Some (outs, w') ->
  (forall e, In e es -> foreign k e) ->
  client_at k w = Some ck -> c_mirror ck = true -> c_watch ck = None ->
  exists l, feed g es w = Some l /\ sent k (List.concat outs) = map encode l.
Proof. exact mirror_run. Qed.
Print Assumptions C58_feed.

(* The stream of bytes can be read back in one way only. *)
Theorem C58_readable : forall l l', List.concat (map encode l) = List.concat (map encode l') -> l = l'.
Proof. exact feed_readable. Qed.
Print Assumptions C58_readable.

(* the requests of an instance 7 *)
Definition req7 (fd : N) (ws : list string) : sevent :=
  SRequest fd (mkEnv 100 0 (str "0011223344556677") (fun _ => []) 7 4 false) (map str ws).
Definition ex58_w : world := match run_sevents ex_g [req 4 ["MIRROR"]%string] ex_w with Some (_, w) => w | None => ex_w end.
Definition ex58 : list sevent :=
  [ req7 5 ["SET"; "k"; "value"]; req7 5 ["NOSUCH"]; req7 5 ["GET"; "k"]; SConnect 6; SIdle (101, 5) []; req7 6 ["AUTH"; "root"];
    req7 6 ["NSDEL"; "nothing"]; req7 6 ["SELECT"; "priv"; "pw"]; SClose 6 ]%string.

Example C58_hypotheses : option_map (fun c => (c_mirror c, c_watch c)) (client_at 4 ex58_w) = Some (true, None)
  /\ (forall e, In e ex58 -> foreign 4 e).
Proof.
  split; [vm_compute; reflexivity|]. intros e H. repeat (destruct H as [<-|H]; [first [exact I|discriminate]|]). destruct H.
Qed.

(* the password of the administrator and of the namespace are among what the mirror is told *)
Example C58_example : option_map (fun r => sent 4 (List.concat (fst r))) (run_sevents ex_g ex58 ex58_w) =
  Some (map encode [ mkTell 100 (str "default") 7 (map str ["SET"; "k"; "value"]); mkTell 100 (str "default") 7 (map str ["GET"; "k"]);
    mkTell 100 (str "default") 7 (map str ["AUTH"; "root"]); mkTell 100 (str "default") 7 (map str ["NSDEL"; "nothing"]);
    mkTell 100 (str "priv") 7 (map str ["SELECT"; "priv"; "pw"]) ]%string).
Proof. vm_compute. reflexivity. Qed.

(* The instance of a request of an ordinary client is never set.  When it happens to be 0 the mirror
   is not told of a change. *)
Theorem C58_silent_refuted : exists es, (forall e, In e es -> foreign 4 e) /\
  option_map fst (run_sevents ex_g es ex58_w) = Some [[(5, str "$1" ++ CRLF ++ str "k" ++ CRLF)]].
Proof.
  exists [req 5 ["SET"; "k"; "value"]%string]. split; [|vm_compute; reflexivity]. intros e [<-|[]]. discriminate.
Qed.
Print Assumptions C58_silent_refuted.

(* WAIT without a time waits for 5 seconds; a time is taken between 0.1 seconds and 30 minutes, in
   milliseconds; a refused WAIT leaves an earlier one as it is.  The clock starts at the request. *)
Theorem C38_started : forall g v fd x y rest w out st w' cl i h hy cy,
  request g v fd (x :: y :: rest) w = SDone out st w' ->
  client_at fd w = Some cl -> c_master cl = false -> c_ns cl = Some i ->
  lookup_handler x = Some (h, CWait) -> lookup_handler y = Some (hy, cy) ->
  exists cl', client_at fd w' = Some cl' /\
    let started t := sent fd out = [[]] /\ c_watch cl' = Some hy /\ c_since cl' = (v_sec v, v_usec v) /\ c_timeout cl' = t in
    let refused m := sent fd out = [m] /\ waiting_as cl cl' in
    (rest = [] -> started 5000) /\
    (forall n, rest = [dec n] -> 100 <= n <= 1800000 -> started n) /\
    (forall n, rest = [dec n] -> n < 100 \/ 1800000 < n -> refused (hardsend "-Invalid timeout")) /\
    ((1 < List.length rest)%nat -> refused (hardsend "-Invalid arguments")).
Proof. exact wait_started. Qed.
Print Assumptions C38_started.

Definition ask38 (ws : list string) : option (list (list (N * bytes)) * option (option N * (N * N) * N)) :=
  option_map (fun r => (fst r, option_map (fun c => (c_watch c, c_since c, c_timeout c)) (client_at 5 (snd r)))) (run_sevents ex_g [req 5 ws] ex_w).
Example C38_started_example :
  ask38 ["WAIT"; "SET"]%string = Some ([[(5, [])]], Some (Some 10, (100, 0), 5000)) /\
  ask38 ["WAIT"; "SET"; "1800000"]%string = Some ([[(5, [])]], Some (Some 10, (100, 0), 1800000)) /\
  ask38 ["WAIT"; "SET"; "1800001"]%string = Some ([[(5, hardsend "-Invalid timeout")]], Some (None, (0, 0), 0)) /\
  ask38 ["WAIT"; "SET"; "1"; "2"]%string = Some ([[(5, hardsend "-Invalid arguments")]], Some (None, (0, 0), 0)) /\
  lookup_handler (str "WAIT") <> None /\ str "1800000" = dec 1800000.
Proof. do 4 (split; [vm_compute; reflexivity|]). split; [vm_compute; discriminate|vm_compute; reflexivity]. Qed.
