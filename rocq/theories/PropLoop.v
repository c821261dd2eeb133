(* PROPERTY C52: all clients of a server see one order of requests. *)
From Coq Require Import Strings.String Strings.Byte List NArith ZArith Bool.
From Verif Require Import Bytes Layout Store Text Commands Dispatch Namespace Resp RespSpec ReplyQueue ReplyFacts Server SpecServer ServerFacts
  AuthFacts Net SpecNet NetFacts NetDefined NetClose NetStop PropAuth PropServer.
Import ListNotations.
Open Scope N_scope.

(* Whatever arrives at the sockets, in whatever pieces, however the reads and the writes
   are cut, for any number of clients: there is one sequence of requests, which grows with
   the events, so that
   - the server is in the state after these requests, executed one after the other;
   - for each connected client, the requests in the sequence are the first ones of those
     it sent, in its order, and exactly those which have been read completely;
   - while no send fails, what each client received, followed by what waits for it, is
     the messages for it in this execution, in this order. *)
Theorem C52_one_order : forall g w0 evs1 evs2 n1 n2,
  net_run g evs1 (net_new w0) = Some n1 -> net_run g evs2 n1 = Some n2 ->
  exists es1 es2 ms1 ms2,
    run_sevents g es1 w0 = Some (ms1, e_world n1) /\
    run_sevents g es2 (e_world n1) = Some (ms2, e_world n2) /\
    Forall added (es1 ++ es2) /\
    (forall fd, connected fd n1 -> accounts es1 ms1 evs1 n1 fd) /\
    (forall fd, connected fd n2 -> accounts (es1 ++ es2) (ms1 ++ ms2) (evs1 ++ evs2) n2 fd).
Proof. exact one_order. Qed.
Print Assumptions C52_one_order.

(* Two clients; the requests of the first come in three packets, the second works in
   between; the socket of the first takes five bytes, then nothing, then the rest. *)
Definition ex52_rs4 : list RespSpec.request :=
  [ map str ["SET"; "k"; "one"]; map str ["GET"; "k"]; map str ["DBSIZE"] ]%string.
Definition ex52_rs5 : list RespSpec.request := [ map str ["SET"; "k"; "two"]; map str ["PING"] ]%string.
Definition ex52_x (_ : N) : env * (N -> how) := (ex_env 100, fun _ => [(false, 5, [Accepted 5; Again])]).
Definition ex52_q (_ : N) : env * (N -> how) := (ex_env 100, fun _ => []).
Definition ex52_no (_ : N) : how := [].
Definition ex52_b4 : bytes := enc_reqs ex52_rs4.
Definition ex52_b5 : bytes := enc_reqs ex52_rs5.
Definition ex52_evs1 : list nevent :=
  [ NAccept 4; NAccept 5;
    NArrive 4 (nfirst 40 ex52_b4); NRead 4 [7; 100] RAgain ex52_x ex52_no;
    NArrive 5 ex52_b5; NRead 5 [1000] RAgain ex52_q ex52_no ].
Definition ex52_evs2 : list nevent :=
  [ NArrive 4 (nskip 40 ex52_b4); NRead 4 [3; 1000] RAgain ex52_q ex52_no; NWrite 4 [Accepted 2; Accepted 2; Again];
    NIdle (200, 0) [] ex52_no; NWrite 5 [Accepted 100; Accepted 100; Accepted 100] ].
Definition ex52_w0 : world := match first_boot ex_g with Some w => w | None => mkWorld empty_table [] 0 [] end.
Definition ex52_n1 : net := match net_run ex_g ex52_evs1 (net_new ex52_w0) with Some n => n | None => net_new ex52_w0 end.

Example C52_ex_run :
  option_map (fun n => (received 4 n, waiting 4 n, received 5 n)) (net_run ex_g ex52_evs2 ex52_n1)
  = Some (bulk (str "k") ++ nfirst 2 (bulk (str "two")),
          nskip 2 (bulk (str "two")) ++ str ":1" ++ CRLF,
          bulk (str "k") ++ str "+PONG" ++ CRLF).
Proof. vm_compute. reflexivity. Qed.
Example C52_ex_first : (received 4 ex52_n1, waiting 4 ex52_n1, waiting 5 ex52_n1)
  = (nfirst 5 (bulk (str "k")), nskip 5 (bulk (str "k")), bulk (str "k") ++ str "+PONG" ++ CRLF)
  /\ net_run ex_g ex52_evs1 (net_new ex52_w0) <> None.
Proof. split; [vm_compute; reflexivity|vm_compute; discriminate]. Qed.
Definition ex52_rs (fd : N) : list RespSpec.request := if fd =? 4 then ex52_rs4 else if fd =? 5 then ex52_rs5 else [].
Lemma ex52_ok : forall fd, Forall req_ok (ex52_rs fd).
Proof.
  intros fd. unfold ex52_rs. destruct (fd =? 4); [|destruct (fd =? 5)]; repeat constructor; vm_compute; discriminate.
Qed.
Example C52_ex_streams : polite (ex52_evs1 ++ ex52_evs2) /\ Forall healthy_event (ex52_evs1 ++ ex52_evs2)
  /\ arrived_on 4 (ex52_evs1 ++ ex52_evs2) = enc_reqs ex52_rs4 /\ arrived_on 5 (ex52_evs1 ++ ex52_evs2) = enc_reqs ex52_rs5.
Proof.
  split; [apply (polite_b_ok ex52_rs _ ex52_ok); vm_compute; reflexivity|].
  split; [repeat constructor; cbn; intros; try discriminate; repeat constructor; discriminate|].
  split; vm_compute; reflexivity.
Qed.

(* Together with C31: the replies which the clients receive over the network are those
   of the directory of namespaces with their contents, for the requests in this order. *)
Theorem C52_directory : forall g w0 evs n,
  server_ok g -> first_boot g = Some w0 -> net_run g evs (net_new w0) = Some n ->
  exists es ms, run_sevents g es w0 = Some (ms, e_world n) /\
    (forall fd, connected fd n -> accounts es ms evs n fd) /\
    (all_covered g es w0 -> exists D, dir_run g es w0 ms (only_default g) D).
Proof. exact loop_directory. Qed.
Print Assumptions C52_directory.

(* As long as the clients send well-formed requests, the loop itself never does
   anything undefined: if it does not get through the events, then it had been stopped
   before, or the system gave out a socket twice, or one request of a client, the next
   one in its stream, is undefined in the server. *)
Theorem C52_defined : forall g w0 evs, w_clients w0 = [] -> polite evs -> net_run g evs (net_new w0) = None ->
  ended_before g w0 evs \/ socket_reused g w0 evs \/ request_undefined g w0 evs.
Proof. exact loop_defined. Qed.
Print Assumptions C52_defined.

(* the third case: a replication master (MASTER) sends a request of one word *)
Definition ex52_rsm : list RespSpec.request := [ map str ["AUTH"; "root"]; map str ["MASTER"]; map str ["PING"] ]%string.
Definition ex52_evm : list nevent :=
  [ NAccept 4; NArrive 4 (enc_reqs ex52_rsm); NRead 4 [1000] RAgain ex52_q ex52_no ].
Example C52_ex_undefined : w_clients ex52_w0 = [] /\ polite ex52_evm /\ net_run ex_g ex52_evm (net_new ex52_w0) = None
  /\ net_run ex_g (firstn 2 ex52_evm) (net_new ex52_w0) <> None.
Proof.
  split; [vm_compute; reflexivity|]. split.
  - apply (polite_b_ok (fun fd => if fd =? 4 then ex52_rsm else [])); [|vm_compute; reflexivity].
    intros fd. destruct (fd =? 4); repeat constructor; vm_compute; discriminate.
  - split; [vm_compute; reflexivity|vm_compute; discriminate].
Qed.

(* A client which is not well-formed can make the server undefined with one request:
   an argument of the announced length -1 is accepted (zdbd/redis.c:494-521), and the
   handlers get this length. *)
Theorem C52_negative_length_refuted : exists g w0 n b,
  first_boot g = Some w0 /\ net_run g [NAccept 4] (net_new w0) = Some n /\ blen b = 19 /\
  net_run g [NArrive 4 b; NRead 4 [1000] RAgain ex52_q ex52_no] n = None.
Proof.
  exists ex_g, ex52_w0, (match net_run ex_g [NAccept 4] (net_new ex52_w0) with Some n => n | None => net_new ex52_w0 end),
    (str "*2" ++ CRLF ++ str "$3" ++ CRLF ++ str "GET" ++ CRLF ++ str "$-1" ++ CRLF ++ str "x").
  split; [vm_compute; reflexivity|]. split; [vm_compute; reflexivity|]. split; vm_compute; reflexivity.
Qed.
Print Assumptions C52_negative_length_refuted.

(* A client which sends well-formed requests loses its connection by a read only if it
   hangs up itself, or for one reason: the last request executed in this read came when
   its namespace was removed, and it was told so. *)
Theorem C52_closed : forall g w0 evs fd cuts e x y n n',
  polite evs -> net_run g evs (net_new w0) = Some n -> connected fd n ->
  e <> REnd -> net_step g (NRead fd cuts e x y) n = Some n' -> ~ connected fd n' ->
  exists es1 ms1 es2 ms2 w k argv cl more st w',
    run_sevents g es1 w0 = Some (ms1, e_world n) /\ (forall f, connected f n -> accounts es1 ms1 evs n f) /\
    Forall (of_read fd x) es2 /\ run_sevents g es2 (e_world n) = Some (ms2, w) /\
    client_at fd w = Some cl /\ c_ns cl = None /\
    run_sevent g (SRequest fd (fst (x k)) argv) w =
      SDone ((fd, str "-Your active namespace is not available anymore (probably removed)." ++ CRLF) :: more) st w'.
Proof. exact closed_why. Qed.
Print Assumptions C52_closed.

(* And such a client does lose it: when the namespace of the client is removed, and whole
   requests have arrived of which some is not read, then a read which leaves nothing
   unread ends the connection. *)
Theorem C52_removed : forall g w0 evs fd cuts e x y n n' p b cl rs,
  net_run g evs (net_new w0) = Some n ->
  e_in n fd = Some (p, b) -> b <> [] -> Forall req_ok rs -> arrived_on fd evs = enc_reqs rs ->
  client_at fd (e_world n) = Some cl -> c_ns cl = None -> c_master cl = false ->
  net_step g (NRead fd cuts e x y) n = Some n' -> forall p', e_in n' fd <> Some (p', []).
Proof. exact gone_closed. Qed.
Print Assumptions C52_removed.

(* the client of socket 5 works in a namespace which the administrator removes *)
Definition ex52_ra : list RespSpec.request := [ map str ["AUTH"; "root"]; map str ["NSNEW"; "x"]; map str ["NSDEL"; "x"] ]%string.
Definition ex52_rc : list RespSpec.request := [ map str ["SELECT"; "x"]; map str ["PING"] ]%string.
Definition ex52_evr : list nevent :=
  [ NAccept 4; NAccept 5; NArrive 4 (enc_reqs (firstn 2 ex52_ra)); NRead 4 [1000] RAgain ex52_q ex52_no;
    NArrive 5 (enc_reqs (firstn 1 ex52_rc)); NRead 5 [1000] RAgain ex52_q ex52_no;
    NArrive 4 (enc_reqs (skipn 2 ex52_ra)); NRead 4 [1000] RAgain ex52_q ex52_no;
    NArrive 5 (enc_reqs (skipn 1 ex52_rc)) ].
Definition ex52_nr : net := match net_run ex_g ex52_evr (net_new ex52_w0) with Some n => n | None => net_new ex52_w0 end.
Example C52_ex_closed : polite ex52_evr /\ net_run ex_g ex52_evr (net_new ex52_w0) <> None
  /\ option_map snd (e_in ex52_nr 5) = Some (enc_reqs (skipn 1 ex52_rc)) /\ arrived_on 5 ex52_evr = enc_reqs ex52_rc
  /\ option_map (fun cl => (c_ns cl, c_master cl)) (client_at 5 (e_world ex52_nr)) = Some (None, false)
  /\ option_map (fun n => (e_in n 5, match e_in n 4 with Some _ => true | None => false end))
       (net_step ex_g (NRead 5 [1000] RAgain ex52_q ex52_no) ex52_nr) = Some (None, true).
Proof.
  split.
  - apply (polite_b_ok (fun fd => if fd =? 4 then ex52_ra else if fd =? 5 then ex52_rc else [])); [|vm_compute; reflexivity].
    intros fd. destruct (fd =? 4); [|destruct (fd =? 5)]; repeat constructor; vm_compute; discriminate.
  - split; [vm_compute; discriminate|]. split; [vm_compute; reflexivity|]. split; [vm_compute; reflexivity|]. split; vm_compute; reflexivity.
Qed.

(* But the end of the connection is forgotten when a further request has begun to arrive:
   the client stays, and its next request is answered in the same way. *)
Example C52_ex_forgotten :
  option_map (fun n => match e_in n 5 with Some _ => true | None => false end)
    (net_run ex_g [NArrive 5 (str "*"); NRead 5 [1000] RAgain ex52_q ex52_no] ex52_nr) = Some true.
Proof. vm_compute. reflexivity. Qed.

(* The loop ends only in a debug build, and only by a read whose last executed request is
   STOP; its client is told so.  Nothing else any client sends ends it. *)
Theorem C52_stopped : forall g ev n n', net_step g ev n = Some n' -> e_up n' = false ->
  v_release g = false /\ exists fd cuts e x y es ms w k argv cl h more,
    ev = NRead fd cuts e x y /\ Forall (of_read fd x) es /\ run_sevents g es (e_world n) = Some (ms, w) /\
    client_at fd w = Some cl /\ lookup_handler (arg 0 (effective cl argv)) = Some (h, CStop) /\
    run_sevent g (SRequest fd (fst (x k)) argv) w = SDone ((fd, str "+Stopping" ++ CRLF) :: more) SHUTDOWN (e_world n').
Proof. exact stopped_why. Qed.
Print Assumptions C52_stopped.

(* STOP from a client without any rights, on a debug build and on a release build *)
Definition ex52_debug : server := mkServer (mkSettings MODE_MIX 1000) (Some (str "root")) false false false.
Definition ex52_stop (later : list RespSpec.request) : list nevent :=
  [ NAccept 4; NArrive 4 (enc_reqs (map str ["SET"; "k"; "one"] :: map str ["stop"] :: later)%string); NRead 4 [1000] RAgain ex52_q ex52_no ].
Example C52_ex_stop :
  option_map (fun n => (e_up n, waiting 4 n)) (net_run ex52_debug (ex52_stop []) (net_new ex52_w0))
    = Some (false, bulk (str "k") ++ str "+Stopping" ++ CRLF) /\
  option_map (fun n => (e_up n, waiting 4 n)) (net_run ex_g (ex52_stop []) (net_new ex52_w0))
    = Some (true, bulk (str "k") ++ str "-Unauthorized" ++ CRLF).
Proof. split; vm_compute; reflexivity. Qed.

(* A STOP which is answered with "Stopping" need not stop the server: when another request
   arrives in the same packet, its outcome replaces that of STOP. *)
Theorem C52_stop_refuted : exists g w0 evs n,
  first_boot g = Some w0 /\ v_release g = false /\ polite evs /\ net_run g evs (net_new w0) = Some n /\ e_up n = true /\
  waiting 4 n = bulk (str "k") ++ str "+Stopping" ++ CRLF ++ str "+PONG" ++ CRLF.
Proof.
  exists ex52_debug, ex52_w0, (ex52_stop [map str ["PING"]%string]),
    (match net_run ex52_debug (ex52_stop [map str ["PING"]%string]) (net_new ex52_w0) with Some n => n | None => net_new ex52_w0 end).
  split; [vm_compute; reflexivity|]. split; [reflexivity|]. split.
  - apply (polite_b_ok (fun fd => if fd =? 4 then (map str ["SET"; "k"; "one"] :: map str ["stop"] :: map str ["PING"] :: [])%string else [])); [|vm_compute; reflexivity].
    intros fd. destruct (fd =? 4); repeat constructor; vm_compute; discriminate.
  - split; [vm_compute; reflexivity|]. split; vm_compute; reflexivity.
Qed.
Print Assumptions C52_stop_refuted.
