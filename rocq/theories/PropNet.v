(* PROPERTIES C27 and C28: requests in, replies out. *)
From Coq Require Import Strings.String Strings.Byte List NArith ZArith Bool.
From Verif Require Import Bytes Layout Text ReplyQueue ReplyFacts Resp RespSpec RespFacts.
Import ListNotations.
Open Scope N_scope.

(* ----- C28: replies are delivered in order ----- *)

(* While the socket does not fail, what was sent and what still waits are
   together exactly the replies, in order; no step writes through an invalid
   queue pointer (the run is defined). *)
Theorem C28_nothing_lost : forall es, healthy (sends es) ->
  exists o, out_run es out_new = Some o /\ o_sent o ++ queued o = replies es.
Proof. exact nothing_lost. Qed.
Print Assumptions C28_nothing_lost.

(* Also when the connection breaks (and then accepts nothing more): the client
   received a prefix of the replies. *)
Theorem C28_received_is_a_prefix : forall es, dies (sends es) ->
  exists o, out_run es out_new = Some o /\ prefix (o_sent o) (replies es).
Proof. exact received_prefix. Qed.
Print Assumptions C28_received_is_a_prefix.

(* A socket that takes whole buffers empties the queue in one event. *)
Theorem C28_queue_drains : forall o n, Forall (fun r => blen (r_rest r) <= n) (o_chain o) ->
  let o' := delayed_write (repeat (Accepted n) (List.length (o_chain o))) o in
  queued o' = [] /\ o_sent o' = o_sent o ++ queued o.
Proof. exact drained. Qed.
Print Assumptions C28_queue_drains.

Definition ex_out : list out_event :=
  [ EvStack (str "+OK") [Accepted 1; Again]; EvHeap (str "$5hello") [Accepted 3];
    EvWritable [Accepted 9; Accepted 2; Again]; EvStack (str "-ERR") []; EvWritable [Accepted 100; Again] ].

Example C28_ex : healthy (sends ex_out)
  /\ option_map (fun o => (o_sent o, queued o)) (out_run ex_out out_new) = Some (str "+OK$5hello", str "-ERR").
Proof. split; [|vm_compute; reflexivity]. repeat constructor; discriminate. Qed.

Definition ex_broken : list out_event := [ EvStack (str "+OK") [Accepted 1; Pipe]; EvHeap (str "$5hello") [Pipe] ].
Example C28_ex_broken : dies (sends ex_broken)
  /\ option_map o_sent (out_run ex_broken out_new) = Some (str "+").
Proof. split; [|vm_compute; reflexivity]. cbn. repeat constructor; discriminate. Qed.

(* A send error that is not final (an interrupted call, no buffer space) drops
   the rest of the reply but not the following ones: the stream is broken. *)
Theorem C28_transient_error_refuted : exists es o,
  out_run es out_new = Some o /\ ~ prefix (o_sent o) (replies es).
Proof.
  exists [EvStack (str "+OK") [Accepted 1; Fail]; EvStack (str "+PONG") [Accepted 5]].
  eexists. split; [vm_compute; reflexivity|]. intros (c & H). vm_compute in H. discriminate H.
Qed.
Print Assumptions C28_transient_error_refuted.

(* ----- C27: packet boundaries ----- *)

(* Whatever the packets, the reads and the dispatcher: the requests executed so
   far are exactly those whose encoding is complete in the bytes read so far,
   with exactly their arguments, in order; no error is reported. *)
Theorem C27_executed_requests : forall h rs es later, Forall req_ok rs -> arrived es ++ later = enc_reqs rs ->
  exists done todo part,
    let c := conn_run h es conn_new in
    rs = done ++ todo /\ p_trace (k_parser c) = map (map obj_of) done /\ p_errors (k_parser c) = []
    /\ arrived es = enc_reqs done ++ part ++ k_sock c
    /\ (part = [] \/ exists r todo', todo = r :: todo' /\ incomplete part r).
Proof. exact parsing_ok. Qed.
Print Assumptions C27_executed_requests.

(* Two connections that read the same number of bytes of the same stream, cut
   in any way, executed the same requests. *)
Theorem C27_cuts_do_not_matter_partial : forall h1 h2 rs es1 es2 l1 l2, Forall req_ok rs ->
  arrived es1 ++ l1 = enc_reqs rs -> arrived es2 ++ l2 = enc_reqs rs ->
  blen (arrived es1) - blen (unread h1 es1) = blen (arrived es2) - blen (unread h2 es2) ->
  executed h1 es1 = executed h2 es2.
Proof. exact same_executed. Qed.
Print Assumptions C27_cuts_do_not_matter_partial.

(* When the whole stream has been read, every request has been executed. *)
Theorem C27_everything_executed : forall h rs es, Forall req_ok rs -> arrived es = enc_reqs rs -> unread h es = [] ->
  executed h es = map (map obj_of) rs.
Proof. exact all_executed. Qed.
Print Assumptions C27_everything_executed.

(* The parser itself never closes the connection on well-formed requests. *)
Theorem C27_connection_stays_open : forall h rs es later, calm h -> Forall req_ok rs -> arrived es ++ later = enc_reqs rs ->
  k_open (conn_run h es conn_new) = true.
Proof. exact stays_open. Qed.
Print Assumptions C27_connection_stays_open.

(* two requests in five packets, with cuts inside a header, inside a payload and
   between CR and LF *)
Definition ex_rs : list request := [[str "SET"; str "k"; [x0d; x0a; x00]]; [str "GET"; str "k"]].
Definition ok_h (tr : list (list robj)) : status := SUCCESS.
Definition ex_es : list conn_event :=
  let s := enc_reqs ex_rs in
  [Arrive (nfirst 2 s); Readable [5]; Arrive (nfirst 9 (nskip 2 s)); Readable [1; 1; 3; 9]; Arrive (nskip 11 s); Readable [4; 2; 1; 100]; Readable [7; 7; 100]].

Example C27_ex : Forall req_ok ex_rs /\ arrived ex_es = enc_reqs ex_rs /\ calm ok_h
  /\ unread ok_h ex_es = [] /\ executed ok_h ex_es = map (map obj_of) ex_rs.
Proof.
  split; [repeat constructor; vm_compute; discriminate|]. split; [vm_compute; reflexivity|].
  split; [intros tr; exact I|]. split; vm_compute; reflexivity.
Qed.

(* FINDINGS about connections *)

(* A dispatcher that asks for the connection to be closed (the client's namespace
   was removed, zdbd/commands.c:167-171) is obeyed or not depending on the
   packets: its verdict is overwritten by the next request of the same read. *)
Definition closing_h (tr : list (list robj)) : status := match tr with [_] => DISCARD | _ => SUCCESS end.

Theorem C27_closing_depends_on_packets_refuted : exists h rs es1 es2,
  Forall req_ok rs /\ arrived es1 = enc_reqs rs /\ arrived es2 = enc_reqs rs
  /\ executed h es1 = map (map obj_of) rs /\ k_open (conn_run h es1 conn_new) = true
  /\ executed h es2 <> executed h es1 /\ k_open (conn_run h es2 conn_new) = false.
Proof.
  exists closing_h, ex_rs, [Arrive (enc_reqs ex_rs); Readable [1000]],
    [Arrive (enc_reqs [hd [] ex_rs]); Readable [1000]; Arrive (enc_reqs (tl ex_rs)); Readable [1000]].
  split; [repeat constructor; vm_compute; discriminate|].
  split; [vm_compute; reflexivity|]. split; [vm_compute; reflexivity|]. split; [vm_compute; reflexivity|].
  split; [vm_compute; reflexivity|]. split; [|vm_compute; reflexivity].
  vm_compute. discriminate.
Qed.
Print Assumptions C27_closing_depends_on_packets_refuted.

(* The server stops reading when a read ends exactly at the end of a request,
   even if the socket still holds bytes; the event loop is edge-triggered
   (zdbd/socket_epoll.c:38-44), so nothing reports them until more bytes
   arrive.  Here a request of exactly the buffer size is followed by another:
   everything has arrived, the socket was readable, every read takes as much as
   it can, and the second request stays unread. *)
Definition big_rs : list request := [[str "SET"; str "k"; zeros 8163]; [str "GET"; str "k"]].

Lemma chunk_read_success h n more sock p v p' sock' :
  chunk_read h [n] sock p v = (p', sock', SUCCESS) -> sock <> [] -> chunk_read h (n :: more) sock p v = (p', sock', SUCCESS).
Proof.
  cbn [chunk_read]. intros E Hs. destruct (b_remain p =? 0); [exact E|]. destruct sock as [|b0 s0]; [congruence|].
  destruct (recv n (b0 :: s0) p) as [p1 sock1]. destruct (parse_loop h (loop_fuel p1) p1 v) as [p2 v2] eqn:L.
  destruct v2; try exact E;
    (destruct (b_remain p2 =? 0); inversion E).
Qed.

Definition digest (r : parser * bytes * status) : nat * bytes * bool :=
  let '(p, sock, v) := r in (List.length (p_trace p), sock, match v with SUCCESS => true | _ => false end).

Lemma big_computed : digest (chunk_read ok_h [8192] (enc_reqs big_rs) parser_new SUCCESS)
  = (1%nat, enc_req [str "GET"; str "k"], true).
Proof. vm_compute. reflexivity. Qed.

Lemma big_ok : Forall req_ok big_rs.
Proof.
  constructor; [|constructor; [|constructor]].
  - split; [discriminate|]. split; [vm_compute; discriminate|].
    constructor; [vm_compute; discriminate|]. constructor; [vm_compute; discriminate|]. constructor; [vm_compute; discriminate|constructor].
  - split; [discriminate|]. split; [vm_compute; discriminate|].
    constructor; [vm_compute; discriminate|]. constructor; [vm_compute; discriminate|constructor].
Qed.

Lemma stalls : Forall req_ok big_rs /\ (2 <= List.length big_rs)%nat /\
  forall more, let c := conn_run ok_h [Arrive (enc_reqs big_rs); Readable (8192 :: more)] conn_new in
    k_open c = true /\ List.length (p_trace (k_parser c)) = 1%nat /\ k_sock c <> [].
Proof.
  split; [exact big_ok|]. split; [apply le_n|]. intros more. cbn zeta.
  unfold conn_run. cbn [fold_left conn_step conn_new k_sock k_parser k_open app].
  pose proof big_computed as B. revert B.
  destruct (chunk_read ok_h [8192] (enc_reqs big_rs) parser_new SUCCESS) as [[p sock] v] eqn:E. intros B.
  destruct v; try discriminate B.
  rewrite (chunk_read_success _ _ more _ _ _ _ _ E) by discriminate.
  cbn [k_open k_parser k_sock]. split; [reflexivity|].
  assert (L : List.length (p_trace p) = 1%nat) by exact (f_equal (fun x => fst (fst x)) B).
  assert (K : sock = enc_req [str "GET"; str "k"]) by exact (f_equal (fun x => snd (fst x)) B).
  split; [exact L|]. rewrite K. discriminate.
Qed.

Theorem C27_full_buffer_stalls_refuted : exists rs,
  Forall req_ok rs /\ (2 <= List.length rs)%nat /\
  forall more, let c := conn_run ok_h [Arrive (enc_reqs rs); Readable (8192 :: more)] conn_new in
    k_open c = true /\ List.length (p_trace (k_parser c)) = 1%nat /\ k_sock c <> [].
Proof. exact (ex_intro _ big_rs stalls). Qed.
Print Assumptions C27_full_buffer_stalls_refuted.

(* An empty array is answered by an error but not consumed: the requests that
   follow it on the connection are never executed. *)
Theorem C27_empty_array_wedges_refuted : exists es,
  arrived es = str "*0" ++ CRLF ++ enc_reqs ex_rs /\ unread ok_h es = [] /\ executed ok_h es = []
  /\ k_open (conn_run ok_h es conn_new) = true.
Proof.
  exists [Arrive (str "*0" ++ CRLF); Readable [100]; Arrive (enc_reqs ex_rs); Readable [100]].
  vm_compute. auto.
Qed.
Print Assumptions C27_empty_array_wedges_refuted.
