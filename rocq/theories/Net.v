(* MODEL.  The event loop of the server: connections with their receive buffers,
   requests and reply queues around the server of Server.v (zdbd/socket_epoll.c,
   zdbd/redis.c).  All connections, one thread.

   Not modelled: failures of accept, epoll_ctl and of small allocations; what happens to
   the connections after the server was stopped (zdbd/redis.c:1370-1379); the grouping of
   events by epoll_wait and the count after which the idle work is forced: every event
   may be followed by every other. *)
From Coq Require Import Strings.String Strings.Byte List NArith ZArith Bool.
From Verif Require Import Bytes Layout Text Commands Dispatch Namespace Resp ReplyQueue Server.
Import ListNotations.
Open Scope N_scope.

(* the fields buffer and request of redis_client_t (zdbd/redis.h:106-140) with the
   unread bytes of its socket, the reply queue, both by socket, and whether the loop is
   still running *)
Record net := mkNet {
  e_world : world; e_in : N -> option (parser * bytes); e_out : N -> option client_out; e_up : bool
}.

(* a server that was just started *)
Definition net_new (w : world) : net := mkNet w (fun _ => None) (fun _ => None) true.

Definition upd {A} (fd : N) (o : option A) (f : N -> option A) : N -> option A :=
  fun k => if k =? fd then o else f k.

(* how a handler hands over its reply: pieces (most handlers: one; MGET, commands_get.c:102,
   and NSLIST, commands_namespace.c:255-262: several), each from the heap or from the
   stack, with the results of the send calls for it *)
Definition how : Type := list (bool * N * list sendres).

(* zdbd/redis.c:254-333: the pieces in order; what is left of the reply goes out as one
   more piece, which the socket does not take at once *)
Fixpoint hand_over (hw : how) (payload : bytes) (o : client_out) : option client_out :=
  match payload, hw with
  | [], _ => Some o
  | _, [] => reply_stack [] payload o
  | _, (heap, n, os) :: t =>
      match (if heap : bool then reply_heap os (nfirst n payload) o else reply_stack os (nfirst n payload) o) with
      | None => None
      | Some o' => hand_over t (nskip n payload) o'
      end
  end.

(* a reply or a message for the client of a socket; None: no client there (a null
   pointer) *)
Definition send_to (hw : how) (fd : N) (payload : bytes) (outs : N -> option client_out) : option (N -> option client_out) :=
  match outs fd with
  | None => None
  | Some o => match hand_over hw payload o with
              | None => None
              | Some o' => Some (upd fd (Some o') outs)
              end
  end.

Fixpoint send_all (hws : N -> how) (i : N) (l : list (N * bytes)) (outs : N -> option client_out) : option (N -> option client_out) :=
  match l with
  | [] => Some outs
  | (fd, m) :: t => match send_to (hws i) fd m outs with
                    | None => None
                    | Some outs' => send_all hws (i + 1) t outs'
                    end
  end.

(* argv[i]->buffer and argv[i]->length as the handlers see them.  None: a negative length
   (accepted by zdbd/redis.c:494-521), with which the handlers read outside of the buffer *)
Definition obj_bytes (o : robj) : option bytes :=
  if (ob_length o <? 0)%Z then None else Some (nfirst (Z.to_N (ob_length o)) (ob_data o)).

Fixpoint args (l : list robj) : option (list bytes) :=
  match l with
  | [] => Some []
  | o :: t => match obj_bytes o, args t with Some b, Some r => Some (b :: r) | _, _ => None end
  end.

(* zdbd/redis.c:733-780: one pass of the parsing loop, up to the test whether the
   request is complete *)
Definition parse_front (p : parser) : parser * status * bool :=
  let '(p1, v1, stop1) :=
    match q_state p with
    | RESP_EMPTY => match handle_empty p with (p', SUCCESS) => (p', SUCCESS, false) | (p', v) => (p', v, true) end
    | _ => (p, SUCCESS, false)
    end in
  if stop1 then (p1, v1, true) else
  let '(p2, v2, stop2) :=
    match q_state p1 with
    | RESP_FILLIN_HEADER => match handle_header p1 with (p', CONTINUE) => (p', CONTINUE, false) | (p', v) => (p', v, true) end
    | _ => (p1, v1, false)
    end in
  if stop2 then (p2, v2, true) else
  match q_state p2 with
  | RESP_FILLIN_PAYLOAD => match handle_payload p2 with (p', CONTINUE) => (p', CONTINUE, false) | (p', v) => (p', v, true) end
  | _ => (p2, v2, false)
  end.

Section Reading.
Variable g : server.
Variable fd : N.
(* what the k-th request of this event gets from its environment, and how its replies
   go out *)
Variable x : N -> env * (N -> how).
(* how the error lines of the parser go out *)
Variable y : N -> how.

(* the error lines that the parser sent (zdbd/redis.c:379-386) *)
Fixpoint send_errors (i : N) (l : list bytes) (outs : N -> option client_out) : option (N -> option client_out) :=
  match l with
  | [] => Some outs
  | m :: t => match send_to (y i) fd m outs with None => None | Some outs' => send_errors (i + 1) t outs' end
  end.

(* zdbd/redis.c:648-678, redis_handle_resp_finished; the request is emptied after its
   execution.  A handler returns 0 (success) or 1 (abnormal), mostly when it sent an
   error; which of the two is an input here. *)
Definition returned (v : env) (st : status) : status := match st with SUCCESS => if v_one v then ABNORMAL else SUCCESS | _ => st end.

Definition finish (k : N) (p : parser) (w : world) (outs : N -> option client_out)
  : option (parser * status * world * (N -> option client_out)) :=
  match args (q_argv p) with
  | None => None
  | Some argv =>
      match request g (fst (x k)) fd argv w with
      | SUndef => None
      | SDone out st w' =>
          match send_all (snd (x k)) 0 out outs with
          | None => None
          | Some outs' =>
              Some (mkParser (b_off p) (b_data p) (b_remain p) RESP_EMPTY (q_fillin p) 0 []
                      (p_trace p ++ [q_argv p]) (p_errors p), returned (fst (x k)) st, w', outs')
          end
      end
  end.

(* zdbd/redis.c:733-789: while(reader < writer) *)
Fixpoint net_loop (fuel : nat) (k : N) (p : parser) (v : status) (w : world) (outs : N -> option client_out)
  : option (N * parser * status * world * (N -> option client_out)) :=
  match b_data p with
  | [] => Some (k, p, v, w, outs)
  | _ =>
      match fuel with
      | O => None
      | S fuel' =>
          let '(p1, v1, stop) := parse_front p in
          match send_errors (nlen (p_errors p)) (skipn (List.length (p_errors p)) (p_errors p1)) outs with
          | None => None
          | Some outs1 =>
              if stop then Some (k, p1, v1, w, outs1)
              else if (q_fillin p1 =? q_argc p1)%Z then
                match finish k p1 w outs1 with
                | None => None
                | Some (p2, v2, w2, outs2) => net_loop fuel' (k + 1) p2 v2 w2 outs2
                end
              else net_loop fuel' k p1 v1 w outs1
          end
      end
  end.

(* the last recv: nothing more now, end of the stream, or an error *)
Inductive last_recv := RAgain | REnd | RError.

(* zdbd/redis.c:681-812, redis_chunk_read *)
Fixpoint net_chunk (cuts : list N) (e : last_recv) (k : N) (sock : bytes) (p : parser) (v : status) (w : world)
  (outs : N -> option client_out) : option (parser * bytes * status * world * (N -> option client_out)) :=
  if b_remain p =? 0 then Some (p, sock, DISCARD, w, outs) else
  match cuts, sock with
  | [], _ | _, [] =>
      Some (p, sock, match e with RAgain => v | REnd => DISCONNECTED | RError => ABNORMAL end, w, outs)
  | n :: cuts', _ =>
      let '(p1, sock1) := recv n sock p in
      match net_loop (loop_fuel p1) k p1 v w outs with
      | None => None
      | Some (k2, p2, v2, w2, outs2) =>
          match v2 with
          | UNDEF => None
          | DISCARD | DISCONNECTED | DONE | SHUTDOWN | SUCCESS => Some (p2, sock1, v2, w2, outs2)
          | _ => net_chunk cuts' e k2 sock1 p2 v2 w2 outs2
          end
      end
  end.
End Reading.

Inductive nevent :=
| NAccept (fd : N)                       (* a connection, which gets this socket *)
| NArrive (fd : N) (b : bytes)           (* bytes arrive at the socket *)
| NRead (fd : N) (cuts : list N) (e : last_recv) (x : N -> env * (N -> how)) (y : N -> how)
| NWrite (fd : N) (os : list sendres)
| NHup (fd : N)
| NIdle (now : N * N) (old : list N) (hws : N -> how).

(* zdbd/redis.c:915-940, socket_client_free: what waits in the queue is dropped *)
Definition net_close (fd : N) (n : net) : option net :=
  match close fd (e_world n) with
  | SUndef => None
  | SDone _ _ w => Some (mkNet w (upd fd None (e_in n)) (upd fd None (e_out n)) (e_up n))
  end.

(* zdbd/socket_epoll.c:53-114, socket_event, and 144-168, the loop of socket_handler.
   Events of a socket without connection do not occur; they change nothing here.  None:
   undefined behaviour, or the loop has ended. *)
Definition net_step (g : server) (ev : nevent) (n : net) : option net :=
  if negb (e_up n) then None else
  match ev with
  | NAccept fd =>
      match connect g fd (e_world n) with
      | SUndef => None
      | SDone _ _ w => Some (mkNet w (upd fd (Some (parser_new, [])) (e_in n)) (upd fd (Some out_new) (e_out n)) true)
      end
  | NArrive fd b =>
      match e_in n fd with
      | None => Some n
      | Some (p, sock) => Some (mkNet (e_world n) (upd fd (Some (p, sock ++ b)) (e_in n)) (e_out n) true)
      end
  | NRead fd cuts e x y =>
      match e_in n fd with
      | None => Some n
      | Some (p, sock) =>
          match net_chunk g fd x y cuts e 0 sock p SUCCESS (e_world n) (e_out n) with
          | None => None
          | Some (p', sock', v, w', outs') =>
              let n' := mkNet w' (upd fd (Some (p', sock')) (e_in n)) outs' true in
              match v with
              | DISCARD | DISCONNECTED => net_close fd n'
              | SHUTDOWN => Some (mkNet w' (e_in n') outs' false)
              | UNDEF => None
              | _ => Some n'
              end
          end
      end
  | NWrite fd os =>
      match e_out n fd with
      | None => Some n
      | Some o => Some (mkNet (e_world n) (e_in n) (upd fd (Some (delayed_write os o)) (e_out n)) true)
      end
  | NHup fd => match e_in n fd with None => Some n | Some _ => net_close fd n end
  | NIdle now old hws =>
      match idle g now old (e_world n) with
      | SUndef => None
      | SDone out _ w =>
          match send_all hws 0 out (e_out n) with
          | None => None
          | Some outs' => Some (mkNet w (e_in n) outs' true)
          end
      end
  end.

Fixpoint net_run (g : server) (evs : list nevent) (n : net) : option net :=
  match evs with
  | [] => Some n
  | ev :: t => match net_step g ev n with None => None | Some n' => net_run g t n' end
  end.
