(* MODEL.  The reply queue of one client: what is handed to the socket at
   once, what waits, and how the waiting part is sent later. *)
From Coq Require Import List NArith Bool Strings.Byte.
From Verif Require Import Bytes.
Import ListNotations.
Open Scope N_scope.

(* the possible results of one send(2) on a non-blocking socket.  Accepted n:
   the kernel took n bytes; a send of a non-empty buffer takes at least one
   byte and at most the whole buffer, so n is clamped to that range.  Again:
   EAGAIN.  Pipe: EPIPE.  Fail: any other error. *)
Inductive sendres := Accepted (n : N) | Again | Pipe | Fail.

(* zdbd/redis.h:88-101, redis_response_t.  The address of the object is a
   number; the already sent part of the buffer is not kept (reader and length
   delimit the rest); the destructor is not modelled. *)
Record response := mkResp { r_addr : N; r_rest : bytes }.

(* zdbd/redis.h, the fields responses and responsetail of redis_client_t.  The
   list is the chain of next pointers from responses; the tail is the address
   held by responsetail.  sent is what the kernel has accepted so far and next
   the next unused address. *)
Record client_out := mkOut { o_sent : bytes; o_chain : list response; o_tail : option N; o_next : N }.

(* zdbd/redis.c:887-889 *)
Definition out_new : client_out := mkOut [] [] None 0.

(* zdbd/redis.c:163-206, redis_send_response: the bytes accepted, the rest of
   the response and whether the response must be kept (a non-NULL result).
   The list holds the results of the successive send calls; when it is
   exhausted the socket answers EAGAIN. *)
Fixpoint send_response (os : list sendres) (rest : bytes) (sent : bytes) : bytes * bytes * bool * list sendres :=
  match rest, os with
  | [], _ => (sent, [], false, os)
  | _, [] => (sent, rest, true, [])
  | _, Again :: os' => (sent, rest, true, os')
  | _, Pipe :: os' => (sent, [], false, os')
  | _, Fail :: os' => (sent, rest, false, os')
  | _, Accepted n :: os' =>
      let k := N.max 1 (N.min n (blen rest)) in
      send_response os' (nskip k rest) (sent ++ nfirst k rest)
  end.

(* the chain as seen through the tail pointer: appending after the node whose
   address is the tail.  None: the tail pointer does not point into the chain *)
Fixpoint link_after (a : N) (chain : list response) (r : response) : option (list response) :=
  match chain with
  | [] => None
  | h :: t => if r_addr h =? a then Some [h; r] else option_map (cons h) (link_after a t r)
  end.

(* zdbd/redis.c:143-158, redis_response_push.  None: write through an invalid
   pointer *)
Definition response_push (o : client_out) (rest : bytes) : option client_out :=
  let r := mkResp (o_next o) rest in
  match o_chain o, o_tail o with
  | [], _ => Some (mkOut (o_sent o) [r] (Some (r_addr r)) (o_next o + 1))
  | chain, Some a =>
      match link_after a chain r with
      | Some chain' => Some (mkOut (o_sent o) chain' (Some (r_addr r)) (o_next o + 1))
      | None => None
      end
  | _, None => None
  end.

(* zdbd/redis.c:223-247, the loop of redis_delayed_write over the chain *)
Fixpoint delayed_loop (os : list sendres) (chain : list response) (sent : bytes) (tail : option N)
  : bytes * list response * option N :=
  match chain with
  | [] => (sent, [], tail)
  | r :: next =>
      let '(sent', rest', kept, os') := send_response os (r_rest r) sent in
      if kept then (sent', mkResp (r_addr r) rest' :: next, tail)
      else delayed_loop os' next sent' (match next with [] => None | _ => tail end)
  end.

(* zdbd/redis.c:211-250, redis_delayed_write *)
Definition delayed_write (os : list sendres) (o : client_out) : client_out :=
  match o_chain o with
  | [] => o
  | chain => let '(sent, chain', tail') := delayed_loop os chain (o_sent o) (o_tail o) in
             mkOut sent chain' tail' (o_next o)
  end.

(* zdbd/redis.c:254-277, redis_reply_heap *)
Definition reply_heap (os : list sendres) (payload : bytes) (o : client_out) : option client_out :=
  match o_chain o with
  | [] =>
      let '(sent, rest, kept, _) := send_response os payload (o_sent o) in
      let o' := mkOut sent [] (o_tail o) (o_next o) in
      if kept then response_push o' rest else Some o'
  | _ => response_push o payload
  end.

(* zdbd/redis.c:285-333, redis_reply_stack: the part already sent is skipped in
   the copy by the distance reader - buffer, which is the difference between
   the lengths *)
Definition reply_stack (os : list sendres) (payload : bytes) (o : client_out) : option client_out :=
  match o_chain o with
  | [] =>
      let '(sent, rest, kept, _) := send_response os payload (o_sent o) in
      let o' := mkOut sent [] (o_tail o) (o_next o) in
      if kept then response_push o' (nskip (blen payload - blen rest) payload) else Some o'
  | _ => response_push o payload
  end.

(* what happens to one connection: a command replies (from a heap or a stack
   buffer), or the event loop finds the socket writable (zdbd/socket_epoll.c:108-110) *)
Inductive out_event :=
  | EvHeap (payload : bytes) (os : list sendres)
  | EvStack (payload : bytes) (os : list sendres)
  | EvWritable (os : list sendres).

Definition out_step (e : out_event) (o : client_out) : option client_out :=
  match e with
  | EvHeap p os => reply_heap os p o
  | EvStack p os => reply_stack os p o
  | EvWritable os => Some (delayed_write os o)
  end.

Fixpoint out_run (es : list out_event) (o : client_out) : option client_out :=
  match es with
  | [] => Some o
  | e :: es' => match out_step e o with Some o' => out_run es' o' | None => None end
  end.
