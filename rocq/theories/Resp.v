(* MODEL.  The RESP request parser: one receive buffer and one request object
   per client.  Clients in replication mode (client->master) are not modelled,
   nor are failing small allocations. *)
From Coq Require Import List NArith ZArith Bool Strings.Byte Strings.String.
From Verif Require Import Bytes Layout Text.
Import ListNotations.
Open Scope N_scope.

(* zdbd/redis.h, REDIS_BUFFER_SIZE and REDIS_MAX_PAYLOAD *)
Definition REDIS_BUFFER_SIZE : N := 8192.
Definition REDIS_MAX_PAYLOAD : Z := 8388608.

(* zdbd/redis.h:63-73, resp_status_t; UNDEF stands for a read of bytes that were
   never received (no C value) *)
Inductive status := SUCCESS | ABNORMAL | DISCARD | DISCONNECTED | CONTINUE | DONE | SHUTDOWN | RESET | UNDEF.

(* zdbd/redis.h:35-40, resp_state_t *)
Inductive pstate := RESP_EMPTY | RESP_FILLIN_HEADER | RESP_FILLIN_PAYLOAD.

(* zdbd/redis.h:26-33, resp_object_t: length, size and the bytes filled so far
   (filled is their number) *)
Record robj := mkObj { ob_length : Z; ob_size : N; ob_data : bytes }.

(* the buffer (zdbd/redis.h:79-86): offset of the reader, the bytes between
   reader and writer, the space after the writer.  The request
   (zdbd/redis.h:43-50): state, fillin, argc and the arguments; the last one of
   the list is the one being filled.  p_trace: the requests given to the
   dispatcher so far.  p_errors: the error lines sent by the parser. *)
Record parser := mkParser {
  b_off : N; b_data : bytes; b_remain : N;
  q_state : pstate; q_fillin : Z; q_argc : Z; q_argv : list robj;
  p_trace : list (list robj); p_errors : list bytes }.

(* zdbd/redis.c:78-93 buffer_new and 881-894 socket_client_new.  fillin is not
   initialised by the code; it is written before it is read *)
Definition parser_new : parser := mkParser 0 [] REDIS_BUFFER_SIZE RESP_EMPTY 0 0 [] [] [].

(* zdbd/redis.c:53-58, buffer_reset *)
Definition buffer_reset (p : parser) : parser :=
  mkParser 0 [] REDIS_BUFFER_SIZE (q_state p) (q_fillin p) (q_argc p) (q_argv p) (p_trace p) (p_errors p).

(* zdbd/redis.c:62-76, buffer_shift *)
Definition buffer_shift (p : parser) : parser :=
  if b_off p =? 0 then p else
  mkParser 0 (b_data p) (REDIS_BUFFER_SIZE - blen (b_data p))
    (q_state p) (q_fillin p) (q_argc p) (q_argv p) (p_trace p) (p_errors p).

(* buffer->reader += n *)
Definition advance (n : N) (p : parser) : parser :=
  mkParser (b_off p + n) (nskip n (b_data p)) (b_remain p)
    (q_state p) (q_fillin p) (q_argc p) (q_argv p) (p_trace p) (p_errors p).

Definition set_request (st : pstate) (fillin argc : Z) (argv : list robj) (p : parser) : parser :=
  mkParser (b_off p) (b_data p) (b_remain p) st fillin argc argv (p_trace p) (p_errors p).

(* zdbd/redis.c:379-386, resp_discard *)
Definition resp_error (m : string) (p : parser) : parser :=
  mkParser (b_off p) (b_data p) (b_remain p) (q_state p) (q_fillin p) (q_argc p) (q_argv p)
    (p_trace p) (p_errors p ++ [hardsend m]).

(* memchr(reader, '\n', ...): the number of bytes before the newline *)
Fixpoint find_nl (l : bytes) : option N :=
  match l with
  | [] => None
  | b :: t => if b2n b =? 10 then Some 0 else option_map N.succ (find_nl t)
  end.

(* digits with an end: None when the digits run to the end of the data *)
Fixpoint digits_in (l : bytes) (acc : N) : option N :=
  match l with
  | [] => None
  | b :: t => if is_digit b then digits_in t (acc * 10 + (b2n b - 48)) else Some acc
  end.

(* conversion of a long to int *)
Definition to_int (z : Z) : Z := ((z + 2147483648) mod 4294967296 - 2147483648)%Z.

(* atoi(3) on the receive buffer, which is not NUL-terminated: None when it
   would read past the received bytes (white space includes the newline).
   glibc: (int) strtol, which saturates. *)
Definition atoi_in (l : bytes) : option Z :=
  match skip_space l with
  | [] => None
  | b :: t =>
      if b2n b =? 45 then option_map (fun n => to_int (Z.max (- 9223372036854775808) (- Z.of_N n))) (digits_in t 0)
      else if b2n b =? 43 then option_map (fun n => to_int (Z.min 9223372036854775807 (Z.of_N n))) (digits_in t 0)
      else option_map (fun n => to_int (Z.min 9223372036854775807 (Z.of_N n))) (digits_in (b :: t) 0)
  end.

(* zdbd/redis.c:405-466, redis_handle_resp_empty.  A negative argc makes the
   calloc of line 453 fail by overflow. *)
Definition handle_empty (p : parser) : parser * status :=
  match find_nl (b_data p), b_data p with
  | Some i, star :: line =>
      if negb (b2n star =? 42) then (resp_error "-Malformed request, array expected" p, DISCARD) else
      match atoi_in line with
      | None => (p, UNDEF)
      | Some argc =>
          let p := set_request (q_state p) (q_fillin p) argc (q_argv p) p in
          if (argc =? 0)%Z then (resp_error "-Missing arguments" p, ABNORMAL) else
          if (1024 <? argc)%Z then (resp_error "-Too many arguments" p, ABNORMAL) else
          if (argc <? 0)%Z then (resp_error "-Internal memory error" p, DISCARD) else
          (advance (i + 1) (set_request RESP_FILLIN_HEADER 0 argc [] p), SUCCESS)
      end
  | _, _ => if b_remain p =? 0 then (buffer_shift p, RESET) else (p, CONTINUE)
  end.

(* zdbd/redis.c:468-533, redis_handle_resp_header.  The test reader > writer of
   line 475 never holds in this representation.  size is an int computed before
   the limit is checked; for lengths near INT_MAX the sum overflows and is not
   used.  A negative size makes the malloc of line 521 fail. *)
Definition handle_header (p : parser) : parser * status :=
  match find_nl (b_data p), b_data p with
  | Some i, dollar :: line =>
      if negb (b2n dollar =? 36) then (resp_error "-Malformed query string" p, ABNORMAL) else
      match atoi_in line with
      | None => (p, UNDEF)
      | Some len =>
          if (REDIS_MAX_PAYLOAD <? len)%Z then (resp_error "-Payload too big" p, DISCARD) else
          if (len + 2 <? 0)%Z then (resp_error "-Internal memory error" p, DISCARD) else
          (advance (i + 1) (set_request RESP_FILLIN_PAYLOAD (q_fillin p) (q_argc p)
                              (q_argv p ++ [mkObj len (Z.to_N (len + 2)) []]) p), CONTINUE)
      end
  | _, _ => if b_remain p =? 0 then (buffer_shift p, RESET) else (p, ABNORMAL)
  end.

(* argument->filled += n, for the last argument *)
Definition fill (more : bytes) (argv : list robj) : list robj :=
  match rev argv with
  | [] => []
  | a :: t => rev t ++ [mkObj (ob_length a) (ob_size a) (ob_data a ++ more)]
  end.

Definition last_obj (argv : list robj) : robj := last argv (mkObj 0 0 []).

(* zdbd/redis.c:535-603, redis_handle_resp_payload *)
Definition handle_payload (p : parser) : parser * status :=
  let available := blen (b_data p) in
  if available =? 0 then
    (if b_remain p =? 0 then (buffer_shift p, RESET) else (p, CONTINUE))
  else
  let arg := last_obj (q_argv p) in
  let needed := ob_size arg - blen (ob_data arg) in
  if needed <=? available then
    let p1 := set_request RESP_FILLIN_HEADER (q_fillin p + 1) (q_argc p) (fill (nfirst needed (b_data p)) (q_argv p)) p in
    let p2 := advance needed p1 in
    ((if available =? needed then buffer_reset p2 else p2), CONTINUE)
  else
    (buffer_reset (set_request (q_state p) (q_fillin p) (q_argc p) (fill (b_data p) (q_argv p)) p), CONTINUE).

Section Handler.
(* the status returned by the dispatcher (zdbd/commands.c:160-208), as a
   function of all the requests executed so far on this connection *)
Variable h : list (list robj) -> status.

(* zdbd/redis.c:652-678, redis_handle_resp_finished, for a client that is not a
   replication source; the request is emptied (redis.c:388-403) but fillin keeps
   its value *)
Definition handle_finished (p : parser) : parser * status :=
  let tr := p_trace p ++ [q_argv p] in
  (mkParser (b_off p) (b_data p) (b_remain p) RESP_EMPTY (q_fillin p) 0 [] tr (p_errors p), h tr).

(* zdbd/redis.c:733-788: one pass of the parsing loop; the boolean tells
   whether the loop was left by break *)
Definition parse_pass (p : parser) : parser * status * bool :=
  let '(p1, v1, stop1) :=
    match q_state p with
    | RESP_EMPTY => match handle_empty p with (p', SUCCESS) => (p', SUCCESS, false) | (p', v) => (p', v, true) end
    | _ => (p, SUCCESS, false)
    end in
  if stop1 then (p1, v1, true) else
  let '(p2, v2, stop2) :=
    match q_state p1 with
    | RESP_FILLIN_HEADER => match handle_header p1 with (p', CONTINUE) => (p', CONTINUE, false) | (p', v) => (p', v, true) end
    | _ => (p1, v1, false)
    end in
  if stop2 then (p2, v2, true) else
  let '(p3, v3, stop3) :=
    match q_state p2 with
    | RESP_FILLIN_PAYLOAD => match handle_payload p2 with (p', CONTINUE) => (p', CONTINUE, false) | (p', v) => (p', v, true) end
    | _ => (p2, v2, false)
    end in
  if stop3 then (p3, v3, true) else
  if (q_fillin p3 =? q_argc p3)%Z then let '(p4, v4) := handle_finished p3 in (p4, v4, false)
  else (p3, v3, false).

(* zdbd/redis.c:733-789: while(reader < writer).  A pass consumes a byte or is
   followed by one that does; the fuel given below is never exhausted *)
Fixpoint parse_loop (fuel : nat) (p : parser) (v : status) : parser * status :=
  match b_data p with
  | [] => (p, v)
  | _ =>
      match fuel with
      | O => (p, UNDEF)
      | S fuel' => let '(p', v', stop) := parse_pass p in if stop then (p', v') else parse_loop fuel' p' v'
      end
  end.

Definition loop_fuel (p : parser) : nat := 2 * List.length (b_data p) + 2.

(* recv(fd, writer, remain): the socket holds some bytes, the kernel chooses how
   many of them to deliver, at least one and at most remain *)
Definition recv (n : N) (sock : bytes) (p : parser) : parser * bytes :=
  let k := N.max 1 (N.min n (b_remain p)) in
  let got := nfirst k sock in
  (mkParser (b_off p) (b_data p ++ got) (b_remain p - blen got)
     (q_state p) (q_fillin p) (q_argc p) (q_argv p) (p_trace p) (p_errors p), nskip k sock).

(* zdbd/redis.c:682-812, redis_chunk_read.  The list says how many bytes each
   recv delivers; when the socket or the list is empty recv answers EAGAIN.
   End of stream and recv errors are not modelled here. *)
Fixpoint chunk_read (cuts : list N) (sock : bytes) (p : parser) (value : status) : parser * bytes * status :=
  if b_remain p =? 0 then (p, sock, DISCARD) else
  match cuts, sock with
  | [], _ | _, [] => (p, sock, value)
  | n :: cuts', _ =>
      let '(p1, sock1) := recv n sock p in
      let '(p2, v) := parse_loop (loop_fuel p1) p1 value in
      match v with
      | DISCARD | DISCONNECTED | DONE | SHUTDOWN | UNDEF | SUCCESS => (p2, sock1, v)
      | _ => chunk_read cuts' sock1 p2 v
      end
  end.

(* one connection: parser, unread bytes in the socket, and whether the server
   still serves it (zdbd/socket_epoll.c:85-106) *)
Record conn := mkConn { k_parser : parser; k_sock : bytes; k_open : bool }.
Definition conn_new : conn := mkConn parser_new [] true.

(* bytes arrive from the network, or the event loop finds the socket readable *)
Inductive conn_event := Arrive (b : bytes) | Readable (cuts : list N).

Definition conn_step (e : conn_event) (c : conn) : conn :=
  match e with
  | Arrive b => mkConn (k_parser c) (k_sock c ++ b) (k_open c)
  | Readable cuts =>
      if k_open c then
        let '(p, sock, v) := chunk_read cuts (k_sock c) (k_parser c) SUCCESS in
        mkConn p sock (match v with DISCARD | DISCONNECTED | SHUTDOWN | UNDEF => false | _ => true end)
      else c
  end.

Definition conn_run (es : list conn_event) (c : conn) : conn := fold_left (fun c e => conn_step e c) es c.
End Handler.
