(* SPECIFICATION.  What the clients of a server send and receive over their connections,
   and how a sequence of requests accounts for it. *)
From Coq Require Import Strings.String Strings.Byte List NArith ZArith Bool.
From Verif Require Import Bytes Layout Text Resp RespSpec ReplyQueue ReplyFacts Server Net.
Import ListNotations.
Open Scope N_scope.

(* ---- in the sequence of requests ---- *)

(* the requests of the client of the socket fd since it connected *)
Definition asked_step (fd : N) (acc : list (list bytes)) (e : sevent) : list (list bytes) :=
  match e with
  | SConnect f => if f =? fd then [] else acc
  | SRequest f _ a => if f =? fd then acc ++ [a] else acc
  | _ => acc
  end.
Definition asked (fd : N) (es : list sevent) : list (list bytes) := fold_left (asked_step fd) es [].

(* the messages for the client of the socket fd since it connected, one after the other *)
Definition for_fd (fd : N) (out : list (N * bytes)) : bytes :=
  List.concat (map snd (filter (fun m => fst m =? fd) out)).
Definition told_step (fd : N) (acc : bytes) (eo : sevent * list (N * bytes)) : bytes :=
  match fst eo with
  | SConnect f => if f =? fd then [] else acc
  | _ => acc ++ for_fd fd (snd eo)
  end.
Definition told_to (fd : N) (es : list sevent) (outs : list (list (N * bytes))) : bytes :=
  fold_left (told_step fd) (combine es outs) [].

(* ---- in the network ---- *)

(* the bytes which arrived at the socket fd since its connection was accepted *)
Definition arrived_step (fd : N) (acc : bytes) (e : nevent) : bytes :=
  match e with
  | NAccept f => if f =? fd then [] else acc
  | NArrive f b => if f =? fd then acc ++ b else acc
  | _ => acc
  end.
Definition arrived_on (fd : N) (evs : list nevent) : bytes := fold_left (arrived_step fd) evs [].

(* no send fails *)
Definition healthy_how (h : how) : Prop := Forall (fun x => healthy (snd x)) h.
Definition healthy_event (e : nevent) : Prop :=
  match e with
  | NAccept _ | NArrive _ _ | NHup _ => True
  | NRead _ _ _ x y => (forall k i, healthy_how (snd (x k) i)) /\ (forall i, healthy_how (y i))
  | NWrite _ os => healthy os
  | NIdle _ _ h => forall i, healthy_how (h i)
  end.

Definition connected (fd : N) (n : net) : Prop := e_in n fd <> None.

(* what the client of fd received, and what waits for it *)
Definition received (fd : N) (n : net) : bytes := match e_out n fd with Some o => o_sent o | None => [] end.
Definition waiting (fd : N) (n : net) : bytes := match e_out n fd with Some o => queued o | None => [] end.

(* The sequence es of requests, with the messages outs, accounts for the connection fd:
   if the bytes which arrived there begin a stream of well-formed requests rs, then the
   requests of this client in es are the first ones of rs, exactly those which have been
   read completely; what the client received and what waits are the messages for it. *)
Definition accounts (es : list sevent) (outs : list (list (N * bytes))) (evs : list nevent) (n : net) (fd : N) : Prop :=
  forall rs later, Forall req_ok rs -> arrived_on fd evs ++ later = enc_reqs rs ->
  exists done todo part unread,
    rs = done ++ todo /\ asked fd es = done /\
    arrived_on fd evs = enc_reqs done ++ part ++ unread /\
    (part = [] \/ exists r todo', todo = r :: todo' /\ incomplete part r) /\
    (exists p, e_in n fd = Some (p, unread)) /\
    (Forall healthy_event evs -> received fd n ++ waiting fd n = told_to fd es outs).

(* every client sends well-formed requests, as much of them as has arrived *)
Definition polite (evs : list nevent) : Prop :=
  forall before after fd, evs = before ++ after ->
  exists rs later, Forall req_ok rs /\ arrived_on fd before ++ later = enc_reqs rs.

(* the loop ended (a STOP request) before all these events *)
Definition ended_before (g : server) (w0 : world) (evs : list nevent) : Prop :=
  exists before ev after n, evs = before ++ ev :: after /\ net_run g before (net_new w0) = Some n /\ e_up n = false.

(* a request which was read from the socket fd, in the environment x *)
Definition of_read (fd : N) (x : N -> env * (N -> how)) (e : sevent) : Prop := exists k a, e = SRequest fd (fst (x k)) a.

(* a socket is given out while it is in use *)
Definition socket_reused (g : server) (w0 : world) (evs : list nevent) : Prop :=
  exists before fd after n, evs = before ++ NAccept fd :: after /\ net_run g before (net_new w0) = Some n /\ connected fd n.

(* A request is undefined: up to some event, the sequence es1 accounts for all that
   happened; then data of fd is read, which makes the requests es2, and the next request
   argv of this client makes the server undefined. *)
Definition request_undefined (g : server) (w0 : world) (evs : list nevent) : Prop :=
  exists before fd cuts e x y after n es1 ms1 es2 ms2 w k argv,
    evs = before ++ NRead fd cuts e x y :: after /\
    net_run g before (net_new w0) = Some n /\
    run_sevents g es1 w0 = Some (ms1, e_world n) /\
    (forall f, connected f n -> accounts es1 ms1 before n f) /\
    Forall (of_read fd x) es2 /\ run_sevents g es2 (e_world n) = Some (ms2, w) /\
    run_sevent g (SRequest fd (fst (x k)) argv) w = SUndef /\
    forall rs later, Forall req_ok rs -> arrived_on fd before ++ later = enc_reqs rs ->
    exists todo, rs = asked fd (es1 ++ es2) ++ argv :: todo.
