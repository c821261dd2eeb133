(* SPECIFICATION for the property that requests do not crash the server: the requests
   that do, listed one by one. *)
From Coq Require Import Strings.String Strings.Byte List NArith ZArith Bool.
From Verif Require Import Bytes Layout Text Store Commands Dispatch Namespace System Server SpecAuth AuthFacts SpecServer RespSpec Net SpecNet.
Import ListNotations.
Open Scope N_scope.

(* a word of exactly 256 characters, none of them NUL *)
Definition word_of_256 (a : bytes) : Prop := blen a = 256 /\ text a = a.

(* the same word, whatever the case of the letters *)
Definition lower (b : byte) : byte := if (65 <=? b2n b) && (b2n b <=? 90) then n2b (b2n b + 32) else b.
Definition same_word (a : bytes) (w : string) : Prop := map lower a = map lower (str w).

Definition has_text (t : string) (name : bytes) : Prop := exists p q, name = p ++ str t ++ q.

(* The command c with the words a, sent by cl on the namespace r, crashes the server or
   leaves what is modelled (the last two). *)
Definition fatal (w : world) (cl : client) (r : nsrec) (c : cmd) (a : list bytes) : Prop :=
  match c with
  | CIndex => c_admin cl = true /\ 2 <= nlen a /\ Forall (fun x => x <> []) a /\
      (word_of_256 (arg 1 a) \/
       (blen (arg 1 a) <= 256 /\ same_word (text (arg 1 a)) "DIRTY" /\ nlen a = 3 /\ word_of_256 (arg 2 a)))
  | CData => c_admin cl = true /\ 2 <= nlen a /\ Forall (fun x => x <> []) a /\ word_of_256 (arg 1 a)
  | CNsset => c_admin cl = true /\ form 4 a = true /\ word_of_256 (arg 2 a) /\ blen (arg 3 a) <= 63
  | CNsnew => c_admin cl = true /\ form 2 a = true /\ text (arg 1 a) = [] /\
      forall k rk, slot k w = Some rk -> n_name (r_cfg rk) <> []
  | CFlush => n_public (r_cfg r) = false /\ n_pass (r_cfg r) <> None /\
      (has_text "zdb-data-" (n_name (r_cfg r)) \/ has_text "zdb-index-" (n_name (r_cfg r)))
  | _ => False
  end.

(* a client which asked for mirroring, other than fd *)
Definition mirrored (fd : N) (w : world) : Prop :=
  exists k ck, k <> fd /\ client_at k w = Some ck /\ c_mirror ck = true.

(* The events which are undefined: a request of one word from a master, a command as
   above, and a request from a client whose namespace was removed, written by a master
   with an owner, when a mirror is attached.  Two events cannot happen: a socket which is
   in use is not given out again, and a request comes from a client. *)
Definition crashing (e : sevent) (w : world) : Prop :=
  match e with
  | SConnect fd => client_at fd w <> None
  | SRequest fd v argv =>
      match client_at fd w with
      | None => True
      | Some cl =>
          (c_master cl = true -> blen (last argv []) <= 32) /\
          ((c_master cl = true /\ nlen argv <= 1) \/
           match c_ns cl with
           | None => c_exec cl <> None /\ v_owner v <> 0 /\ mirrored fd w
           | Some i => exists r h c, slot i w = Some r /\ lookup_handler (arg 0 (effective cl argv)) = Some (h, c) /\
               fatal w cl r c (effective cl argv)
           end)
      end
  | _ => False
  end.

(* every namespace has less than 2^32 files *)
Definition all_room (w : world) : Prop := forall i r, slot i w = Some r -> room_left r.

(* a run of covered events *)
Fixpoint all_calm (g : server) (es : list sevent) (w : world) : Prop :=
  match es with
  | [] => True
  | e :: r => covered g e w /\ all_room w /\ ~ crashing e w /\
      match run_sevent g e w with SDone _ _ w1 => all_calm g r w1 | SUndef => True end
  end.

(* In the loop with all connections: up to some event the loop got through; then data of fd
   is read, and the next request argv of this client is one of the above, in the state the
   requests es1 ++ es2 read so far lead to. *)
Definition request_crashes (g : server) (w0 : world) (evs : list nevent) : Prop :=
  exists before fd cuts e x y after n es1 es2 ms w k argv,
    evs = before ++ NRead fd cuts e x y :: after /\
    net_run g before (net_new w0) = Some n /\
    run_sevents g (es1 ++ es2) w0 = Some (ms, w) /\ Forall (of_read fd x) es2 /\
    (forall rs later, Forall req_ok rs -> arrived_on fd before ++ later = enc_reqs rs ->
     exists todo, rs = asked fd (es1 ++ es2) ++ argv :: todo) /\
    (all_covered g (es1 ++ es2) w0 -> covered g (SRequest fd (fst (x k)) argv) w -> all_room w ->
     crashing (SRequest fd (fst (x k)) argv) w).
