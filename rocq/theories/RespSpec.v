(* SPECIFICATION.  What a client sends: requests, each an array of strings. *)
From Coq Require Import Strings.String Strings.Byte List NArith ZArith Bool.
From Verif Require Import Bytes Layout Text Resp.
Import ListNotations.
Open Scope N_scope.

Definition request := list bytes.

(* the RESP encoding of a request, as every client library writes it *)
Definition enc_arg (a : bytes) : bytes := str "$" ++ dec (blen a) ++ CRLF ++ a ++ CRLF.
Definition enc_req (r : request) : bytes := str "*" ++ dec (nlen r) ++ CRLF ++ concat (map enc_arg r).
Definition enc_reqs (rs : list request) : bytes := concat (map enc_req rs).

(* the documented limits: 1 to 1024 arguments, each of at most 8 MiB *)
Definition req_ok (r : request) : Prop :=
  r <> [] /\ nlen r <= 1024 /\ Forall (fun a => blen a <= 8388608) r.

(* the argument object the dispatcher receives for a string: its length, and its
   bytes followed by the line end *)
Definition obj_of (a : bytes) : robj := mkObj (Z.of_N (blen a)) (blen a + 2) (a ++ CRLF).

(* the bytes that arrived during a run *)
Definition arrived (es : list conn_event) : bytes :=
  concat (map (fun e => match e with Arrive b => b | Readable _ => [] end) es).

(* a dispatcher that never asks for the connection to be closed *)
Definition calm (h : list (list robj) -> status) : Prop :=
  forall tr, match h tr with DISCARD | DISCONNECTED | SHUTDOWN | UNDEF => False | _ => True end.

(* a is a proper prefix of the encoding of the request r *)
Definition incomplete (a : bytes) (r : request) : Prop := exists b, b <> [] /\ enc_req r = a ++ b.
