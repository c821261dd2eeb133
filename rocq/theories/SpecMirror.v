(* SPECIFICATION for C58: what a mirror is told. *)
From Coq Require Import Strings.String Strings.Byte List NArith ZArith Bool.
From Verif Require Import Bytes Layout Store Text Commands Dispatch Namespace System Resp Server.
Import ListNotations.
Open Scope N_scope.

(* a request as a mirror sees it: when, in which namespace, for which instance, the words *)
Record tell := mkTell { t_time : N; t_ns : bytes; t_owner : N; t_words : list bytes }.

(* the protocol: a line with a number, a text preceded by its length *)
Definition number (c : string) (n : N) : bytes := str c ++ dec n ++ [x0d; x0a].
Definition word (b : bytes) : bytes := number "$" (N.of_nat (List.length b)) ++ b ++ [x0d; x0a].
Definition encode (m : tell) : bytes :=
  number "*" (N.of_nat (List.length (t_words m)) + 3) ++ number ":" (t_time m) ++ word (t_ns m) ++ number ":" (t_owner m)
  ++ List.concat (map word (t_words m)).

(* the words the server goes by: the last word of a master is the instance, and a request in
   which it is too long is dropped *)
Definition taken (cl : client) (argv : list bytes) : option (list bytes) :=
  if c_master cl then if 32 <? blen (last argv []) then None else Some (removelast argv) else Some argv.

(* the name of the namespace of a client *)
Definition ns_of (fd : N) (w : world) : option bytes :=
  match client_at fd w with
  | Some cl => match c_ns cl with Some i => option_map (fun r => n_name (r_cfg r)) (slot i w) | None => None end
  | None => None
  end.

(* a request from w to w': mirrors are told of it, refused or not, if the client has a namespace,
   there is such a command and the request has an instance.  None: there is no namespace to tell. *)
Definition told_of (v : env) (fd : N) (argv : list bytes) (w w' : world) : option (list tell) :=
  match client_at fd w with
  | None => None
  | Some cl =>
      match taken cl argv with
      | None => Some []
      | Some a =>
          if v_owner v =? 0 then Some []
          else match c_ns cl, lookup_handler (arg 0 a) with
               | Some _, Some _ => option_map (fun n => [mkTell (v_sec v) n (v_owner v) a]) (ns_of fd w')
               | _, _ => Some []
               end
      end
  end.

Fixpoint feed (g : server) (es : list sevent) (w : world) : option (list tell) :=
  match es with
  | [] => Some []
  | e :: r =>
      match run_sevent g e w with
      | SUndef => None
      | SDone _ _ w1 =>
          match match e with SRequest fd v argv => told_of v fd argv w w1 | _ => Some [] end, feed g r w1 with
          | Some a, Some b => Some (a ++ b)
          | _, _ => None
          end
      end
  end.
