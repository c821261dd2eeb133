(* SPECIFICATION of the exclusive use of directories. *)
From Coq Require Import List NArith Bool.
From Verif Require Import Lock.
Import ListNotations.
Open Scope N_scope.

(* a living process which is a server or was started by one: its number, the directories of
   the server, and whether it is the server itself *)
Record user := mkUser { u_pid : N; u_index : N; u_data : N; u_server : bool }.
Definition uses (d : N) (u : user) : bool := (d =? u_index u) || (d =? u_data u).

(* who lives after the events, given which starts succeeded *)
Definition next_users (e : pevent) (b : bool) (us : list user) : list user :=
  match e with
  | PStart pid i d _ _ => if b then mkUser pid i d true :: us else us
  | PHook pid child =>
      map (fun u => mkUser child (u_index u) (u_data u) false) (filter (fun u => u_pid u =? pid) us) ++ us
  | PExit pid => filter (fun u => negb (u_pid u =? pid)) us
  end.
Fixpoint users (es : list pevent) (bs : list bool) (us : list user) : list user :=
  match es, bs with
  | e :: es', b :: bs' => users es' bs' (next_users e b us)
  | _, _ => us
  end.

(* flock fails only because somebody else has the lock *)
Definition flock_works (e : pevent) : Prop :=
  match e with PStart _ _ _ f1 f2 => f1 <> FlockFails /\ f2 <> FlockFails | _ => True end.

(* no two servers have a directory in common *)
Definition apart (a b : user) : Prop := forall d, uses d a = true -> uses d b = false.
Definition exclusive (us : list user) : Prop := ForallOrdPairs apart (filter u_server us).
