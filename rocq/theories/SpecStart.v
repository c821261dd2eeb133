(* SPECIFICATION for the start of the server: what it must find, and when two servers are
   in the same state. *)
From Coq Require Import Strings.String Strings.Byte List NArith Bool.
From Verif Require Import Bytes Layout Store Text Commands Machine CrashModel Namespace Server ServerCrash.
Import ListNotations.
Open Scope N_scope.

(* no file was made yet, or only an empty index file *)
Definition unborn (d : disk) : Prop := dk_d d = [] /\ (dk_i d = [] \/ dk_i d = [[]]).

(* the first index file has a whole header; the rest is any bytes *)
Definition headed_index (d : disk) : Prop := exists f, nget 0 (dk_i d) = Some f /\ 29 <= blen f.

(* a namespace as it may be found: a new one, or one with a whole header in its
   descriptor and in its first index file *)
Definition whole (x : stored) : Prop :=
  match x with
  | (name, desc, d) =>
      (desc = [] /\ blen name <= 128 /\ unborn d) \/ (15 <= blen desc /\ (unborn d \/ headed_index d))
  end.

(* any number of starts, each of which dies somewhere *)
Inductive starts_cut (g : server) : list stored -> list stored -> Prop :=
| cut_never l : starts_cut g l l
| cut_again l l1 l2 : start_left (g_mode (v_set g)) 0 empty_table l l1 -> Forall whole l1 -> starts_cut g l1 l2 -> starts_cut g l l2.

(* the same settings, the same memory and the same bytes in all files *)
Definition same_ns (o o' : option nsrec) : Prop :=
  match o, o' with
  | Some r, Some r' => r_cfg r' = r_cfg r /\ r_desc r' = r_desc r /\ r_ix r' = r_ix r /\ r_dt r' = r_dt r /\
                       dk_i (r_dk r') = dk_i (r_dk r) /\ dk_d (r_dk r') = dk_d (r_dk r)
  | None, None => True
  | _, _ => False
  end.

Definition same_world (w w' : world) : Prop :=
  w_tb w' = w_tb w /\ Forall2 same_ns (w_slots w) (w_slots w') /\ w_eff w' = w_eff w /\ w_clients w' = w_clients w.

(* the server comes up in the same state, or in both cases not at all *)
Definition same_start (o o' : option world) : Prop :=
  match o, o' with Some w, Some w' => same_world w w' | None, None => True | _, _ => False end.
