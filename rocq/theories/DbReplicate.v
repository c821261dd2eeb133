(* MODEL.  utilities/db-replicate/db-replicate.c: a first copy of a namespace, as db-sync
   makes it (DbSync.v), then copies of what is written at the source. *)
From Coq Require Import Strings.String Strings.Byte List NArith Bool.
From Verif Require Import Bytes Layout Store Text Commands SpecKV Machine Scan DbSync.
Import ListNotations.
Open Scope N_scope.

(* how far the program came *)
Inductive outcome :=
| Crash                       (* a null pointer is followed *)
| Short                       (* it failed, or was not given enough passes *)
| Copied (src dst : server1).

(* one turn of the loop at lines 206-227: the number of entries the source has time for
   in RSCAN, what the other clients do at the source until the SCAN after WAIT, and the
   passes of replicate_from_reply (lines 140-179) *)
Record round := mkRound { r_room : nat; r_wait : list event; r_passes : list pass }.

(* db-replicate.c:208-209, the reply of RSCAN *)
Definition last_page (n : nat) (src : server1) : option rrep :=
  match command_rscan n [str "RSCAN"] (fst src) (snd src) with
  | None => None
  | Some r => hiredis r
  end.

(* db-replicate.c:206-227.  What WAIT says is not looked at (line 216); it ends when a
   SET is asked or after five seconds, that is after any requests of others.  The type of
   the reply of RSCAN is not looked at either: element of a reply that is no array is a
   null pointer (line 219).  replicate_from_reply copies as db-sync does, from the cursor
   on: synchronize of DbSync.v is the same code (db-sync.c:221-247). *)
Definition catch_up (gs gt : settings) (ps pt : perm) (r : round) (src dst : server1) : outcome :=
  match last_page (r_room r) src with
  | None => Short
  | Some (PArray (c :: _)) =>
      match served gs (r_wait r) src with
      | None => Short
      | Some (_, src1) =>
          match synchronize gs gt ps pt (r_passes r) (Some (text_of c)) [] src1 dst with
          | None => Short
          | Some (src2, dst2) => Copied src2 dst2
          end
      end
  | Some _ => Crash
  end.

(* the turns of the loop, with what the other clients do at the source before each *)
Fixpoint turns (gs gt : settings) (ps pt : perm) (rs : list (list event * round)) (src dst : server1) : outcome :=
  match rs with
  | [] => Copied src dst
  | (es, r) :: rs =>
      match served gs es src with
      | None => Short
      | Some (_, src1) =>
          match catch_up gs gt ps pt r src1 dst with
          | Copied src2 dst2 => turns gs gt ps pt rs src2 dst2
          | o => o
          end
      end
  end.

(* db-replicate.c:181-198 and 324-327: replicate, then synchronize *)
Definition db_replicate (gs gt : settings) (ps pt : perm) (ws : list pass) (rs : list (list event * round)) (src dst : server1) : outcome :=
  match db_sync gs gt ps pt ws src dst with
  | None => Short
  | Some (src1, dst1) => turns gs gt ps pt rs src1 dst1
  end.
