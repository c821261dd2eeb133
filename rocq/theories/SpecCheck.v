(* SPEC: what CHECK is for.  [checks] says that the answer to CHECK tells the stored
   value from damaged ones. *)
From Coq Require Import Strings.String Strings.Byte List NArith Bool.
From Verif Require Import Bytes Layout Store Text Commands SpecKV Machine Reach.
Import ListNotations.
Open Scope N_scope.

(* v' differs from v, in at most four consecutive bytes *)
Definition burst (v v' : bytes) : Prop :=
  exists a old new b, v = a ++ old ++ b /\ v' = a ++ new ++ b /\
    List.length new = List.length old /\ (List.length old <= 4)%nat /\ new <> old.

(* data file f is replaced on the disk, the running server is not told *)
Definition with_dfile (f : N) (file : bytes) (s : est) : est :=
  mkEst (tb s) (ix s) (dt s) (mkDisk (dk_i (dk s)) (nset f file (dk_d (dk s))) (dk_log (dk s)) (dk_io (dk s))).

(* There is a place in a data file where the value v of key k lies.  CHECK answers 1.
   If other bytes of the same number are written at that place then GET answers
   them, which shows that the place is the right one, and CHECK answers 0 if they
   differ from the value by a burst. *)
Definition checks (g : settings) (p : perm) (now : N) (c : nscfg) (s : est) (k v : bytes) : Prop :=
  exists f off file, nget f (dk_d (dk s)) = Some file /\ fread file off (blen v) = v /\
    fst (run_req g p now (QCheck k) c s) = str ":1" ++ CRLF /\
    forall v', blen v' = blen v ->
      let s' := with_dfile f (fwrite file off v') s in
      fst (run_req g p now (QGet k) c s') = bulk v' /\
      (burst v v' -> fst (run_req g p now (QCheck k) c s') = str ":0" ++ CRLF).
