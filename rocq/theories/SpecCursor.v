(* SPECIFICATION for C66: which cursors name a place.  A cursor has 17 bytes: the length of a
   key, the number of an index file (4 bytes), the length of a value (4), a place in the
   file (4) and a checksum (4).  An index record has 34 bytes and the key; the length of
   the value is at 5 and the checksum at 22. *)
From Coq Require Import List NArith Strings.Byte.
From Verif Require Import Bytes.
Import ListNotations.
Open Scope N_scope.

Definition part (a n : nat) (b : bytes) : bytes := firstn n (skipn a b).

(* there is room for a record at the place, and both numbers are those of the cursor *)
Definition fits (files : list bytes) (cur : bytes) : Prop :=
  List.length cur = 17%nat /\
  exists f, nth_error files (N.to_nat (unle (part 1 4 cur))) = Some f /\
    let o := unle (part 9 4 cur) in
    o + 34 + unle (part 0 1 cur) <= N.of_nat (List.length f) /\
    part (N.to_nat o + 5) 4 f = part 5 4 cur /\ part (N.to_nat o + 22) 4 f = part 13 4 cur.

(* where the records of an index file begin: behind its header of 29 bytes, and behind
   each record *)
Inductive record_at (f : bytes) : nat -> Prop :=
  | record_first : record_at f 29
  | record_next o : record_at f o -> (o + 34 <= List.length f)%nat ->
      record_at f (o + 34 + N.to_nat (unle (part o 1 f))).

(* a cursor on a record, as opposed to one into the middle of it *)
Definition on_record (files : list bytes) (cur : bytes) : Prop :=
  fits files cur /\
  forall f, nth_error files (N.to_nat (unle (part 1 4 cur))) = Some f -> record_at f (N.to_nat (unle (part 9 4 cur))).
