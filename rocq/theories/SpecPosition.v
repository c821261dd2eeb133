(* SPECIFICATION for C67: which positions HISTORY accepts, and what a reply may contain.  A
   position has 8 bytes: the number of an index file and a place in it.  The key of an
   index record is at 34. *)
From Coq Require Import Strings.String Strings.Byte List NArith.
From Verif Require Import Bytes Text SpecHist SpecCursor.
Import ListNotations.
Open Scope N_scope.

(* not all zero, and the bytes where the key of a record at that place would be are the key *)
Definition names (files : list bytes) (key pos : bytes) : Prop :=
  List.length pos = 8%nat /\ pos <> repeat x00 8 /\
  exists f, nth_error files (N.to_nat (unle (part 0 4 pos))) = Some f /\
    let o := N.to_nat (unle (part 4 4 pos)) in
    (o + 34 + List.length key <= List.length f)%nat /\ part (o + 34) (List.length key) f = key.

(* a value with its time, and the value is a piece of one of the data files; or no value *)
Definition tells (datafiles : list bytes) (r : bytes) : Prop :=
  r = hardsend "-Internal Error" \/
  exists next v ts f a, r = hist_reply next (v, ts) /\ (forall e, next = Some e -> List.length e = 8%nat) /\ ts < 2 ^ 32 /\
    In f datafiles /\ v = part a (List.length v) f.

Definition refusals : list bytes :=
  [hardsend "-Invalid arguments"; hardsend "-No more history"; hardsend "-Invalid arguments (index query)";
   hardsend "-Invalid arguments (invalid key)"].

(* what the record at that place says: its fields are numbers at fixed places.  A record
   says where its value is: the data file (at 14), the place in it (at 1), to which the
   header of 18 bytes and the key (its length is at 0) are added, and the length *)
Definition said (f : bytes) (o a n : nat) : nat := N.to_nat (unle (part (o + a) n f)).

(* the length of a value is at 5 in the index record; if that is 0 it is at 1 in the header
   of 18 bytes in the data file, and no value is there if the header is cut off *)
Definition length_of (g : bytes) (place n : nat) : nat :=
  match n with
  | O => if Nat.leb (place + 18) (List.length g) then said g place 1 4 else O
  | _ => n
  end.

Definition value_of (datafiles : list bytes) (f : bytes) (o : nat) : option bytes :=
  match nth_error datafiles (said f o 14 4) with
  | None => None
  | Some g =>
      let a := (said f o 1 4 + 18 + said f o 0 1)%nat in
      match length_of g (said f o 1 4) (said f o 5 4) with
      | O => Some []
      | n => if Nat.leb (a + n) (List.length g) then Some (part a n g) else None
      end
  end.

(* the reply: the position of the version before (at 26, 8 bytes, zeros for none), the
   time (at 18) and the value *)
Definition told_there (datafiles : list bytes) (f : bytes) (o : nat) : bytes :=
  match value_of datafiles f o with
  | None => hardsend "-Internal Error"
  | Some v => hist_reply (if bseqb (part (o + 26) 8 f) (repeat x00 8) then None else Some (part (o + 26) 8 f))
                (v, unle (part (o + 18) 4 f))
  end.
