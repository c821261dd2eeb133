(* MODEL (basic types).  Bytes, little-endian integers and POSIX-like files.

   0-db writes packed C structures with write(2) and reads them back with
   read(2) on x86_64/ARMv8, both little-endian.  A file is the list of its
   bytes. *)
From Coq Require Import List NArith Strings.Byte.
Import ListNotations.
Open Scope N_scope.

Definition bytes := list byte.

(* value of a byte *)
Definition b2n (b : byte) : N := Byte.to_N b.

(* the byte holding n reduced mod 256 (C conversion to uint8_t) *)
Definition n2b (n : N) : byte :=
  match Byte.of_N (n mod 256) with Some b => b | None => x00 end.

(* k bytes, little-endian, of x reduced mod 256^k: how a uint8/32/64 field of a
   packed structure is laid out (libzdb/index.h:62-101, libzdb/data.h:13-47,
   libzdb/namespace.h:13-27) *)
Fixpoint le (k : nat) (x : N) : bytes :=
  match k with
  | O => []
  | S k' => n2b x :: le k' (x / 256)
  end.

(* value of a little-endian field *)
Fixpoint unle (l : bytes) : N :=
  match l with
  | [] => 0
  | b :: t => b2n b + 256 * unle t
  end.

(* length of a byte string *)
Fixpoint blen (l : bytes) : N :=
  match l with
  | [] => 0
  | _ :: t => N.succ (blen t)
  end.

(* first n elements / all but the first n elements, with a binary counter *)
Fixpoint nfirst {A} (n : N) (l : list A) : list A :=
  match l with
  | [] => []
  | a :: t => if n =? 0 then [] else a :: nfirst (N.pred n) t
  end.

Fixpoint nskip {A} (n : N) (l : list A) : list A :=
  match l with
  | [] => []
  | a :: t => if n =? 0 then l else nskip (N.pred n) t
  end.

(* lseek(fd, off) followed by read(fd, buf, len): short at end of file *)
Definition fread (f : bytes) (off len : N) : bytes := nfirst len (nskip off f).

Definition zeros (n : N) : bytes := repeat x00 (N.to_nat n).

(* lseek(fd, off) followed by write(fd, b): pads a hole with zeros *)
Definition fwrite (f : bytes) (off : N) (b : bytes) : bytes :=
  nfirst off f ++ zeros (off - blen f) ++ b ++ nskip (off + blen b) f.

(* write(fd, b) on a descriptor opened with O_APPEND, or after
   lseek(fd, 0, SEEK_END) *)
Definition fappend (f : bytes) (b : bytes) : bytes := f ++ b.

(* nth element with a binary index *)
Fixpoint nget {A} (n : N) (l : list A) : option A :=
  match l with
  | [] => None
  | a :: t => if n =? 0 then Some a else nget (N.pred n) t
  end.

(* replace the nth element *)
Fixpoint nset {A} (n : N) (x : A) (l : list A) : list A :=
  match l with
  | [] => []
  | a :: t => if n =? 0 then x :: t else a :: nset (N.pred n) x t
  end.

Fixpoint nlen {A} (l : list A) : N :=
  match l with
  | [] => 0
  | _ :: t => N.succ (nlen t)
  end.

(* memcmp(a, b, n) == 0 on strings of equal length *)
Definition beqb (a b : byte) : bool := Byte.eqb a b.

Fixpoint bseqb (a b : bytes) : bool :=
  match a, b with
  | [], [] => true
  | x :: a', y :: b' => if beqb x y then bseqb a' b' else false
  | _, _ => false
  end.

(* C integer conversions *)
Definition u8 (n : N) : N := n mod 256.
Definition u32 (n : N) : N := n mod 4294967296.
Definition u64 (n : N) : N := n mod 18446744073709551616.

(* size_t subtraction, wrapping *)
Definition sub64 (a b : N) : N := (a + (18446744073709551616 - b mod 18446744073709551616)) mod 18446744073709551616.
