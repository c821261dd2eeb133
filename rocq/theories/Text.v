(* MODEL.  C text conversions and RESP reply encoding. *)
From Coq Require Import List NArith ZArith Strings.Byte Strings.String.
From Verif Require Import Bytes Layout.
Import ListNotations.
Open Scope N_scope.

Definition CRLF : bytes := [x0d; x0a].

(* one decimal digit *)
Definition digit (n : N) : byte := n2b (48 + n).

(* printf("%lu"): decimal digits, no leading zero *)
Fixpoint dec_digits (fuel : nat) (n : N) (acc : bytes) : bytes :=
  match fuel with
  | O => acc
  | S fuel' => if n <? 10 then digit n :: acc else dec_digits fuel' (n / 10) (digit (n mod 10) :: acc)
  end.

Definition dec (n : N) : bytes := dec_digits (S (N.size_nat n)) n [].

(* isspace(3) in the C locale *)
Definition is_space (b : byte) : bool :=
  let n := b2n b in (n =? 32) || ((9 <=? n) && (n <=? 13)).

Definition is_digit (b : byte) : bool := let n := b2n b in (48 <=? n) && (n <=? 57).

Fixpoint skip_space (l : bytes) : bytes :=
  match l with
  | b :: t => if is_space b then skip_space t else l
  | [] => []
  end.

Fixpoint parse_digits (l : bytes) (acc : N) : N :=
  match l with
  | b :: t => if is_digit b then parse_digits t (acc * 10 + (b2n b - 48)) else acc
  | [] => acc
  end.

(* the C string held by a buffer (strndup, strncpy): up to the first NUL *)
Fixpoint cstr (l : bytes) : bytes :=
  match l with
  | [] => []
  | b :: t => if b2n b =? 0 then [] else b :: cstr t
  end.

(* atoll(3): strtoll in base 10, which saturates (glibc) *)
Definition atoll (l : bytes) : Z :=
  match skip_space l with
  | [] => 0%Z
  | b :: t =>
      if b2n b =? 45 then Z.max (- 9223372036854775808) (- Z.of_N (parse_digits t 0))
      else if b2n b =? 43 then Z.min 9223372036854775807 (Z.of_N (parse_digits t 0))
      else Z.min 9223372036854775807 (Z.of_N (parse_digits (b :: t) 0))
  end.

(* conversion of a signed 64-bit value to uint32_t / uint64_t *)
Definition z_u32 (z : Z) : N := Z.to_N (z mod 4294967296).
Definition z_u64 (z : Z) : N := Z.to_N (z mod 18446744073709551616).

(* zdbd/redis.h, redis_hardsend: a literal line followed by CRLF *)
Definition hardsend (s : string) : bytes := str s ++ CRLF.

(* zdbd/redis.c:343-376, redis_bulk *)
Definition bulk (b : bytes) : bytes := str "$" ++ dec (blen b) ++ CRLF ++ b ++ CRLF.

(* sprintf(":%u\r\n") *)
Definition intreply (n : N) : bytes := str ":" ++ dec n ++ CRLF.

(* sprintf("*%d\r\n") *)
Definition arrayhdr (n : N) : bytes := str "*" ++ dec n ++ CRLF.
