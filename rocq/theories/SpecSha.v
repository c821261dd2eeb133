(* SPECIFICATION.  SHA-1 as published (FIPS 180-4, sections 2.2.2, 4.1.1, 4.2.1, 5.1.1,
   5.2.1, 5.3.1 and 6.1.2), on byte strings.  Nothing here comes from the code. *)
From Coq Require Import Strings.Byte List NArith.
From Verif Require Import Bytes.
Import ListNotations.
Open Scope N_scope.

(* 3.2: words are reduced mod 2^32, ROTL^n *)
Definition w32 (x : N) : N := x mod 2 ^ 32.
Definition rotl (n x : N) : N := w32 (x * 2 ^ n) + x / 2 ^ (32 - n).

(* 4.1.1: Ch, Parity, Maj; ldiff z x is z AND NOT x *)
Definition fips_f (t : nat) (x y z : N) : N :=
  if Nat.ltb t 20 then N.lxor (N.land x y) (N.ldiff z x)
  else if Nat.ltb t 40 then N.lxor (N.lxor x y) z
  else if Nat.ltb t 60 then N.lxor (N.lxor (N.land x y) (N.land x z)) (N.land y z)
  else N.lxor (N.lxor x y) z.

(* 4.2.1 *)
Definition fips_k (t : nat) : N :=
  if Nat.ltb t 20 then 0x5a827999 else if Nat.ltb t 40 then 0x6ed9eba1
  else if Nat.ltb t 60 then 0x8f1bbcdc else 0xca62c1d6.

(* 5.1.1: a one bit, zeros up to 448 mod 512 bits, then the length in bits on 64 bits *)
Definition be (k : nat) (x : N) : bytes := rev (le k x).
Definition fips_pad (m : bytes) : bytes :=
  m ++ [x80] ++ repeat x00 (Nat.modulo (119 - Nat.modulo (length m) 64) 64) ++ be 8 (8 * N.of_nat (length m)).

(* 5.2.1: sixteen big-endian words *)
Definition be_word (b : bytes) : N := fold_left (fun a x => 256 * a + b2n x) b 0.
Fixpoint be_words (n : nat) (b : bytes) : list N :=
  match n with O => [] | S k => be_word (firstn 4 b) :: be_words k (skipn 4 b) end.

(* 6.1.2 step 1: the schedule, the last word first *)
Fixpoint expand (n : nat) (w : list N) : list N :=
  match n with
  | O => w
  | S k =>
      let v := rotl 1 (N.lxor (N.lxor (N.lxor (nth 2 w 0) (nth 7 w 0)) (nth 13 w 0)) (nth 15 w 0)) in
      expand k (v :: w)
  end.
Definition schedule (m : list N) : list N := rev (expand 64 (rev m)).

(* 6.1.2 step 3 *)
Definition hash5 : Type := N * N * N * N * N.
Definition fips_step (w : list N) (st : hash5) (t : nat) : hash5 :=
  let '(a, b, c, d, e) := st in
  (w32 (rotl 5 a + fips_f t b c d + e + fips_k t + nth t w 0), a, rotl 30 b, c, d).

(* 6.1.2 steps 2 to 4 *)
Definition fips_block (h : hash5) (block : bytes) : hash5 :=
  let '(a, b, c, d, e) := h in
  let '(a', b', c', d', e') := fold_left (fips_step (schedule (be_words 16 block))) (seq 0 80) h in
  (w32 (a' + a), w32 (b' + b), w32 (c' + c), w32 (d' + d), w32 (e' + e)).

Fixpoint fips_blocks (n : nat) (h : hash5) (m : bytes) : hash5 :=
  match n with O => h | S k => fips_blocks k (fips_block h (firstn 64 m)) (skipn 64 m) end.

(* 5.3.1 *)
Definition fips_init : hash5 := (0x67452301, 0xefcdab89, 0x98badcfe, 0x10325476, 0xc3d2e1f0).

Definition fips_sha1 (m : bytes) : bytes :=
  let '(a, b, c, d, e) := fips_blocks (Nat.div (length (fips_pad m)) 64) fips_init (fips_pad m) in
  be 4 a ++ be 4 b ++ be 4 c ++ be 4 d ++ be 4 e.

(* lower-case hexadecimal text of a byte string *)
Definition hex_digits : bytes := [x30; x31; x32; x33; x34; x35; x36; x37; x38; x39; x61; x62; x63; x64; x65; x66].
Definition hex_text (b : bytes) : bytes :=
  flat_map (fun x => [nth (N.to_nat (b2n x / 16)) hex_digits x00; nth (N.to_nat (b2n x mod 16)) hex_digits x00]) b.

(* the digest a client proves a password with: SHA-1 of "challenge:password" in
   hexadecimal (docs: AUTH SECURE, SELECT SECURE) *)
Definition challenge_digest (challenge password : bytes) : bytes :=
  hex_text (fips_sha1 (challenge ++ [x3a] ++ password)).
