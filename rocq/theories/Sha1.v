(* MODEL.  libzdb/sha1.c and libzdb/security.c:36-63. *)
From Coq Require Import Strings.String Strings.Byte List NArith Bool.
From Verif Require Import Bytes Layout.
Import ListNotations.
Open Scope N_scope.

(* libzdb/sha1.c:9 *)
Definition rol (value bits : N) : N := N.lor (u32 (N.shiftl value bits)) (N.shiftr value (32 - bits)).

(* libzdb/sha1.c:11-18, blk0 on a little-endian machine: the word i is byte-swapped
   in place *)
Definition blk0 (i : N) (block : list N) : N * list N :=
  match nget i block with
  | None => (0, block)
  | Some l =>
      let v := N.lor (N.land (rol l 24) 4278255360) (N.land (rol l 8) 16711935) in
      (v, nset i v block)
  end.

Definition word (i : N) (block : list N) : N := match nget i block with Some l => l | None => 0 end.

(* libzdb/sha1.c:19-20, blk *)
Definition blk (i : N) (block : list N) : N * list N :=
  let v := rol (N.lxor (N.lxor (N.lxor (word (N.land (i + 13) 15) block) (word (N.land (i + 8) 15) block))
                         (word (N.land (i + 2) 15) block)) (word (N.land i 15) block)) 1 in
  (v, nset (N.land i 15) v block).

(* libzdb/sha1.c:23-27, the round macros R0, R1, R2, R3, R4 as chosen at 54-133.
   The five variables are listed in the order of the macro's arguments, and the
   next call takes them rotated by one. *)
Definition vars : Type := N * N * N * N * N.

Definition round (i : N) (st : vars * list N) : vars * list N :=
  let '((v, w, x, y, z), block) := st in
  let '(b, block') := if i <? 16 then blk0 i block else blk i block in
  let f := if i <? 20 then N.lxor (N.land w (N.lxor x y)) y
           else if i <? 40 then N.lxor (N.lxor w x) y
           else if i <? 60 then N.lor (N.land (N.lor w x) y) (N.land w x)
           else N.lxor (N.lxor w x) y in
  let k := if i <? 20 then 1518500249 else if i <? 40 then 1859775393
           else if i <? 60 then 2400959708 else 3395469782 in
  let z' := u32 (z + (f + b + k + rol v 5)) in
  ((z', v, rol w 30, x, y), block').

Fixpoint rounds (n : nat) (i : N) (st : vars * list N) : vars * list N :=
  match n with O => st | S m => rounds m (i + 1) (round i st) end.

(* the 64 bytes seen as 16 little-endian words (libzdb/sha1.c:39-46) *)
Fixpoint words (n : nat) (b : bytes) : list N :=
  match n with O => [] | S m => unle (firstn 4 b) :: words m (skipn 4 b) end.

(* libzdb/sha1.c:36-144, SHA1Transform *)
Definition sha1_transform (state : vars) (buffer : bytes) : vars :=
  let '(a, b, c, d, e) := state in
  let '((a', b', c', d', e'), _) := rounds 80 0 (state, words 16 buffer) in
  (u32 (a + a'), u32 (b + b'), u32 (c + c'), u32 (d + d'), u32 (e + e')).

(* libzdb/sha1.c:29-34 *)
Record sha1_ctx := mkSha { h_state : vars; h_count0 : N; h_count1 : N; h_buffer : bytes }.

(* libzdb/sha1.c:147-154, SHA1Init; the buffer is not initialised by the code and
   never read before it is written, here it is zero *)
Definition sha1_init : sha1_ctx :=
  mkSha (1732584193, 4023233417, 2562383102, 271733878, 3285377520) 0 0 (zeros 64).

(* the loop at libzdb/sha1.c:171-173 *)
Fixpoint sha1_blocks (fuel : nat) (state : vars) (data : bytes) (i : N) : vars * N :=
  match fuel with
  | O => (state, i)
  | S k => if i + 63 <? blen data
           then sha1_blocks k (sha1_transform state (fread data i 64)) data (i + 64)
           else (state, i)
  end.

(* libzdb/sha1.c:156-182, SHA1Update *)
Definition sha1_update (c : sha1_ctx) (data : bytes) : sha1_ctx :=
  let len := blen data in
  let j := h_count0 c in
  let c0 := u32 (j + u32 (N.shiftl len 3)) in
  let c1 := u32 (h_count1 c + (if c0 <? j then 1 else 0) + N.shiftr len 29) in
  let j := N.land (N.shiftr j 3) 63 in
  if 63 <? j + len then
    let i := 64 - j in
    let buf := fwrite (h_buffer c) j (nfirst i data) in
    let st := sha1_transform (h_state c) buf in
    let '(st', i') := sha1_blocks (length data) st data i in
    mkSha st' c0 c1 (fwrite buf 0 (nskip i' data))
  else mkSha (h_state c) c0 c1 (fwrite (h_buffer c) j data).

(* libzdb/sha1.c:195-198: the loop stops after at most 64 steps *)
Fixpoint sha1_pad (fuel : nat) (c : sha1_ctx) : sha1_ctx :=
  match fuel with
  | O => c
  | S k => if N.land (h_count0 c) 504 =? 448 then c else sha1_pad k (sha1_update c [x00])
  end.

Definition be4 (v : N) : bytes := rev (le 4 v).

(* libzdb/sha1.c:185-208, SHA1Final *)
Definition sha1_final (c : sha1_ctx) : bytes :=
  let finalcount := be4 (h_count1 c) ++ be4 (h_count0 c) in
  let c1 := sha1_pad 64 (sha1_update c [x80]) in
  let c2 := sha1_update c1 finalcount in
  let '(a, b, c, d, e) := h_state c2 in
  be4 a ++ be4 b ++ be4 c ++ be4 d ++ be4 e.

(* libzdb/sha1.c:210-221, zdb_sha1: one byte at a time *)
Definition zdb_sha1 (s : bytes) : bytes :=
  sha1_final (fold_left (fun c b => sha1_update c [b]) s sha1_init).

Definition hexdigit (n : N) : byte := if n <? 10 then n2b (48 + n) else n2b (87 + n).

(* sprintf("%02x") of every byte *)
Definition hexstr (b : bytes) : bytes :=
  flat_map (fun x => [hexdigit (b2n x / 16); hexdigit (b2n x mod 16)]) b.

(* libzdb/security.c:40-63, zdb_hash_password: salt and password are C strings *)
Definition zdb_hash_password (salt password : bytes) : bytes :=
  hexstr (zdb_sha1 (salt ++ str ":" ++ password)).
