(* SPECIFICATION.  What proves a password, and what an administrative command is, for
   the properties C18, C19 and C20.  Only the words of a request occur here. *)
From Coq Require Import Strings.String Strings.Byte List NArith.
From Verif Require Import Bytes SpecSha.
Import ListNotations.

(* an argument read as text: what comes before its first NUL *)
Fixpoint text (a : bytes) : bytes :=
  match a with [] => [] | b :: t => if beqb b x00 then [] else b :: text t end.

(* AUTH <password>, SELECT <name> <password>: the password itself *)
Definition gives_password (given password : bytes) : Prop := text given = password.

(* AUTH SECURE <digest>, SELECT <name> SECURE <digest>: the digest of the client's
   current challenge and the password *)
Definition gives_digest (challenge : option bytes) (given password : bytes) : Prop :=
  exists c, challenge = Some c /\ given = challenge_digest c password.

(* SELECT *)
Definition select_proof (challenge : option bytes) (argv : list bytes) (password : bytes) : Prop :=
  (exists cmd name given, argv = [cmd; name; given] /\ gives_password given password) \/
  (exists cmd name how given, argv = [cmd; name; how; given] /\ gives_digest challenge given password).

(* AUTH *)
Definition auth_proof (challenge : option bytes) (argv : list bytes) (password : bytes) : Prop :=
  (exists cmd given, argv = [cmd; given] /\ gives_password given password) \/
  (exists cmd how given, argv = [cmd; how; given] /\ gives_digest challenge given password).

(* error replies *)
Definition is_error (reply : bytes) : Prop := exists t, reply = x2d :: t.

(* letter case *)
Definition lower_byte (b : byte) : byte :=
  match b with | x41 => x61 | x42 => x62 | x43 => x63 | x44 => x64 | x45 => x65 | x46 => x66 | x47 => x67 | x48 => x68 | x49 => x69 | x4a => x6a | x4b => x6b | x4c => x6c | x4d => x6d | x4e => x6e | x4f => x6f | x50 => x70 | x51 => x71 | x52 => x72 | x53 => x73 | x54 => x74 | x55 => x75 | x56 => x76 | x57 => x77 | x58 => x78 | x59 => x79 | x5a => x7a | _ => b end.
Definition lower (l : bytes) : bytes := map lower_byte l.

(* a word abbreviates a name: it spells the beginning of the name, in any letter
   case; or the whole name followed by a NUL and anything *)
Definition abbreviates (key name : bytes) : Prop :=
  (exists rest, lower name = lower key ++ rest) \/
  (exists k0 junk, key = k0 ++ x00 :: junk /\ lower k0 = lower name).

(* AUTH SECURE CHALLENGE, possibly with the additional word of a replication master *)
Definition challenge_request (argv : list bytes) : Prop :=
  exists a b c, (argv = [a; b; c] \/ exists d, argv = [a; b; c; d]) /\
    abbreviates c [x43; x48; x41; x4c; x4c; x45; x4e; x47; x45].
