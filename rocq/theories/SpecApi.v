(* SPEC vocabulary: what the calls of the library answer when the namespace is a map
   from keys to values. *)
From Coq Require Import Strings.String Strings.Byte List NArith Bool.
From Verif Require Import Bytes Crc32 Commands SpecKV Api.
Import ListNotations.
Open Scope N_scope.

Definition a_step (max : N) (c : api_call) (m : kv) : api_reply * kv :=
  match c with
  | KSet now k v =>
      if over_quota max m k v then (AFailure "No space left on this namespace", m)
      else if (match kget k m with Some (v', _) => bseqb v' v | None => false end) then (AUpToDate, m)
      else (ABuffer k, kput k v (now mod 2 ^ 32) m)
  | KGet k => (match kget k m with Some (v, _) => AEntry k v | None => ANotFound end, m)
  | KExists k => (match kget k m with Some _ => ATrue | None => AFalse end, m)
  | KCheck k => (match kget k m with Some _ => ATrue | None => ANotFound end, m)
  | KDel _ k => match kget k m with Some _ => (ASuccess, kdel k m) | None => (ANotFound, m) end
  end.

Fixpoint a_run (max : N) (cs : list api_call) (m : kv) : list api_reply * kv :=
  match cs with
  | [] => ([], m)
  | c :: r => let '(o, m1) := a_step max c m in let '(os, m2) := a_run max r m1 in (o :: os, m2)
  end.

Definition key_ok (k : bytes) : Prop := 0 < blen k <= 255.
Definition call_ok (c : api_call) : Prop :=
  match c with
  | KSet _ k v => key_ok k /\ blen v <= 8388608
  | KGet k | KExists k | KCheck k | KDel _ k => key_ok k
  end.

(* no value is replaced by another one with the same checksum *)
Definition no_collision (m : kv) (c : api_call) : Prop :=
  match c with
  | KSet _ k v => forall v' t, kget k m = Some (v', t) -> zdb_crc32 v' = zdb_crc32 v -> v' = v
  | _ => True
  end.
Fixpoint no_collisions (max : N) (m : kv) (cs : list api_call) : Prop :=
  match cs with
  | [] => True
  | c :: r => no_collision m c /\ no_collisions max (snd (a_step max c m)) r
  end.
