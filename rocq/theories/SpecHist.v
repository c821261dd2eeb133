(* SPEC.  What a client sees of the earlier versions of a key.  A version is a value
   with its timestamp. *)
From Coq Require Import Strings.String Strings.Byte List NArith Bool.
From Verif Require Import Bytes Layout Text Commands SpecKV SpecSeq.
Import ListNotations.
Open Scope N_scope.

Definition same_version (a b : bytes * N) : bool := bseqb (fst a) (fst b) && (snd a =? snd b).

(* the versions of a key since it was inserted, newest first, when the map goes from m
   to m' *)
Definition next_versions (k : bytes) (m m' : kv) (h : list (bytes * N)) : list (bytes * N) :=
  match kget k m' with
  | None => []
  | Some v =>
      match kget k m with
      | None => [v]
      | Some v0 => if same_version v v0 then h else v :: h
      end
  end.

Fixpoint versions_from (k : bytes) (es : list event) (st : nscfg * kv) (h : list (bytes * N)) : list (bytes * N) :=
  match es with
  | [] => h
  | e :: r => let st' := snd (kv_event e st) in versions_from k r st' (next_versions k (snd st) (snd st') h)
  end.

Definition versions (k : bytes) (c0 : nscfg) (es : list event) : list (bytes * N) := versions_from k es (c0, []) [].

(* the same of an identifier of a sequential namespace *)
Fixpoint sq_versions_from (k : bytes) (es : list event) (st : nscfg * sqs) (h : list (bytes * N)) : list (bytes * N) :=
  match es with
  | [] => h
  | e :: r => let st' := snd (sq_event e st) in
      sq_versions_from k r st' (next_versions k (sq_map (snd st)) (sq_map (snd st')) h)
  end.

Definition sq_versions (k : bytes) (c0 : nscfg) (es : list event) : list (bytes * N) := sq_versions_from k es (c0, sq_empty) [].

(* one reply: what to ask next (8 bytes) or nil, the timestamp, the value *)
Definition hist_reply (next : option bytes) (x : bytes * N) : bytes :=
  arrayhdr 3 ++ match next with Some e => bulk e | None => str "$-1" ++ CRLF end ++ bulk (dec (snd x)) ++ bulk (fst x).

(* what to ask next, as a client reads it *)
Definition next_key (r : bytes) : option bytes :=
  if bseqb (firstn 8 r) (str "*3" ++ CRLF ++ str "$8" ++ CRLF) then Some (firstn 8 (skipn 8 r)) else None.

(* a client asking for the versions of k until there is nothing more to ask, n times
   at most *)
Fixpoint ask_versions (call : list bytes -> option bytes) (cmd k : bytes) (cur : option bytes) (n : nat) : option (list bytes) :=
  match n with
  | O => Some []
  | S n =>
      match call (cmd :: k :: match cur with None => [] | Some e => [e] end) with
      | None => None
      | Some r =>
          match next_key r with
          | None => Some [r]
          | Some e => option_map (cons r) (ask_versions call cmd k (Some e) n)
          end
      end
  end.

(* the replies tell the versions h; last tells about the last one *)
Fixpoint told (last : bytes * N -> bytes -> Prop) (h : list (bytes * N)) (rs : list bytes) : Prop :=
  match h, rs with
  | x :: h', r :: rs' =>
      match h' with
      | [] => rs' = [] /\ last x r
      | _ => (exists e, blen e = 8 /\ r = hist_reply (Some e) x) /\ told last h' rs'
      end
  | _, _ => False
  end.
Definition all_told := told (fun x r => r = hist_reply None x).
Definition told_but_oldest := told (fun _ r => next_key r = None).

(* the key is there all along *)
Fixpoint stays (k : bytes) (es : list event) (st : nscfg * kv) : Prop :=
  kget k (snd st) <> None /\ match es with [] => True | e :: r => stays k r (snd (kv_event e st)) end.
