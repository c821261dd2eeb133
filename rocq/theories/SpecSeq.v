(* SPEC.  What a sequential namespace is: a list of (identifier, value, timestamp)
   in the order of the identifiers, and the number of the next identifier.  An
   identifier is sent as 8 bytes, least significant first. *)
From Coq Require Import List NArith Bool Strings.Byte Strings.String.
From Verif Require Import Bytes Layout Text Commands SpecKV.
Import ListNotations.
Open Scope N_scope.

Record sqs := mkSq { sq_next : N; sq_map : kv }.

(* replacement in place *)
Definition kset (k v : bytes) (ts : N) (m : kv) : kv :=
  map (fun p => if bseqb (fst p) k then (k, (v, ts)) else p) m.

Definition ident (i : N) : bytes := le 8 i.

(* an accepted SET, insertion or update, uses one number *)
Definition sq_set (p : perm) (now : N) (c : nscfg) (st : sqs) (k v : bytes) (ts : option N) : reply * sqs :=
  let m := sq_map st in
  match ts, p_admin p with
  | Some _, false => (RErr "Permission denied", st)
  | _, _ =>
      if 255 <? blen k then (RErr "Key too large", st)
      else if negb (p_writable p) then (err_readonly, st)
      else if n_lock c =? 2 then (err_frozen, st)
      else if negb (n_lock c =? 0) then (err_locked, st)
      else if (match kget k m with Some _ => n_worm c | None => false end)
      then (RErr "Namespace is protected by worm mode", st)
      else if over_quota (n_maxsize c) m k v then (RErr "No space left on this namespace", st)
      else if blen k =? 0
      then (RBulk (ident (sq_next st)), mkSq (sq_next st + 1) (m ++ [(ident (sq_next st), (v, stamp ts now))]))
      else match kget k m with
           | None => (RErr "Invalid key, only update authorized", st)
           | Some (v', _) => if bseqb v' v then (RNil, st)
                             else (RBulk k, mkSq (sq_next st + 1) (kset k v (stamp ts now) m))
           end
  end.

Definition sq_step (p : perm) (now : N) (c : nscfg) (q : req) (st : sqs) : reply * sqs :=
  match q with
  | QSet k v ts => sq_set p now c st k v ts
  | QDel k ts => let '(r, m) := kv_del p c (sq_map st) k ts in (r, mkSq (sq_next st) m)
  | _ => (fst (kv_step p now c q (sq_map st)), st)
  end.

Definition sq_event (e : event) (st : nscfg * sqs) : list reply * (nscfg * sqs) :=
  let '(c, m) := st in
  match e with
  | EReq p now q => let '(r, m') := sq_step p now c q m in ([r], (c, m'))
  | ECfg c' => ([], (c', m))
  | ERestart => ([], (unlocked c, m))
  end.

Fixpoint sq_run (es : list event) (st : nscfg * sqs) : list reply * (nscfg * sqs) :=
  match es with
  | [] => ([], st)
  | e :: r => let '(o1, st1) := sq_event e st in
              let '(o2, st2) := sq_run r st1 in (o1 ++ o2, st2)
  end.

Definition sq_empty : sqs := mkSq 0 [].

(* the keys of a request *)
Definition keys_of (q : req) : list bytes :=
  match q with
  | QSet k _ _ | QDel k _ | QGet k | QExists k | QCheck k | QLength k | QKeytime k => [k]
  | QMget ks => ks
  | QJump | QDbsize => []
  end.

(* keys covered by the theorems: identifiers already handed out, and all below one
   hundred million; and everything that is not 8 bytes long *)
Definition key_asked (next : N) (k : bytes) : Prop :=
  blen k = 8 -> unle k < next \/ unle k < 100000000.

Definition req_asked (next : N) (q : req) : Prop := Forall (key_asked next) (keys_of q).

Fixpoint asked (es : list event) (st : nscfg * sqs) : Prop :=
  match es with
  | [] => True
  | e :: r =>
      match e with EReq _ _ q => req_asked (sq_next (snd st)) q | _ => True end /\
      asked r (snd (sq_event e st))
  end.
