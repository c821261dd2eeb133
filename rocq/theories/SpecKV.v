(* SPEC.  What a user-key namespace is: a list of (key, value, timestamp), one per
   key, in the order of the last accepted write.  Written without reference to
   files, indexes or hash tables. *)
From Coq Require Import List NArith Bool Strings.Byte Strings.String.
From Verif Require Import Bytes Layout Text Commands.
Import ListNotations.
Open Scope N_scope.

Notation kv := (list (bytes * (bytes * N))).

Fixpoint kget (k : bytes) (m : kv) : option (bytes * N) :=
  match m with
  | [] => None
  | (k', v) :: r => if bseqb k' k then Some v else kget k r
  end.

Definition kdel (k : bytes) (m : kv) : kv := filter (fun p => negb (bseqb (fst p) k)) m.
Definition kput (k v : bytes) (ts : N) (m : kv) : kv := kdel k m ++ [(k, (v, ts))].

Definition kcount (m : kv) : N := nlen m.
Fixpoint ksize (m : kv) : N := match m with [] => 0 | (_, (v, _)) :: r => blen v + ksize r end.

(* ---- protocol vocabulary ---- *)

Inductive reply :=
| RNil
| RBulk (b : bytes)
| RInt (n : N)
| ROk
| RErr (msg : string)
| RArr (l : list reply).

Fixpoint enc_reply (r : reply) : bytes :=
  match r with
  | RNil => str "$-1" ++ CRLF
  | RBulk b => str "$" ++ dec (blen b) ++ CRLF ++ b ++ CRLF
  | RInt n => str ":" ++ dec n ++ CRLF
  | ROk => str "+OK" ++ CRLF
  | RErr m => str "-" ++ str m ++ CRLF
  | RArr l => str "*" ++ dec (nlen l) ++ CRLF
              ++ (fix go l := match l with [] => [] | r :: t => enc_reply r ++ go t end) l
  end.

(* data requests; the optional timestamp is reserved to administrators *)
Inductive req :=
| QSet (k v : bytes) (ts : option N)
| QDel (k : bytes) (ts : option N)
| QGet (k : bytes)
| QMget (ks : list bytes)
| QExists (k : bytes)
| QCheck (k : bytes)
| QLength (k : bytes)
| QKeytime (k : bytes)
| QJump
| QDbsize.

(* the argument list a client sends *)
Definition argv_of (q : req) : list bytes :=
  match q with
  | QSet k v None => [str "SET"; k; v]
  | QSet k v (Some t) => [str "SET"; k; v; dec t]
  | QDel k None => [str "DEL"; k]
  | QDel k (Some t) => [str "DEL"; k; dec t]
  | QGet k => [str "GET"; k]
  | QMget ks => str "MGET" :: ks
  | QExists k => [str "EXISTS"; k]
  | QCheck k => [str "CHECK"; k]
  | QLength k => [str "LENGTH"; k]
  | QKeytime k => [str "KEYTIME"; k]
  | QJump => [str "NSJUMP"]
  | QDbsize => [str "DBSIZE"]
  end.

(* ---- the machine ---- *)

Definition err_readonly := RErr "Namespace is in read-only mode".
Definition err_frozen := RErr "Namespace is temporarily frozen (read-write disabled)".
Definition err_locked := RErr "Namespace is temporarily locked (read-only)".

Definition stamp (ts : option N) (now : N) : N :=
  (match ts with Some t => t | None => now end) mod 2 ^ 32.

Definition oldlen (k : bytes) (m : kv) : N :=
  match kget k m with Some (v, _) => blen v | None => 0 end.

(* sizes are compared in 64-bit arithmetic *)
Definition over_quota (max : N) (m : kv) (k v : bytes) : bool :=
  negb (max =? 0) && ((max + oldlen k m) mod 2 ^ 64 <? (ksize m + blen v) mod 2 ^ 64).

Definition kv_set (p : perm) (now : N) (c : nscfg) (m : kv) (k v : bytes) (ts : option N) : reply * kv :=
  match ts, p_admin p with
  | Some _, false => (RErr "Permission denied", m)
  | _, _ =>
      if 255 <? blen k then (RErr "Key too large", m)
      else if negb (p_writable p) then (err_readonly, m)
      else if n_lock c =? 2 then (err_frozen, m)
      else if negb (n_lock c =? 0) then (err_locked, m)
      else if (match kget k m with Some _ => n_worm c | None => false end)
      then (RErr "Namespace is protected by worm mode", m)
      else if over_quota (n_maxsize c) m k v then (RErr "No space left on this namespace", m)
      else if blen k =? 0 then (RErr "Invalid argument, key needed", m)
      else if (match kget k m with Some (v', _) => bseqb v' v | None => false end) then (RNil, m)
      else (RBulk k, kput k v (stamp ts now) m)
  end.

Definition kv_del (p : perm) (c : nscfg) (m : kv) (k : bytes) (ts : option N) : reply * kv :=
  match ts, p_admin p, blen k with
  | Some _, false, _ => (RErr "Permission denied", m)
  | None, _, 0 => (RErr "Invalid argument", m)
  | _, _, _ =>
      if 255 <? blen k then (RErr "Invalid key", m)
      else if negb (p_writable p) then (err_readonly, m)
      else if n_lock c =? 2 then (err_frozen, m)
      else if negb (n_lock c =? 0) then (err_locked, m)
      else match kget k m with
           | None => (RErr "Key not found", m)
           | Some _ => if n_worm c then (RErr "Cannot delete a key when namespace is in worm mode", m)
                       else (ROk, kdel k m)
           end
  end.

Definition kv_read (c : nscfg) (k : bytes) (f : option (bytes * N) -> reply) (m : kv) : reply :=
  if blen k =? 0 then RErr "Invalid argument"
  else if 255 <? blen k then RErr "Invalid key"
  else if n_lock c =? 2 then err_frozen
  else f (kget k m).

Definition get_reply (o : option (bytes * N)) : reply :=
  match o with Some (v, _) => RBulk v | None => RNil end.

Definition kv_step (p : perm) (now : N) (c : nscfg) (q : req) (m : kv) : reply * kv :=
  match q with
  | QSet k v ts => kv_set p now c m k v ts
  | QDel k ts => kv_del p c m k ts
  | QGet k => (kv_read c k get_reply m, m)
  | QMget ks =>
      (if nlen ks =? 0 then RErr "Invalid arguments"
       else if existsb (fun k => 255 <? blen k) ks then RErr "Invalid key"
       else if n_lock c =? 2 then err_frozen
       else RArr (map (fun k => get_reply (kget k m)) ks), m)
  | QExists k => (kv_read c k (fun o => match o with Some _ => RInt 1 | None => RInt 0 end) m, m)
  | QCheck k => (kv_read c k (fun o => match o with Some _ => RInt 1 | None => RNil end) m, m)
  | QLength k => (kv_read c k (fun o => match o with Some (v, _) => RInt (blen v) | None => RNil end) m, m)
  | QKeytime k => (kv_read c k (fun o => match o with Some (_, t) => RInt t | None => RNil end) m, m)
  | QJump => ((if p_admin p then ROk else RErr "Permission denied"), m)
  | QDbsize => (RInt (kcount m mod 2 ^ 64), m)
  end.

(* events in the life of a namespace: a request of some client at some time, a
   change of the settings by an administrator, a restart (which lifts locks) *)
Inductive event :=
| EReq (p : perm) (now : N) (q : req)
| ECfg (c : nscfg)
| ERestart.

Definition unlocked (c : nscfg) : nscfg :=
  mkCfg (n_name c) (n_pass c) (n_public c) (n_worm c) (n_maxsize c) 0.

Definition kv_event (e : event) (st : nscfg * kv) : list reply * (nscfg * kv) :=
  let '(c, m) := st in
  match e with
  | EReq p now q => let '(r, m') := kv_step p now c q m in ([r], (c, m'))
  | ECfg c' => ([], (c', m))
  | ERestart => ([], (unlocked c, m))
  end.

Fixpoint kv_run (es : list event) (st : nscfg * kv) : list reply * (nscfg * kv) :=
  match es with
  | [] => ([], st)
  | e :: r => let '(o1, st1) := kv_event e st in
              let '(o2, st2) := kv_run r st1 in (o1 ++ o2, st2)
  end.
