(* SPEC vocabulary: reachable states of one sequential namespace, and observations. *)
From Coq Require Import List NArith Bool Strings.Byte Strings.String.
From Verif Require Import Bytes Layout Store Text Commands SpecKV SpecSeq Machine Reach CrashModel.
Import ListNotations.
Open Scope N_scope.

(* server settings covered: sequential or mixed mode, data files up to 2 GiB *)
Definition sq_settings (g : settings) : Prop :=
  (g_mode g = MODE_SEQ \/ g_mode g = MODE_MIX) /\ g_datasize g <= 2 ^ 31.

(* namespace number n, created sequential in empty directories; the table holds
   entries of other namespaces only *)
Definition sq_created (n : N) (s0 : est) : Prop :=
  exists t, (forall h e, In e (t h) -> e_ns e <> n) /\ store_open MODE_SEQ n t empty_disk = Some s0.

(* the current index file holds a record, or is the first file (a header is 29 bytes) *)
Definition settled (s : est) : Prop :=
  nlen (dk_i (dk s)) = 1 \/
  exists f, nget (nlen (dk_i (dk s)) - 1) (dk_i (dk s)) = Some f /\ 29 < blen f.

(* the request starts a new index file *)
Definition adds_file (g : settings) (p : perm) (now : N) (q : req) (c : nscfg) (s : est) : Prop :=
  nlen (dk_i (dk s)) < nlen (dk_i (dk (snd (run_req g p now q c s)))).

(* requests covered: what a client can send; keys that were handed out, or below one
   hundred million; no file is started while the current one is empty; less than
   2^32 files *)
Definition req_calm (g : settings) (p : perm) (now : N) (q : req) (c : nscfg) (s : est) : Prop :=
  req_wf q /\ req_asked (x_nextentry (ix s)) q /\ nlen (dk_i (dk s)) < 2 ^ 32 /\
  (adds_file g p now q c s -> settled s).

(* crash points covered: a data write may be cut anywhere, an index write not; the
   process does not die between the creation of an index file and the write of its header *)
Definition between_writes (W : list dwrite) (j : nat) (n : N) : Prop :=
  match nth_error W j with Some (WrI _ _ _) => n = 0 | _ => True end /\
  match j with
  | O => True
  | S i => match nth_error W i with Some (MkI _) => False | _ => True end
  end.

(* no load finds the current index file empty *)
Definition ev_calm (g : settings) (e : cevent) (c : nscfg) (s : est) : Prop :=
  match e with
  | CEv (EReq p now q) => req_calm g p now q c s
  | CEv (ECfg _) => True
  | CEv ERestart => settled s
  | CCrash p now q j n =>
      req_calm g p now q c s /\
      between_writes (new_writes (dk s) (dk (snd (run_req g p now q c s)))) j n /\
      forall s', crash_req g p now q j n c s = Some s' -> settled s'
  end.

Fixpoint calm (g : settings) (es : list cevent) (st : nscfg * est) : Prop :=
  match es with
  | [] => True
  | e :: r => ev_calm g e (fst st) (snd st) /\
              forall o st', run_cevent g e st = Some (o, st') -> calm g r st'
  end.

Definition sreached (g : settings) (n : N) (c0 : nscfg) (es : list cevent)
    (o : list bytes) (c : nscfg) (s : est) : Prop :=
  sq_settings g /\
  exists s0, sq_created n s0 /\ calm g es (c0, s0) /\ run_cevents g es (c0, s0) = Some (o, (c, s)).

(* after a crash during a request: as before, as after, or a number used up without effect *)
Definition sq_crash (st st2 st' : sqs) : Prop :=
  st' = st \/ st' = st2 \/ (sq_map st' = sq_map st /\ sq_next st' = sq_next st2).

Inductive sc_run : list cevent -> nscfg * sqs -> list reply -> nscfg * sqs -> Prop :=
| sc_nil st : sc_run [] st [] st
| sc_ev e es st o st' :
    sc_run es (snd (sq_event e st)) o st' -> sc_run (CEv e :: es) st (fst (sq_event e st) ++ o) st'
| sc_crash p now q j n es c m m' o st' : sq_crash m (snd (sq_step p now c q m)) m' ->
    sc_run es (unlocked c, m') o st' -> sc_run (CCrash p now q j n :: es) (c, m) o st'.

(* histories without crashes *)
Definition plain (es : list event) : list cevent := map CEv es.

(* the contents after a history according to the specification *)
Definition sq_of_history (c0 : nscfg) (es : list event) : sqs := snd (snd (sq_run es (c0, sq_empty))).

(* the completed requests of a history *)
Fixpoint crequests (es : list cevent) : list req :=
  match es with
  | [] => []
  | CEv (EReq _ _ q) :: r => q :: crequests r
  | _ :: r => crequests r
  end.

(* the value of identifier k after a list of requests with their replies; an
   insertion is a SET with an empty key *)
Fixpoint sq_last (k : bytes) (tr : list (req * bytes)) (cur : option bytes) : option bytes :=
  match tr with
  | [] => cur
  | (QSet k' v _, r) :: t =>
      sq_last k t (if (bseqb k' [] || bseqb k' k) && bseqb r (bulk k) then Some v else cur)
  | (QDel k' _, r) :: t =>
      sq_last k t (if bseqb k' k && bseqb r (hardsend "+OK") then None else cur)
  | _ :: t => sq_last k t cur
  end.

(* the identifiers handed out: replies to SET with an empty key that are not errors *)
Fixpoint handed_out (tr : list (req * bytes)) : list bytes :=
  match tr with
  | [] => []
  | (QSet [] _ _, x24 :: r) :: t => (x24 :: r) :: handed_out t
  | _ :: t => handed_out t
  end.

(* the reply says that the request changed something: not an error and not nil *)
Definition sq_accept (q : req) (r : bytes) : bool :=
  match q with
  | QSet _ _ _ => match r with x24 :: _ => negb (bseqb r (hardsend "$-1")) | _ => false end
  | QDel _ _ => bseqb r (hardsend "+OK")
  | _ => false
  end.

(* s' answers as s *)
Definition same_sreads (s s' : est) : Prop :=
  (forall k, key_asked (x_nextentry (ix s)) k -> read_all s' k = read_all s k) /\
  x_entries (ix s') = x_entries (ix s) /\ x_datasize (ix s') = x_datasize (ix s).
