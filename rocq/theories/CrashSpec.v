(* SPEC.  What a crash may do to a user-key namespace. *)
From Coq Require Import List NArith Bool Strings.Byte Strings.String.
From Verif Require Import Bytes Layout Store Text Commands SpecKV Machine Reach CrashModel.
Import ListNotations.
Open Scope N_scope.

(* after a crash during q the map is as before, or as after q; an overwritten key
   may also be gone *)
Definition kv_crash (p : perm) (now : N) (c : nscfg) (q : req) (m m' : kv) : Prop :=
  m' = m \/ m' = snd (kv_step p now c q m) \/
  exists k v ts, q = QSet k v ts /\ kget k m <> None /\ m' = kdel k m.

Inductive kc_run : list cevent -> nscfg * kv -> list reply -> nscfg * kv -> Prop :=
| kc_nil st : kc_run [] st [] st
| kc_ev e es st o st' :
    kc_run es (snd (kv_event e st)) o st' -> kc_run (CEv e :: es) st (fst (kv_event e st) ++ o) st'
| kc_crash p now q j n es c m m' o st' : kv_crash p now c q m m' ->
    kc_run es (unlocked c, m') o st' -> kc_run (CCrash p now q j n :: es) (c, m) o st'.

(* crash points covered: the write in progress, if n of its bytes were done, is not
   one that makes an index file longer (data files may be cut anywhere, and index
   records being changed in place too), and the process does not die between the
   creation of an index file and the write of its header *)
Definition index_size (f : N) (fs : list bytes * list bytes) : N :=
  match nget f (fst fs) with Some b => blen b | None => 0 end.

Definition covered (fs : list bytes * list bytes) (W : list dwrite) (j : nat) (n : N) : Prop :=
  match nth_error W j with
  | Some (WrI f off b) => n = 0 \/ off + blen b <= index_size f (apply_writes (firstn j W) fs)
  | _ => True
  end /\
  match j with
  | O => True
  | S i => match nth_error W i with Some (MkI _) => False | _ => True end
  end.

Definition cevent_wf (e : cevent) : Prop :=
  match e with CEv e => event_wf e | CCrash _ _ q _ _ => req_wf q end.

Definition cfiles_fit (g : settings) (es : list cevent) (st : nscfg * est) : Prop :=
  forall i o c s, run_cevents g (firstn i es) st = Some (o, (c, s)) -> nlen (dk_i (dk s)) < 2 ^ 32.

Definition crashes_covered (g : settings) (es : list cevent) (st : nscfg * est) : Prop :=
  forall i p now q j n o c s, nth_error es i = Some (CCrash p now q j n) ->
    run_cevents g (firstn i es) st = Some (o, (c, s)) ->
    covered (dk_i (dk s), dk_d (dk s)) (new_writes (dk s) (dk (snd (run_req g p now q c s)))) j n.

(* states reached with crashes on the way *)
Definition creached (g : settings) (n : N) (c0 : nscfg) (es : list cevent)
    (o : list bytes) (c : nscfg) (s : est) : Prop :=
  settings_ok g /\ Forall cevent_wf es /\
  exists s0, created g n s0 /\ cfiles_fit g es (c0, s0) /\ crashes_covered g es (c0, s0) /\
    run_cevents g es (c0, s0) = Some (o, (c, s)).

(* what clients read when the namespace holds m *)
Definition reads_of (m : kv) (k : bytes) : list bytes :=
  map (fun q => enc_reply (fst (kv_step (mkPerm false false) 0 open_cfg q m)))
    [QGet k; QExists k; QLength k; QKeytime k; QCheck k].

(* the key a request is about *)
Definition target (q : req) : option bytes :=
  match q with QSet k _ _ => Some k | QDel k _ => Some k | _ => None end.
