(* SPEC vocabulary: requests during which a write to a data file fails. *)
From Coq Require Import Strings.String Strings.Byte List NArith Bool.
From Verif Require Import Bytes Layout Store Text Commands SpecKV SpecFiles Machine Reach.
Import ListNotations.
Open Scope N_scope.

(* the record header or the value cannot be written; any number of bytes may have
   reached the disk *)
Definition data_fault (io : list wout) : Prop :=
  match io with
  | WFail _ :: _ => True
  | WOk :: WFail _ :: _ => True
  | _ => False
  end.

(* an event, or a request during which the writes turn out as io says *)
Inductive fevent :=
| FOk (e : event)
| FBad (io : list wout) (p : perm) (now : N) (q : req).

(* the writes after the request work again *)
Definition run_fevent (g : settings) (e : fevent) (st : nscfg * est) : option (list bytes * (nscfg * est)) :=
  match e with
  | FOk e => run_event g e st
  | FBad io p now q =>
      let '(r, s') := run_req g p now q (fst st) (with_outcomes io (snd st)) in
      Some ([r], (fst st, with_outcomes [] s'))
  end.

Fixpoint run_fevents (g : settings) (es : list fevent) (st : nscfg * est) : option (list bytes * (nscfg * est)) :=
  match es with
  | [] => Some ([], st)
  | e :: r =>
      match run_fevent g e st with
      | None => None
      | Some (o1, st1) =>
          match run_fevents g r st1 with
          | None => None
          | Some (o2, st2) => Some (o1 ++ o2, st2)
          end
      end
  end.

(* the map machine: a request that would have changed the map is answered with an
   error and changes nothing; all others are answered as usual *)
Definition spoiled (q : req) (r : reply) : option reply :=
  match q, r with
  | QSet _ _ _, RBulk _ => Some (RErr "Cannot write data right now")
  | QDel _ _, ROk => Some (RErr "Cannot delete key (data)")
  | _, _ => None
  end.

Definition kv_fevent (e : fevent) (st : nscfg * kv) : list reply * (nscfg * kv) :=
  match e with
  | FOk e => kv_event e st
  | FBad _ p now q =>
      let '(r, m') := kv_step p now (fst st) q (snd st) in
      match spoiled q r with
      | Some err => ([err], st)
      | None => ([r], (fst st, m'))
      end
  end.

Fixpoint kv_frun (es : list fevent) (st : nscfg * kv) : list reply * (nscfg * kv) :=
  match es with
  | [] => ([], st)
  | e :: r => let '(o1, st1) := kv_fevent e st in
              let '(o2, st2) := kv_frun r st1 in (o1 ++ o2, st2)
  end.

Definition fevent_wf (e : fevent) : Prop :=
  match e with FOk e => event_wf e | FBad io _ _ q => data_fault io /\ req_wf q end.

(* as in Reach.v *)
Definition ffiles_fit (g : settings) (es : list fevent) (st : nscfg * est) : Prop :=
  forall j o c s, run_fevents g (firstn j es) st = Some (o, (c, s)) -> nlen (dk_i (dk s)) < 2 ^ 32.

Definition freached (g : settings) (n : N) (c0 : nscfg) (es : list fevent)
    (o : list bytes) (c : nscfg) (s : est) : Prop :=
  settings_ok g /\ Forall fevent_wf es /\
  exists s0, created g n s0 /\ ffiles_fit g es (c0, s0) /\ run_fevents g es (c0, s0) = Some (o, (c, s)).
