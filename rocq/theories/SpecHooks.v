(* SPECIFICATION of the hooks: what HOOKS has to show, and what the operating system does. *)
From Coq Require Import Strings.String Strings.Byte List NArith Bool Permutation.
From Verif Require Import Bytes Layout Text SpecKV SpecAuth Hooks.
Import ListNotations.
Open Scope N_scope.

(* how a process ends, and the status word for it *)
Inductive ending := Exited (code : N) | Killed (signal : N) (core : bool).
Definition word (e : ending) : N :=
  match e with Exited c => c * 256 | Killed s core => s + (if core then 128 else 0) end.
Definition possible (e : ending) : Prop :=
  match e with Exited c => c < 256 | Killed s _ => 1 <= s /\ s <= 64 end.

(* the exit code which is shown: 0 for a process killed by a signal *)
Definition shown_code (st : N) : N := if st mod 128 =? 0 then st / 256 else 0.

(* a hook as it is shown: type, arguments without the identifier of the server, process,
   times of start and end (0: not yet), exit code *)
Record row := mkRow { w_type : bytes; w_args : list bytes; w_pid : N; w_start : N; w_end : N; w_code : N }.
Definition row_reply (r : row) : reply :=
  RArr [RBulk (w_type r); RArr (map RBulk (w_args r)); RInt (w_pid r); RInt (w_start r); RInt (w_end r); RInt (w_code r)].

Definition running (r : row) : bool := negb (w_pid r =? 0) && (w_end r =? 0).
Definition old (now : N) (r : row) : bool := negb (w_end r =? 0) && (w_end r + 300 <? now).
Definition finish (now : N) (rows : list row) (x : N * N) : list row :=
  map (fun r => if running r && (w_pid r =? fst x)
                then mkRow (w_type r) (w_args r) (w_pid r) (w_start r) now (shown_code (snd x)) else r) rows.

(* The hooks after an event, in the order of their start.  A hook is forgotten 300 seconds
   after its end, but only when no other is running. *)
Definition next_rows (e : hevent) (rows : list row) : list row :=
  match e with
  | HStart name args pid now => rows ++ [mkRow (text name) (map text (tl args)) pid now 0 0]
  | HWait name args pid now st now' => rows ++ [mkRow (text name) (map text (tl args)) pid now now' (shown_code st)]
  | HIdle ended now =>
      if existsb running rows then fold_left (finish now) ended rows
      else filter (fun r => negb (old now r)) rows
  | HShow => rows
  end.

(* The answer to an event: HOOKS lists every hook known, in some order. *)
Definition answers (e : hevent) (rows : list row) (o : hout) : Prop :=
  match e with
  | HWait _ _ _ _ st _ => o = OStatus (shown_code st)
  | HShow => exists l, Permutation l rows /\ o = OReply (enc_reply (RArr (map row_reply l)))
  | _ => o = ONone
  end.

Fixpoint hooks_run (es : list hevent) (rows : list row) (os : list hout) (rows' : list row) : Prop :=
  match es, os with
  | [], [] => rows' = rows
  | e :: es', o :: os' => answers e rows o /\ hooks_run es' (next_rows e rows) os' rows'
  | _, _ => False
  end.

(* The operating system: kids are the children of the server which it was not told the end
   of.  fork returns a new process number, or fails (0).  Waiting for a child waits for that
   one; waitpid(0), which is what is called when fork failed, waits for any child, and fails
   when there is none. *)
Inductive os_step : hevent -> list N -> list N -> Prop :=
| os_start name args pid now kids :
    pid <> 0 -> ~ In pid kids -> nlen kids < 2 ^ 22 -> os_step (HStart name args pid now) kids (pid :: kids)
| os_start_fails name args now kids : os_step (HStart name args 0 now) kids kids
| os_wait name args pid now e now' kids :
    pid <> 0 -> ~ In pid kids -> nlen kids < 2 ^ 22 -> possible e -> now' <> 0 ->
    os_step (HWait name args pid now (word e) now') kids kids
| os_wait_fails name args now st now' : now' <> 0 -> os_step (HWait name args 0 now st now') [] []
| os_wait_other name args now e now' p kids kids' :
    possible e -> now' <> 0 -> Permutation kids (p :: kids') -> os_step (HWait name args 0 now (word e) now') kids kids'
| os_idle ended now kids kids' :
    Permutation kids (map fst ended ++ kids') ->
    Forall (fun x => exists e, possible e /\ snd x = word e) ended -> now <> 0 ->
    os_step (HIdle ended now) kids kids'
| os_show kids : os_step HShow kids kids.
Inductive os_run : list hevent -> list N -> list N -> Prop :=
| os_nil kids : os_run [] kids kids
| os_cons e es k1 k2 k3 : os_step e k1 k2 -> os_run es k2 k3 -> os_run (e :: es) k1 k3.

(* every hook is given one to five arguments, the first being the identifier of the server *)
Definition has_id (e : hevent) : Prop :=
  match e with HStart _ args _ _ | HWait _ args _ _ _ _ => args <> [] /\ nlen args <= 5 | _ => True end.
(* fork does not fail for a hook the server waits for *)
Definition waited_for (e : hevent) : Prop :=
  match e with HWait _ _ pid _ _ _ => pid <> 0 | _ => True end.

(* at each HOOKS, the reply is shorter than the room made for it *)
Definition fits (rows : list row) : Prop :=
  blen (enc_reply (RArr (map row_reply rows))) < (nlen rows + 1) * 1024.
Fixpoint all_fit (es : list hevent) (rows : list row) : Prop :=
  match es with
  | [] => True
  | e :: es' => (e = HShow -> fits rows) /\ all_fit es' (next_rows e rows)
  end.

(* names of at most 20 bytes, arguments of at most 700 bytes together, times and process
   numbers of at most 64 bits *)
Definition total (l : list bytes) : N := fold_right (fun a n => blen a + n) 0 l.
Definition short (e : hevent) : Prop :=
  match e with
  | HStart name args pid now => blen name <= 20 /\ total args <= 700 /\ pid < 2 ^ 64 /\ now < 2 ^ 64
  | HWait name args pid now _ now' =>
      blen name <= 20 /\ total args <= 700 /\ pid < 2 ^ 64 /\ now < 2 ^ 64 /\ now' < 2 ^ 64
  | HIdle _ now => now < 2 ^ 64
  | HShow => True
  end.
