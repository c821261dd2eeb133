(* MODEL.  The process dies while it executes a request and is started again. *)
From Coq Require Import List NArith Bool Strings.Byte Strings.String.
From Verif Require Import Bytes Layout Store Text Commands SpecKV Machine.
Import ListNotations.
Open Scope N_scope.

(* the writes a request has issued, in order *)
Definition new_writes (d d' : disk) : list dwrite :=
  skipn (List.length (dk_log d)) (dk_log d').

Definition torn (n : N) (w : dwrite) : list dwrite :=
  if n =? 0 then []
  else match w with
       | WrI fid off b => [WrI fid off (nfirst n b)]
       | WrD fid off b => [WrD fid off (nfirst n b)]
       | MkI _ | MkD _ => []
       end.

(* what is left of the writes W at the crash point (j, n): the first j are done,
   and n bytes of the next one *)
Definition persisted (W : list dwrite) (j : nat) (n : N) : list dwrite :=
  firstn j W ++ match nth_error W j with Some w => torn n w | None => [] end.

(* the files after the crash; what write(2) accepted is kept (no power loss) *)
Definition crash_disk (d : disk) (V : list dwrite) : disk :=
  let fs := apply_writes V (dk_i d, dk_d d) in mkDisk (fst fs) (snd fs) [] [].

(* the request q dies at (j, n), then the namespace is loaded as by
   libzdb/namespace.c:275-289; the entries of the other namespaces stay as they
   are in the table (their reload is the same function) *)
Definition crash_req (g : settings) (p : perm) (now : N) (q : req) (j : nat) (n : N) (c : nscfg) (s : est) : option est :=
  let s' := snd (run_req g p now q c s) in
  let V := persisted (new_writes (dk s) (dk s')) j n in
  store_open (g_mode g) (x_ns (ix s)) (table_clean (tb s) (x_ns (ix s))) (crash_disk (dk s) V).

(* histories with crashes *)
Inductive cevent :=
| CEv (e : event)
| CCrash (p : perm) (now : N) (q : req) (j : nat) (n : N).

Definition run_cevent (g : settings) (e : cevent) (st : nscfg * est) : option (list bytes * (nscfg * est)) :=
  match e with
  | CEv e => run_event g e st
  | CCrash p now q j n =>
      match crash_req g p now q j n (fst st) (snd st) with
      | Some s' => Some ([], (unlocked (fst st), s'))
      | None => None
      end
  end.

Fixpoint run_cevents (g : settings) (es : list cevent) (st : nscfg * est) : option (list bytes * (nscfg * est)) :=
  match es with
  | [] => Some ([], st)
  | e :: r =>
      match run_cevent g e st with
      | None => None
      | Some (o1, st1) =>
          match run_cevents g r st1 with
          | None => None
          | Some (o2, st2) => Some (o1 ++ o2, st2)
          end
      end
  end.
