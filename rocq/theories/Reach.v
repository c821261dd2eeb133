(* SPEC vocabulary: reachable states of one user-key namespace, and observations. *)
From Coq Require Import List NArith Bool Strings.Byte Strings.String.
From Verif Require Import Bytes Layout Store Text Commands SpecKV Machine.
Import ListNotations.
Open Scope N_scope.

(* server settings covered: user-key or mixed mode, data files up to 2 GiB *)
Definition settings_ok (g : settings) : Prop :=
  (g_mode g = MODE_KV \/ g_mode g = MODE_MIX) /\ g_datasize g <= 2 ^ 31.

(* what a client can send: payloads are at most 8 MiB (zdbd/redis.c refuses larger
   ones) and timestamps fit a signed 64-bit integer *)
Definition ots_ok (ts : option N) : Prop := match ts with Some t => t < 2 ^ 63 | None => True end.

Definition req_wf (q : req) : Prop :=
  match q with
  | QSet k v ts => blen v <= 8388608 /\ ots_ok ts
  | QDel k ts => ots_ok ts
  | _ => True
  end.

Definition event_wf (e : event) : Prop := match e with EReq _ _ q => req_wf q | _ => True end.

(* at every point of the run the namespace has fewer than 2^32 index files (file
   numbers are 32 bits wide) *)
Definition files_fit (g : settings) (es : list event) (st : nscfg * est) : Prop :=
  forall j o c s, run_events g (firstn j es) st = Some (o, (c, s)) -> nlen (dk_i (dk s)) < 2 ^ 32.

(* namespace number n, loaded from empty directories into a table that holds
   entries of other namespaces only *)
Definition created (g : settings) (n : N) (s0 : est) : Prop :=
  exists t, (forall h e, In e (t h) -> e_ns e <> n) /\ store_open (g_mode g) n t empty_disk = Some s0.

(* the namespace is driven by es, answers o, and ends in settings c and state s *)
Definition reached (g : settings) (n : N) (c0 : nscfg) (es : list event)
    (o : list bytes) (c : nscfg) (s : est) : Prop :=
  settings_ok g /\ Forall event_wf es /\
  exists s0, created g n s0 /\ files_fit g es (c0, s0) /\ run_events g es (c0, s0) = Some (o, (c, s)).

(* the map of a history according to the specification *)
Definition kv_of (c0 : nscfg) (es : list event) : kv := snd (snd (kv_run es (c0, []))).

(* all that clients can read about the keys of a namespace (whatever the locks) *)
Definition open_cfg : nscfg := mkCfg [] None true false 0 0.
Definition read_all (s : est) (k : bytes) : list bytes :=
  [command_get [str "GET"; k] open_cfg s; command_exists [str "EXISTS"; k] open_cfg s;
   command_length [str "LENGTH"; k] open_cfg s; command_keytime [str "KEYTIME"; k] open_cfg s;
   command_check [str "CHECK"; k] open_cfg s].

Definition same_reads (s s' : est) : Prop :=
  (forall k, read_all s' k = read_all s k) /\
  x_entries (ix s') = x_entries (ix s) /\ x_datasize (ix s') = x_datasize (ix s).

(* the value of k after a list of requests with their replies: the last SET
   answered with the key, unless a DEL of k answered +OK follows *)
Fixpoint last_write (k : bytes) (tr : list (req * bytes)) (cur : option bytes) : option bytes :=
  match tr with
  | [] => cur
  | (QSet k' v _, r) :: t =>
      last_write k t (if bseqb k' k && bseqb r (bulk k') then Some v else cur)
  | (QDel k' _, r) :: t =>
      last_write k t (if bseqb k' k && bseqb r (hardsend "+OK") then None else cur)
  | _ :: t => last_write k t cur
  end.

(* the requests of a history, in order *)
Fixpoint requests (es : list event) : list req :=
  match es with
  | [] => []
  | EReq _ _ q :: r => q :: requests r
  | _ :: r => requests r
  end.

(* the reply says that the request changed something *)
Definition is_accept (q : req) (r : bytes) : bool :=
  match q with
  | QSet k _ _ => bseqb r (bulk k)
  | QDel _ _ => bseqb r (hardsend "+OK")
  | _ => false
  end.

(* a history without its restarts *)
Fixpoint strip (es : list event) : list event :=
  match es with
  | [] => []
  | ERestart :: r => strip r
  | e :: r => e :: strip r
  end.

Definition never_locked (es : list event) : Prop :=
  Forall (fun e => match e with ECfg c => n_lock c = 0 | _ => True end) es.

Definition only_requests (es : list event) : Prop :=
  Forall (fun e => match e with EReq _ _ _ => True | _ => False end) es.
