(* MODEL.  One namespace receiving requests, setting changes and restarts. *)
From Coq Require Import List NArith Bool Strings.Byte Strings.String.
From Verif Require Import Bytes Layout Store Text Commands SpecKV.
Import ListNotations.
Open Scope N_scope.

(* the handlers of the command table (zdbd/commands.c:111-158) for the requests of
   SpecKV; the choice of the handler by name is in Dispatch.v *)
Definition run_req (g : settings) (p : perm) (now : N) (q : req) (c : nscfg) (s : est) : bytes * est :=
  let argv := argv_of q in
  match q with
  | QSet _ _ _ => command_set g p now argv c s
  | QDel _ _ => command_del p now argv c s
  | QGet _ => (command_get argv c s, s)
  | QMget _ => (command_mget argv c s, s)
  | QExists _ => (command_exists argv c s, s)
  | QCheck _ => (command_check argv c s, s)
  | QLength _ => (command_length argv c s, s)
  | QKeytime _ => (command_keytime argv c s, s)
  | QJump => command_nsjump p s
  | QDbsize => (command_dbsize s, s)
  end.

(* libzdb/namespace.c:605-622, namespace_reload: the namespace is removed from the
   table and loaded again from its files.  A restart of the server does the same
   for every namespace with an empty table (Server.v). *)
Definition reopen (g : settings) (s : est) : option est :=
  store_open (g_mode g) (x_ns (ix s)) (index_clean_namespace (tb s) (ix s)) (dk s).

Definition run_event (g : settings) (e : event) (st : nscfg * est) : option (list bytes * (nscfg * est)) :=
  let '(c, s) := st in
  match e with
  | EReq p now q => let '(r, s') := run_req g p now q c s in Some ([r], (c, s'))
  | ECfg c' => Some ([], (c', s))
  | ERestart => match reopen g s with
                | Some s' => Some ([], (unlocked c, s'))
                | None => None
                end
  end.

Fixpoint run_events (g : settings) (es : list event) (st : nscfg * est) : option (list bytes * (nscfg * est)) :=
  match es with
  | [] => Some ([], st)
  | e :: r =>
      match run_event g e st with
      | None => None
      | Some (o1, st1) =>
          match run_events g r st1 with
          | None => None
          | Some (o2, st2) => Some (o1 ++ o2, st2)
          end
      end
  end.
