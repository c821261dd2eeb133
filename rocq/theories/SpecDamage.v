(* SPECIFICATION for the damage of the files of some namespaces: what the clients of one
   namespace see from then on, whatever is in the others. *)
From Coq Require Import Strings.String Strings.Byte List NArith ZArith Bool.
From Verif Require Import Bytes Layout Text Store Commands SpecKV SpecSeq Machine Reach CrashModel SeqReach Dispatch Namespace System Server
  SpecAuth AuthFacts SpecServer.
Import ListNotations.
Open Scope N_scope.

(* An event which may be anything for the other namespaces.  It does not remove, set or
   reload the namespace j, does not rotate its files, and is not a restart; the data
   requests of the clients of j have the sizes of SpecServer.covered. *)
Definition leaves (g : server) (j : N) (e : sevent) (w : world) : Prop :=
  match e with
  | SConnect _ | SClose _ => True
  | SRequest fd v argv =>
      forall cl h c r, client_at fd w = Some cl -> lookup_handler (arg 0 (effective cl argv)) = Some (h, c) -> slot j w = Some r ->
        (target_cmd c = true -> text (arg 1 (effective cl argv)) <> n_name (r_cfg r)) /\
        (c_ns cl = Some j -> c <> CFlush /\
           forall q, req_of c (effective cl argv) = Some q -> req_wf q /\ room_left r /\
             (in_sequential r -> req_calm (v_set g) (perm_of cl) (v_sec v) q (r_cfg r) (est_of w r)))
  | SIdle _ old => ~ In j old
  | SRestart _ => False
  end.

Fixpoint all_leave (g : server) (j : N) (es : list sevent) (w : world) : Prop :=
  match es with
  | [] => True
  | e :: r => leaves g j e w /\ match run_sevent g e w with SDone _ _ w1 => all_leave g j r w1 | SUndef => True end
  end.

(* what one event answers to the clients of j and does to its contents *)
Definition one_event (j : N) (e : sevent) (w : world) (out : list (N * bytes)) (x x' : dent) : Prop :=
  match e with
  | SRequest fd v argv =>
      exists cl, client_at fd w = Some cl /\
      match c_ns cl, lookup_handler (arg 0 (effective cl argv)) with
      | Some i, Some (_, c) =>
          if (i =? j) && is_data c then
            (out = [] /\ x' = x) \/
            exists rep rest, out = (fd, rep) :: rest /\
              match req_of c (effective cl argv) with
              | None => is_error rep /\ x' = x
              | Some q =>
                  let '(r, ct) := content_step (perm_of cl) (v_sec v) (d_conf x) q (d_content x) in
                  rep = enc_reply r /\ x' = mkDent (d_used x || stores q r) ct (d_conf x)
              end
          else x' = x
      | _, _ => x' = x
      end
  | _ => x' = x
  end.

(* a run from the world w, seen from the namespace j *)
Fixpoint one_run (g : server) (j : N) (es : list sevent) (w : world) (outs : list (list (N * bytes))) (x x' : dent) : Prop :=
  match es, outs with
  | [], [] => x' = x
  | e :: es', out :: outs' =>
      exists st w1 x1, run_sevent g e w = SDone out st w1 /\ one_event j e w out x x1 /\ one_run g j es' w1 outs' x1 x'
  | _, _ => False
  end.

(* the contents after a start *)
Definition started (x : dent) : dent := mkDent (d_used x) (d_content x) (unlocked (d_conf x)).

(* the names of the directories found by a start *)
Definition names_found (l : list stored) : list bytes := map (fun s => fst (fst s)) l.
