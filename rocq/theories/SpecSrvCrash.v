(* SPECIFICATION for C54: what a crash of the server may do to its namespaces. *)
From Coq Require Import Strings.String Strings.Byte List NArith ZArith Bool Sorting.Permutation.
From Verif Require Import Bytes Layout Text Store Commands SpecKV SpecSeq Machine Reach CrashModel CrashSpec SeqReach Dispatch Namespace System
  Server ServerCrash SpecAuth AuthFacts SpecServer.
Import ListNotations.
Open Scope N_scope.

(* the data: as CrashSpec.v and SeqReach.v say *)
Definition content_crash (p : perm) (now : N) (c : nscfg) (q : req) (ct ct' : content) : Prop :=
  match ct, ct' with
  | CKv m, CKv m' => kv_crash p now c q m m'
  | CSeq st, CSeq st' => sq_crash st (snd (sq_step p now c q st)) st'
  | _, _ => False
  end.

(* a request had no effect, or its whole effect, or it is one on the data *)
Definition request_crash (g : server) (v : env) (cl : client) (me : bytes) (c : cmd) (a : list bytes) (D D1 : dir) : Prop :=
  D1 = D \/ (exists rep, request_spec g v cl me c a rep D D1) \/
  exists q x ct, req_of c a = Some q /\ D me = Some x /\
    content_crash (perm_of cl) (v_sec v) (d_conf x) q (d_content x) ct /\
    D1 = dset me (Some (mkDent (d_used x) ct (d_conf x))) D.

(* an event which is not a request has no effect on the data and the settings *)
Definition crash_event (g : server) (e : sevent) (w : world) (D D1 : dir) : Prop :=
  D1 = D \/
  match e with
  | SRequest fd v argv =>
      exists cl i r h c, client_at fd w = Some cl /\ c_ns cl = Some i /\ slot i w = Some r /\
        lookup_handler (arg 0 (effective cl argv)) = Some (h, c) /\
        request_crash g v cl (n_name (r_cfg r)) c (effective cl argv) D D1
  | _ => False
  end.

(* histories *)
Fixpoint kdir_run (g : server) (es : list kevent) (w : world) (outs : list (list (N * bytes))) (D D' : dir) : Prop :=
  match es, outs with
  | [], [] => D' = D
  | KEv e :: es', out :: outs' =>
      exists st w1 D1, run_sevent g e w = SDone out st w1 /\ dir_event g e w out D D1 /\ kdir_run g es' w1 outs' D1 D'
  | KCrash e _ ord :: es', out :: outs' =>
      exists w1 D1, out = [] /\ boot g ord = Some w1 /\ crash_event g e w D D1 /\ kdir_run g es' w1 outs' (after_restart D1) D'
  | _, _ => False
  end.

(* ---- crashes covered ---- *)

(* the current index file is the first one, or holds a record *)
Definition disk_settled (d : disk) : Prop :=
  nlen (dk_i d) = 1 \/ exists f, nget (nlen (dk_i d) - 1) (dk_i d) = Some f /\ 29 < blen f.

(* In the writes to the namespace k: index and data files as in CrashSpec.v and
   SeqReach.v.  In the descriptor: the header is not torn, and when a password is set
   the process does not die between the header and the password. *)
Definition point_ok (pt : point) (w w' : world) : Prop :=
  match pt with
  | PRun k j n => forall r r', slot k w = Some r -> slot k w' = Some r' ->
      let W := new_writes (r_dk r) (r_dk r') in
      (in_sequential r -> between_writes W j n) /\
      (~ in_sequential r -> CrashSpec.covered (dk_i (r_dk r), dk_d (r_dk r)) W j n) /\
      (r_desc r' <> r_desc r ->
         (j = List.length W -> n = 0) /\
         (n_pass (r_cfg r') = n_pass (r_cfg r) \/ n_pass (r_cfg r') = None \/ (j <= List.length W)%nat \/ (List.length W + 3 <= j)%nat))
  | PNew j n => (j = O -> n = 0) /\
      forall i r', slot i w = None -> slot i w' = Some r' -> (2 <= j)%nat -> between_writes (new_writes empty_disk (r_dk r')) (j - 2) n
  end.

(* no sequential namespace is found with an empty current file *)
Definition found_settled (pt : point) (w w' : world) : Prop :=
  forall i r, slot i w = Some r -> in_sequential r ->
    disk_settled (match pt with PRun k j n => snd (crash_entry k j n i r (slot i w')) | PNew _ _ => r_dk r end).

(* an event during which the process may die: any request, a connection, the periodic
   check; a start is in SpecStart.v *)
Definition may_die (e : sevent) : Prop := match e with SRestart _ => False | _ => True end.

(* RELOAD and FLUSH open the files again; of their writes any point is covered *)
Definition reopens (e : sevent) (w : world) : Prop :=
  match e with
  | SRequest fd v argv => exists cl h c, client_at fd w = Some cl /\ lookup_handler (arg 0 (effective cl argv)) = Some (h, c) /\ (c = CReload \/ c = CFlush)
  | _ => False
  end.

Definition kcovered (g : server) (e : kevent) (w : world) : Prop :=
  match e with
  | KEv e => SpecServer.covered g e w
  | KCrash e pt ord =>
      SpecServer.covered g e w /\ may_die e /\
      match run_sevent g e w with
      | SUndef => False
      | SDone _ _ w' =>
          Permutation ord (crash_disks pt w w') /\ (exists desc d l, ord = (str "default", desc, d) :: l) /\
          (reopens e w \/ point_ok pt w w') /\ found_settled pt w w'
      end
  end.

Fixpoint all_kcovered (g : server) (es : list kevent) (w : world) : Prop :=
  match es with
  | [] => True
  | e :: r => kcovered g e w /\ match run_kevent g e w with Some (_, w1) => all_kcovered g r w1 | None => True end
  end.
