(* PROPERTIES: C64, what a hook program is told about the namespaces. *)
From Coq Require Import Strings.String Strings.Byte List NArith ZArith Bool Lia Sorting.Permutation.
From Verif Require Import Bytes Layout Store Text Commands SpecKV Machine Dispatch Namespace System Resp Server SpecAuth AuthFacts SpecServer
  PropAuth NamesFacts ConfFacts ServerFacts PropServer NsHook SpecNotify NotifyFacts.
Import ListNotations.
Open Scope N_scope.

(* In any run a program which looks only at the namespaces it is told of, when it is told of
   them, knows which namespaces there are and their settings. *)
Theorem C64_notify : forall g es w0 l w,
  first_boot g = Some w0 -> all_set_ok g es w0 -> run_hook g es w0 = Some (l, w) ->
  forall n, listen l knows_default n = settings_of w n.
Proof. intros g es w0 l w B S R. exact (proj1 (notify_theorem g es w0 l w B S R)). Qed.
Print Assumptions C64_notify.

(* It is told nothing wrong. *)
Theorem C64_true : forall g es w0 l w,
  first_boot g = Some w0 -> all_set_ok g es w0 -> run_hook g es w0 = Some (l, w) -> all_true w0 l.
Proof. intros g es w0 l w B S R. exact (proj2 (notify_theorem g es w0 l w B S R)). Qed.
Print Assumptions C64_true.

(* It is told once for each NSNEW, NSDEL, NSSET and RELOAD which is answered with OK, of the
   namespace named in it, and for no other request. *)
Theorem C64_answer : forall g es w0 l w fd v argv cl i h c ns rep rest st w',
  first_boot g = Some w0 -> all_set_ok g es w0 -> run_hook g es w0 = Some (l, w) ->
  client_at fd w = Some cl -> c_ns cl = Some i -> lookup_handler (arg 0 (effective cl argv)) = Some (h, c) ->
  run_sevent_hook g (SRequest fd v argv) w = (ns, SDone ((fd, rep) :: rest) st w') ->
  ns = notes_of c (text (arg 1 (effective cl argv))) rep.
Proof. exact answer_theorem. Qed.
Print Assumptions C64_answer.

(* Otherwise the server is the one of the other properties. *)
Theorem C64_same_server : forall g es w, match run_hook g es w with
  | None => run_sevents g es w = None
  | Some (l, w') => exists outs, run_sevents g es w = Some (outs, w')
  end.
Proof. exact run_hook_same. Qed.
Print Assumptions C64_same_server.

(* namespaces are created, changed, deleted, refused and loaded again *)
Definition es64a : list sevent :=
  ex_prefix ++
  [ req 4 ["NSNEW"; "b"]; req 4 ["NSNEW"; "b"]; req 4 ["NSSET"; "b"; "mode"; "seq"]; req 4 ["NSSET"; "b"; "mode"; "odd"];
    req 4 ["NSSET"; "b"; "lock"; "1"]; req 5 ["NSNEW"; "c"]; req 4 ["NSNEW"; "c"]; req 4 ["RELOAD"; "c"]; req 4 ["NSDEL"; "c"];
    req 4 ["NSDEL"; "c"]; req 4 ["NSDEL"; "default"] ]%string.
Definition w64 : world := match run_sevents ex_g es64a ex31_w0 with Some (_, w) => w | None => ex_w end.
Definition es64 : list sevent := es64a ++ SRestart (stored_of w64) :: [ SConnect 4; req 4 ["AUTH"; "root"]; req 4 ["NSSET"; "b"; "maxsize"; "77"] ]%string.
Example C64_hypotheses : first_boot ex_g = Some ex31_w0 /\ all_set_ok ex_g es64 ex31_w0 /\
  match run_hook ex_g es64 ex31_w0 with Some _ => true | None => false end = true.
Proof.
  split; [vm_compute; reflexivity|]. split; [|vm_compute; reflexivity].
  apply (restart_set_ok ex_g es64a _ ex31_w0 w64); vm_compute; reflexivity.
Qed.
Definition told64 : option (list (list note)) := option_map (fun x => map fst (fst x)) (run_hook ex_g es64 ex31_w0).
Example C64_told : told64 = Some
  [ []; []; []; [NCreated (str "priv")]; [NUpdated (str "priv")]; [NUpdated (str "priv")];
    [NCreated (str "b")]; []; [NUpdated (str "b")]; []; [NUpdated (str "b")]; []; [NCreated (str "c")]; [NReloaded (str "c")]; [NDeleted (str "c")];
    []; []; [NInit]; []; []; [NUpdated (str "b")] ]%string.
Proof. vm_compute. reflexivity. Qed.
Definition known64 (n : string) : option nscfg :=
  match run_hook ex_g es64 ex31_w0 with Some (l, _) => listen l knows_default (str n) | None => None end.
Example C64_known : known64 "priv" = Some (mkCfg (str "priv") (Some (str "pw")) false false 0 NS_LOCK_UNLOCKED) /\
  known64 "b" = Some (mkCfg (str "b") None true false 77 NS_LOCK_UNLOCKED) /\ known64 "c" = None.
Proof. vm_compute. split; [reflexivity|]. split; reflexivity. Qed.

(* FINDING.  A program which is there only from a later start on is told of none of the
   namespaces which are loaded. *)
Theorem C64_late_refuted : exists w l w',
  run_hook ex_g [SRestart (stored_of w)] w = Some (l, w') /\ map fst l = [[NInit]] /\
  settings_of w' (str "priv") <> None /\ listen l knows_default (str "priv") = None.
Proof.
  assert (H : match run_hook ex_g [SRestart (stored_of w64)] w64 with
              | Some (l, w') => Some (map fst l, match settings_of w' (str "priv") with Some _ => true | None => false end,
                                      listen l knows_default (str "priv"))
              | None => None end = Some ([[NInit]], true, None)) by (vm_compute; reflexivity).
  destruct (run_hook ex_g [SRestart (stored_of w64)] w64) as [[l w']|] eqn:R; [|discriminate H]. injection H as H1 H2 H3.
  exists w64, l, w'. split; [exact R|]. split; [exact H1|]. split; [|exact H3]. intro E. rewrite E in H2. discriminate H2.
Qed.
Print Assumptions C64_late_refuted.
