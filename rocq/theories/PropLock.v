(* PROPERTY C62: two servers never use the same directory. *)
From Coq Require Import List NArith Bool Lia.
From Verif Require Import Lock SpecLock LockFacts.
Import ListNotations.
Open Scope N_scope.

(* Whatever servers are started on whatever directories, whatever processes they start and
   whenever any of them ends: no two living servers have a directory in common, as long as
   flock fails only for a lock which somebody has. *)
Theorem C62_exclusive : forall es bs l,
  Forall flock_works es -> plock_run es [] = (bs, l) -> exclusive (users es bs []).
Proof. exact exclusive_ok. Qed.
Print Assumptions C62_exclusive.

(* A server starts exactly when its two directories are different, the lock files can be
   opened, and neither directory is used by a living server or by a living process which a
   server on it has started. *)
Theorem C62_start : forall es bs l pid i d f1 f2,
  Forall flock_works es -> plock_run es [] = (bs, l) -> flock_works (PStart pid i d f1 f2) ->
  (fst (plock_step (PStart pid i d f1 f2) l) = true <->
   f1 = NoFault /\ f2 = NoFault /\ i <> d /\ forall u, In u (users es bs []) -> uses i u = false /\ uses d u = false).
Proof. exact start_ok. Qed.
Print Assumptions C62_start.

(* Two servers, four refused starts (the index directory is used as such, the data directory
   is the index directory of another server, both directories are the same, the lock file
   cannot be opened), a hook, and a third server after the end of the first and its hook. *)
Definition go (pid i d : N) : pevent := PStart pid i d NoFault NoFault.
Definition ex62 : list pevent :=
  [ go 1 10 11; go 2 10 12; go 2 12 13; go 3 14 12; go 3 14 14; PStart 3 14 15 NoFault OpenFails;
    PHook 1 4; PExit 1; go 5 11 10; PExit 4; go 5 11 10 ].
Example C62_hypotheses : Forall flock_works ex62.
Proof. repeat (constructor; [cbn; first [exact I|split; discriminate]|]). constructor. Qed.
Example C62_example :
  fst (plock_run ex62 []) = [true; false; true; false; false; false; false; false; false; false; true] /\
  users ex62 (fst (plock_run ex62 [])) [] = [mkUser 5 11 10 true; mkUser 2 12 13 true].
Proof. split; vm_compute; reflexivity. Qed.

(* The lock files stay open in the processes a server starts.  The hook for a crash is not
   waited for, so a server is refused its own directories after a crash, although no server
   runs, until the hook has ended. *)
Theorem C62_hook_refuted : exists es bs l, Forall flock_works es /\ plock_run es [] = (bs, l) /\
  (forall u, In u (users es bs []) -> u_server u = false) /\ fst (plock_step (go 3 10 11) l) = false.
Proof.
  exists [go 1 10 11; PHook 1 2; PExit 1], [true; false; false], [(11, 2); (10, 2)].
  split; [repeat (constructor; [cbn; first [exact I|split; discriminate]|]); constructor|].
  split; [vm_compute; reflexivity|].
  split; [intros u [<-|[]]; reflexivity|vm_compute; reflexivity].
Qed.
Print Assumptions C62_hook_refuted.

(* Where flock is not supported the server goes on without a lock, and two servers may use
   the same directories. *)
Theorem C62_flock_refuted : exists es bs l, plock_run es [] = (bs, l) /\ ~ exclusive (users es bs []).
Proof.
  exists [PStart 1 10 11 FlockFails FlockFails; PStart 2 10 11 FlockFails FlockFails], [true; true], [].
  split; [vm_compute; reflexivity|]. intros H. vm_compute in H. inversion H as [|x m F G]. subst.
  inversion F as [|y n A B]. subst. specialize (A 10 eq_refl). discriminate.
Qed.
Print Assumptions C62_flock_refuted.
