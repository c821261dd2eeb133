(* PROPERTY C61: the hooks a server runs, and what HOOKS shows of them. *)
From Coq Require Import Strings.String Strings.Byte List NArith Bool Permutation Lia.
From Verif Require Import Bytes Layout Text SpecKV SpecAuth Hooks SpecHooks HookFacts.
Import ListNotations.
Open Scope N_scope.

(* Whatever hooks are started, waited for, ending in whatever order, and whenever the server
   is idle: the server does not fail, and HOOKS lists every hook started, with its type, its
   arguments, its process, its times and its own exit code, until 300 seconds after its end,
   as long as the replies fit in the room made for them. *)
Theorem C61_hooks : forall program es kids',
  os_run es [] kids' -> Forall has_id es -> Forall waited_for es -> all_fit es [] ->
  exists outs s rows, hook_run program es hook_initialize = Some (outs, s) /\ hooks_run es [] outs rows.
Proof. exact hooks_ok. Qed.
Print Assumptions C61_hooks.

(* The replies fit when the arguments of each hook take at most 700 bytes. *)
Theorem C61_short : forall es kids',
  nlen es < 2 ^ 64 -> os_run es [] kids' -> Forall has_id es -> Forall waited_for es -> Forall short es -> all_fit es [].
Proof. exact short_fit. Qed.
Print Assumptions C61_short.

(* the exit code shown is that of the process, when it was not killed *)
Theorem C61_code : forall c, c < 256 -> shown_code (word (Exited c)) = c.
Proof.
  intros c H. unfold shown_code, word. rewrite N.div_mul by lia.
  replace ((c * 256) mod 128) with 0; [reflexivity|].
  symmetry. replace (c * 256) with (c * 2 * 128) by lia. apply N.mod_mul. lia.
Qed.
Print Assumptions C61_code.

(* Eleven hooks: more than the eight slots are in use, they end in another order, one which could not be started stays, the others are forgotten. *)
Definition hk (n : string) (pid now : N) : hevent := HStart (str n) [str "id"; str "ns"] pid now.
Definition ex61 : list hevent :=
  [ HWait (str "namespaces-init") [str "id"; str "/index"; str "/data"] 10 1000 (word (Exited 0)) 1001;
    hk "namespace-created" 11 1010; hk "namespace-updated" 12 1011; hk "namespace-updated" 13 1011; HShow;
    HIdle [(12, word (Exited 3))] 1020; hk "namespace-deleted" 0 1021; HIdle [] 1022;
    hk "a" 14 1030; hk "b" 15 1030; hk "c" 16 1030; hk "d" 17 1030; hk "e" 18 1030; HShow;
    HIdle [(18, word (Killed 9 false)); (11, word (Exited 0)); (14, word (Exited 1))] 1040;
    HIdle [(13, 0); (17, 0); (16, 0); (15, 256)] 1200; HIdle [] 1400; HShow; HIdle [] 2000;
    hk "f" 11 2001; HShow ].
Example C61_os : os_run ex61 [] [11].
Proof. apply os_check_ok. vm_compute. reflexivity. Qed.
Example C61_hypotheses : Forall has_id ex61 /\ Forall waited_for ex61 /\ all_fit ex61 [].
Proof.
  assert (A : Forall has_id ex61) by (repeat (constructor; [cbn; first [exact I|split; [discriminate|lia]]|]); constructor).
  assert (B : Forall waited_for ex61) by (repeat (constructor; [cbn; first [exact I|discriminate]|]); constructor).
  split; [exact A|]. split; [exact B|]. apply (C61_short ex61 [11]); try assumption; [vm_compute; reflexivity|exact C61_os|].
  repeat (constructor; [cbn; repeat split; vm_compute; first [reflexivity|discriminate]|]). constructor.
Qed.
Definition shows (r : list (string * N * N * N * N)) : hout :=
  OReply (enc_reply (RArr (map (fun x => let '(n, pid, a, b, c) := x in row_reply (mkRow (str n) [str "ns"] pid a b c)) r))).
Example C61_example : option_map (fun x => skipn 16 (fst x)) (hook_run (str "/bin/hook") ex61 hook_initialize) =
  Some [ ONone;
         shows [ ("namespace-updated", 13, 1011, 1200, 0); ("namespace-deleted", 0, 1021, 0, 0); ("b", 15, 1030, 1200, 1);
                 ("c", 16, 1030, 1200, 0); ("d", 17, 1030, 1200, 0) ]%string;
         ONone; ONone; shows [ ("f", 11, 2001, 0, 0); ("namespace-deleted", 0, 1021, 0, 0) ]%string ].
Proof. vm_compute. reflexivity. Qed.

(* When fork fails for a hook the server waits for, waitpid is called for any child; the
   count of children then goes below zero, and a later idle turn follows a null pointer. *)
Definition lost61 : list hevent :=
  [ hk "a" 10 1000; HIdle [(10, 0)] 1001; HWait (str "jump-index") [str "id"; str "i0"; str "i1"; str ""] 0 1002 0 1003;
    hk "b" 11 1004; HIdle [] 2000; hk "c" 12 2001; HIdle [(11, 0)] 2002 ].
Theorem C61_fork_refuted : exists es kids,
  os_run es [] kids /\ Forall has_id es /\ Forall short es /\ all_fit es [] /\
  hook_run (str "/bin/hook") es hook_initialize = None.
Proof.
  exists lost61, [12]. split; [apply os_check_ok; vm_compute; reflexivity|].
  split; [repeat (constructor; [cbn; first [exact I|split; [discriminate|lia]]|]); constructor|].
  split; [repeat (constructor; [cbn; repeat split; vm_compute; first [reflexivity|discriminate]|]); constructor|].
  split; [cbn; repeat split; discriminate|vm_compute; reflexivity].
Qed.
Print Assumptions C61_fork_refuted.

(* The room for the reply of HOOKS is 1024 bytes a hook, and the list of dirty files given to
   the hook of a new index file has no such limit: HOOKS then writes past the end. *)
Definition dirty_files : bytes := List.concat (map (fun n => dec (N.of_nat n) ++ str " ") (seq 100 600)).
Definition long61 : list hevent :=
  [ HWait (str "jump-index") [str "id"; str "i699"; str "i700"; dirty_files] 10 1000 0 1001; HShow ].
Theorem C61_room_refuted : exists es kids,
  os_run es [] kids /\ Forall has_id es /\ Forall waited_for es /\ ~ all_fit es [] /\
  hook_run (str "/bin/hook") es hook_initialize = None.
Proof.
  exists long61, []. split; [apply os_check_ok; vm_compute; reflexivity|].
  split; [repeat (constructor; [first [exact I|split; [discriminate|vm_compute; discriminate]]|]); constructor|].
  split; [repeat (constructor; [first [exact I|discriminate]|]); constructor|].
  split; [intros (_ & F & _); specialize (F eq_refl); vm_compute in F; discriminate F|vm_compute; reflexivity].
Qed.
Print Assumptions C61_room_refuted.

(* A hook killed by a signal is taken for one which succeeded: for the hook of a new index
   file, the list of dirty files is then cleared as if the program had dealt with them. *)
Theorem C61_killed_refuted : exists e, possible e /\ e <> Exited 0 /\ os_run [HWait (str "jump-index") [str "id"; str "i0"; str "i1"; str "0"] 10 1000 (word e) 1001] [] [] /\
  option_map fst (hook_run (str "/bin/hook") [HWait (str "jump-index") [str "id"; str "i0"; str "i1"; str "0"] 10 1000 (word e) 1001] hook_initialize)
  = Some [OStatus 0].
Proof.
  exists (Killed 9 false). split; [cbn; lia|]. split; [discriminate|]. split; [apply os_check_ok; vm_compute; reflexivity|vm_compute; reflexivity].
Qed.
Print Assumptions C61_killed_refuted.
