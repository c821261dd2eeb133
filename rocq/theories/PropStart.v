(* PROPERTY C56: a start which is interrupted, any number of times, changes nothing. *)
From Coq Require Import Strings.String Strings.Byte List NArith ZArith Bool Sorting.Permutation.
From Verif Require Import Bytes Layout Store Text Commands SpecKV SpecSeq Machine Reach SeqReach CrashModel SeqFacts Sha1 Dispatch Namespace System Resp Server ServerCrash
  SpecAuth AuthFacts SpecServer IsolFacts NamesFacts ServerFacts SpecStart StartFacts PropAuth PropServer.
Import ListNotations.
Open Scope N_scope.

(* The server finds any directories: the files hold any bytes, only the header of each
   descriptor and of each first index file must be whole, or the namespace new.  It is
   started any number of times, and each time dies in any write of any namespace.  The
   next start then does what the first would have done: it ends in the same memory and
   the same files, or does not survive either. *)
Theorem C56_same : forall g l l', server_ok g -> Forall whole l -> starts_cut g l l' -> same_start (boot g l) (boot g l').
Proof. exact starts_same. Qed.
Print Assumptions C56_same.

(* After any history of covered events and any number of interrupted starts the server
   comes up with all namespaces, contents and settings, and goes on with them. *)
Theorem C56_resumed : forall g es0 outs0 w0 w ord l',
  server_ok g -> first_boot g = Some w0 -> all_covered g es0 w0 -> run_sevents g es0 w0 = Some (outs0, w) ->
  covered g (SRestart ord) w -> starts_cut g ord l' ->
  exists D w1, dir_run g es0 w0 outs0 (only_default g) D /\ boot g l' = Some w1 /\
    forall es outs w2, all_covered g es w1 -> run_sevents g es w1 = Some (outs, w2) ->
      exists D2, dir_run g es w1 outs (after_restart D) D2 /\
        (forall n, D2 n <> None <-> exists i r, slot i w2 = Some r /\ n_name (r_cfg r) = n).
Proof. exact start_theorem. Qed.
Print Assumptions C56_resumed.

(* The same for the very first start, on empty directories. *)
Theorem C56_first : forall g l', server_ok g -> starts_cut g [(str "default", [], empty_disk)] l' ->
  exists w w', first_boot g = Some w /\ boot g l' = Some w' /\ same_world w w'.
Proof. exact first_theorem. Qed.
Print Assumptions C56_first.

(* Three namespaces with data, one of them sequential with two files. *)
Definition ex56_a : list sevent :=
  ex_prefix ++
  [ req 5 ["SELECT"; "priv"; "pw"]; req 5 ["SET"; "k"; "secret"]; req 4 ["NSNEW"; "b"]; req 4 ["NSSET"; "b"; "mode"; "seq"];
    req 4 ["SET"; "d"; "mine"]; req 4 ["SELECT"; "b"]; req 4 ["SET"; ""; "one"]; req 4 ["NSJUMP"]; req 4 ["SET"; ""; "two"] ]%string.
Definition ex56_w : world := match run_sevents ex_g ex56_a ex31_w0 with Some (_, w) => w | None => ex_w end.
Definition ex56_ord : list stored := stored_of ex56_w.
(* the files as the program leaves them after an earlier start: the header of each index
   file has the time of that start *)
Definition timed (x : stored) : stored :=
  (fst x, mkDisk (map (fun f => fwrite f 16 [x11; x22; x33; x44; x55; x66; x77; x88]) (dk_i (snd x))) (dk_d (snd x)) [] []).
Definition ex56_l : list stored := map timed ex56_ord.
(* the first start dies in the header of the second index file of "b", the second one in
   the first write to "priv" *)
Definition ex56_l1 : list stored := start_at MODE_MIX 0 empty_table ex56_l 2 3 20.
Definition ex56_l2 : list stored := start_at MODE_MIX 0 empty_table ex56_l1 1 1 19.

Example C56_ex_same :
  Forall whole ex56_l /\ starts_cut ex_g ex56_l ex56_l2 /\
  (* the times are torn *)
  map (fun x => map (fun f => fread f 16 8) (dk_i (snd x))) ex56_l1 =
    [[zeros 8]; [zeros 8]; [zeros 8; zeros 4 ++ [x55; x66; x77; x88]]] /\
  option_map (fun w => map (fun o => match o with Some r => x_entries (r_ix r) | None => 0 end) (w_slots w)) (boot ex_g ex56_l2) = Some [1; 1; 2].
Proof.
  split; [apply wholeb_ok; vm_compute; reflexivity|]. split.
  - apply (cut_again _ _ ex56_l1); [apply start_at_ok|apply wholeb_ok; vm_compute; reflexivity|].
    apply (cut_again _ _ ex56_l2); [apply start_at_ok|apply wholeb_ok; vm_compute; reflexivity|]. apply cut_never.
  - split; vm_compute; reflexivity.
Qed.

(* a start dies in the header of the last data file *)
Definition ex56_l3 : list stored := start_at MODE_MIX 0 empty_table ex56_ord 2 6 7.
Definition ex56_w3 : world := match boot ex_g ex56_l3 with Some w => w | None => ex_w end.
Definition ex56_b : list sevent := [SConnect 7; req 7 ["SELECT"; "b"]; req 7 ["SCAN"]; req 7 ["SET"; ""; "three"]]%string.
Example C56_ex_resumed :
  all_covered ex_g ex56_a ex31_w0 /\ covered ex_g (SRestart ex56_ord) ex56_w /\ starts_cut ex_g ex56_ord ex56_l3 /\
  boot ex_g ex56_l3 = Some ex56_w3 /\ all_covered ex_g ex56_b ex56_w3 /\
  option_map (fun x => skipn 3 (fst x)) (run_sevents ex_g ex56_b ex56_w3) = Some [[(7, bulk (le 8 2))]].
Proof.
  split; [apply all_coveredb_ok; vm_compute; reflexivity|]. split; [apply restart_b_ok; vm_compute; reflexivity|].
  split; [apply (cut_again _ _ ex56_l3); [apply start_at_ok|apply wholeb_ok; vm_compute; reflexivity|apply cut_never]|].
  split; [vm_compute; reflexivity|]. split; [apply all_coveredb_ok; vm_compute; reflexivity|vm_compute; reflexivity].
Qed.

(* The headers must be whole.  When the very first start dies inside of the header of the
   first index file, the server does not start any more. *)
Theorem C56_torn_refuted : exists l', start_left (g_mode (v_set ex_g)) 0 empty_table [(str "default", [], empty_disk)] l' /\ boot ex_g l' = None.
Proof. exists (start_at (g_mode (v_set ex_g)) 0 empty_table [(str "default", [], empty_disk)] 0 1 10). split; [apply start_at_ok|vm_compute; reflexivity]. Qed.
Print Assumptions C56_torn_refuted.

(* every other point of it is covered *)
Example C56_ex_first : forallb (fun p =>
    forallb wholeb (start_at (g_mode (v_set ex_g)) 0 empty_table [(str "default", [], empty_disk)] 0 (fst p) (snd p)))
  [(0%nat, 3); (1%nat, 0); (2%nat, 0); (2%nat, 10); (3%nat, 1); (4%nat, 1); (5%nat, 0); (5%nat, 9); (6%nat, 0)] = true.
Proof. vm_compute. reflexivity. Qed.
