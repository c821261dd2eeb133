(* PROPERTY C23 in sequential mode: a SCAN walk while other requests are executed.
   (User mode, and the witness that the full statement fails here: PropScan.v.) *)
From Coq Require Import List NArith Bool Strings.Byte Strings.String.
From Verif Require Import Bytes BytesFacts Layout Store Text Commands SpecKV SpecSeq Machine Reach
  CrashModel SeqReach SeqFacts Scan SpecScan ScanMixSeq PropKV PropSeq.
Import ListNotations.
Open Scope N_scope.
Local Notation length := List.length.

(* What is missing for the full statement: the walk may be cut short, but only by a write
   of the key the cursor is on.  Everything else holds: the rows are true when they are
   sent; a key that no request writes or deletes during the walk comes at most once, with
   its value, and exactly once if the walk ended; an identifier that was not there and is
   not new never comes. *)
Theorem C23_walk_among_writes_sequential_partial : forall g n c0 es o c s cmd steps,
  sreached g n c0 (plain es) o c s ->
  calm g (plain (all_events steps)) (c, s) -> nlen (dk_i (dk s)) + nlen (all_events steps) < 2 ^ 32 ->
  Forall (fun x => 1 <= fst x)%nat steps ->
  Forall (fun st => is_frozen (fst st) = false) (sq_moments steps (c, sq_of_history c0 es)) ->
  exists rs rowss,
    (mixed (fun k argv st => command_scan k argv (fst st) (snd st))
       (fun es st => option_map snd (run_cevents g (plain es) st)) cmd None steps (c, s) = Some rs \/
     (mixed (fun k argv st => command_scan k argv (fst st) (snd st))
       (fun es st => option_map snd (run_cevents g (plain es) st)) cmd None steps (c, s) =
      Some (rs ++ [hardsend "-Invalid key format"]) /\ cut_short steps rowss)) /\
    Forall2 scan_reply rowss rs /\
    Forall2 (fun rows st => incl rows (sq_map (snd st))) rowss
      (firstn (length rowss) (sq_moments steps (c, sq_of_history c0 es))) /\
    (forall k, (forall e, In e (all_events steps) -> ~ asks k e) ->
      match kget k (sq_map (sq_of_history c0 es)) with
      | None => (exists i, i < sq_next (sq_of_history c0 es) /\ k = ident i) -> rows_of k rowss = []
      | Some v => (rows_of k rowss = [] \/ rows_of k rowss = [(k, v)]) /\ (ended rowss -> rows_of k rowss = [(k, v)])
      end).
Proof. exact seq_mixed. Qed.
Print Assumptions C23_walk_among_writes_sequential_partial.

(* the key under the cursor is deleted, keys before and after it are updated, a key is
   added, a file is closed and the server restarts: the walk ends, and 4 comes once *)
Definition smix_es : list event := [sq_ins "one"; sq_ins "two"; sq_ins "three"; sq_ins "four"; sq_ins "five"; sq_del 3].
Definition smix_steps : list (nat * list event) :=
  [(1%nat, [sq_del 1; sq_upd 0 "uno"; sq_upd 2 "drei"; sq_jump; sq_ins "six"; ERestart]);
   (1%nat, [sq_ins "seven"]); (2%nat, []); (1%nat, []); (1%nat, [])].

Example C23_sequential_ex : exists o c s, sreached ex_g 5 ex_c (plain smix_es) o c s /\
  calm ex_g (plain (all_events smix_steps)) (c, s) /\ nlen (dk_i (dk s)) + nlen (all_events smix_steps) < 2 ^ 32 /\
  Forall (fun x => 1 <= fst x)%nat smix_steps /\
  Forall (fun st => is_frozen (fst st) = false) (sq_moments smix_steps (c, sq_of_history ex_c smix_es)) /\
  (forall e, In e (all_events smix_steps) -> ~ asks (ident 4) e) /\
  kget (ident 4) (sq_map (sq_of_history ex_c smix_es)) = Some (str "five", 1) /\
  kget (ident 3) (sq_map (sq_of_history ex_c smix_es)) = None /\ 3 < sq_next (sq_of_history ex_c smix_es) /\
  option_map (fun rs => (nlen rs, last rs [])) (mixed (fun k argv st => command_scan k argv (fst st) (snd st))
      (fun es st => option_map snd (run_cevents ex_g (plain es) st)) (str "SCAN") None smix_steps (c, s)) = Some (5, hardsend "-No more data").
Proof.
  destruct (sreached_ex (plain smix_es)) as (o & c & s & R & E); [vm_compute; reflexivity|]. exists o, c, s. split; [exact R|].
  split; [apply calm_b_ok; refine (sq_probe (fun x => calm_b ex_g (plain (all_events smix_steps)) (snd x)) _ _ _ _ _ E _); vm_compute; reflexivity|].
  split; [apply N.ltb_lt; refine (sq_probe (fun x => nlen (dk_i (dk (snd (snd x)))) + nlen (all_events smix_steps) <? 2 ^ 32) _ _ _ _ _ E _); vm_compute; reflexivity|].
  split; [repeat constructor|].
  split; [replace c with ex_c by (symmetry; refine (sq_probe (fun x => fst (snd x)) _ _ _ _ _ E _); vm_compute; reflexivity);
    vm_compute; repeat constructor|].
  split; [intros e He (p & now & ts & [(v & ->)| ->]); vm_compute in He; intuition discriminate|].
  split; [vm_compute; reflexivity|]. split; [vm_compute; reflexivity|]. split; [vm_compute; reflexivity|].
  refine (sq_probe (fun x => option_map (fun rs => (nlen rs, last rs [])) (mixed (fun k argv st => command_scan k argv (fst st) (snd st))
      (fun es st => option_map snd (run_cevents ex_g (plain es) st)) (str "SCAN") None smix_steps (snd x))) _ _ _ _ _ E _).
  vm_compute. reflexivity.
Qed.
