(* C40: the buckets of linked lists behave as a map from namespace and key to entry *)
From Coq Require Import Strings.String Strings.Byte List NArith ZArith Bool Lia.
From Verif Require Import Bytes Layout Store Branch SpecTable BranchFacts.
Import ListNotations.
Open Scope N_scope.

(* Every answer is that of the map, for every sequence of operations, every hash
   function into the array and every choice of addresses by calloc. *)
Theorem C40_map hash nb cs os m :
  (forall k, hash k < N.of_nat nb) -> proper none cs ->
  runs hash nb buckets_init cs os m ->
  os = fst (m_run none cs).
Proof. intros H P R. exact (proj1 (map_runs hash nb cs os m H P R)). Qed.
Print Assumptions C40_map.

(* After it every list ends, is closed by its last pointer, has its length, no entry is
   in two places, and every allocated entry is in the bucket of its key. *)
Theorem C40_well_linked hash nb cs os m :
  (forall k, hash k < N.of_nat nb) -> proper none cs ->
  runs hash nb buckets_init cs os m ->
  well_linked hash m.
Proof. intros H P R. exact (proj2 (map_runs hash nb cs os m H P R)). Qed.
Print Assumptions C40_well_linked.

(* The next operation ends and touches only allocated entries. *)
Theorem C40_no_dangling hash nb cs os m c a :
  (forall k, hash k < N.of_nat nb) -> proper none (cs ++ [c]) ->
  runs hash nb buckets_init cs os m -> m_node m a = None ->
  exists n o m', forall fuel, (n < fuel)%nat -> do_cmd hash nb fuel a m c = Some (o, m').
Proof. exact (map_goes hash nb cs os m c a). Qed.
Print Assumptions C40_no_dangling.

(* The table of Store.v, on which the other theorems stand, is what these lists hold. *)
Theorem C40_table nb cs os m :
  N.of_nat nb = 2 ^ 24 -> Forall keeps_key cs ->
  runs index_key_hash nb buckets_init cs os m ->
  os = fst (t_run empty_table cs) /\ holds m (snd (t_run empty_table cs)) /\ well_linked index_key_hash m.
Proof. exact (table_runs cs os m nb). Qed.
Print Assumptions C40_table.

(* ---- examples ---- *)

Definition mk (ns : N) (k : string) (len : N) : entry := mkEntry ns (str k) 0 0 len 0 0 0 0 0 0 0.
Definition relen (len : N) (e : entry) : entry :=
  mkEntry (e_ns e) (e_id e) (e_off e) (e_idxoff e) len (e_flags e) (e_dataid e) (e_indexid e) (e_crc e) (e_pid e) (e_poff e) (e_ts e).

(* all keys in one bucket; removal of the first, of the last and of the only entry; the
   same key in two namespaces; addresses used again *)
Definition tab_cs : list cmd :=
  [CInsert (mk 1 "a" 1); CInsert (mk 1 "b" 2); CInsert (mk 2 "a" 3); CGet 2 (str "a");
   CDelete 1 (str "a"); CGet 1 (str "a"); CInsert (mk 1 "c" 4); CUpdate 1 (str "b") (relen 5); CDelete 1 (str "c");
   CGet 1 (str "b"); CClean 1; CGet 1 (str "b"); CGet 2 (str "a"); CDelete 2 (str "a"); CInsert (mk 1 "z" 6); CGet 1 (str "z")].
Definition tab_as : list N := [10; 11; 12; 99; 99; 99; 10; 99; 99; 99; 99; 99; 99; 99; 12; 99].

Fixpoint feed (hash : bytes -> N) (nb fuel : nat) (cs : list cmd) (xs : list N) (m : mem) : option (list (option entry) * mem) :=
  match cs, xs with
  | [], _ => Some ([], m)
  | c :: cs', a :: xs' =>
      match m_node m a with
      | Some _ => None
      | None => match do_cmd hash nb fuel a m c with
                | Some (o, m1) => match feed hash nb fuel cs' xs' m1 with Some (os, m2) => Some (o :: os, m2) | None => None end
                | None => None
                end
      end
  | _, _ => None
  end.
Lemma feed_runs hash nb fuel cs : forall xs m os m', feed hash nb fuel cs xs m = Some (os, m') -> runs hash nb m cs os m'.
Proof.
  induction cs as [|c cs IH]; intros xs m os m' H; cbn [feed] in H.
  - injection H as <- <-. constructor.
  - destruct xs as [|a xs]; [discriminate|]. destruct (m_node m a) eqn:Ha; [discriminate|].
    destruct (do_cmd hash nb fuel a m c) as [[o m1]|] eqn:D; [|discriminate].
    destruct (feed hash nb fuel cs xs m1) as [[os1 m2]|] eqn:F; [|discriminate]. injection H as <- <-. econstructor; eauto.
Qed.

Definition tab_end (hash : bytes -> N) (nb : nat) : option (list (option entry) * mem) := feed hash nb 10 tab_cs tab_as buckets_init.
Definition answers (r : option (list (option entry) * mem)) : option (list (option N)) :=
  match r with Some (os, _) => Some (map (fun o => match o with Some e => Some (e_len e) | None => None end) os) | None => None end.

Example C40_ex_proper : proper none tab_cs.
Proof. cbn. repeat split; intros; try exact I; try reflexivity; try discriminate; injection H as <-; reflexivity. Qed.

Example C40_ex_one_bucket : answers (tab_end (fun _ => 3) 8) =
  Some [None; None; None; Some 3; None; None; None; None; None; Some 5; None; None; Some 3; None; None; Some 6].
Proof. vm_compute. reflexivity. Qed.
Example C40_ex_runs : exists os m, runs (fun _ => 3) 8 buckets_init tab_cs os m /\ (forall k : bytes, 3 < N.of_nat 8).
Proof.
  destruct (tab_end (fun _ => 3) 8) as [[os m]|] eqn:E; [|exfalso; vm_compute in E; discriminate].
  exists os, m. split; [|reflexivity]. exact (feed_runs _ _ _ _ _ _ _ _ E).
Qed.

(* with the hash function of the code: the buckets up to 2^24 are only walked by
   CClean, so the case is without it *)
Definition tab_cs2 : list cmd :=
  [CInsert (mk 1 "a" 1); CInsert (mk 2 "a" 2); CInsert (mk 1 "b" 3); CUpdate 2 (str "a") (relen 9); CDelete 1 (str "a"); CGet 2 (str "a"); CGet 1 (str "a")].
Definition tab_end2 (nb : nat) := feed index_key_hash nb 10 tab_cs2 [1; 2; 3; 4; 4; 4; 4] buckets_init.
Example C40_ex_table : Forall keeps_key tab_cs2 /\ exists os m nb, N.of_nat nb = 2 ^ 24 /\ runs index_key_hash nb buckets_init tab_cs2 os m /\
  map (fun o => match o with Some e => Some (e_len e) | None => None end) os = [None; None; None; None; None; Some 9; None].
Proof.
  split; [repeat constructor; cbn; auto|].
  assert (X : forall nb, exists os m, tab_end2 nb = Some (os, m) /\
    map (fun o => match o with Some e => Some (e_len e) | None => None end) os = [None; None; None; None; None; Some 9; None]).
  { intros nb. eexists. eexists. split; vm_compute; reflexivity. }
  destruct (X (N.to_nat (2 ^ 24))) as (os & m & E & A). exists os, m, (N.to_nat (2 ^ 24)).
  split; [apply N2Nat.id|]. split; [|exact A]. exact (feed_runs _ _ _ _ _ _ _ _ E).
Qed.
