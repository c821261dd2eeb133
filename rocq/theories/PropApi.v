(* C36: the library API agrees with a map *)
From Coq Require Import Strings.String Strings.Byte List NArith ZArith Bool Lia.
From Verif Require Import Bytes Crc32 Layout Store Text Commands SpecKV Machine Reach KvFacts Api SpecApi ApiFacts PropKV PropFiles.
Import ListNotations.
Open Scope N_scope.

(* The full statement: after an accepted zdb_api_set, zdb_api_get gives the value, for
   every key and value, in every mode.  It does not hold (see the witnesses below).

   What holds: in an instance in user mode (not in the default mixed mode), with keys of
   1 to 255 bytes, as long as no value is replaced by another one of the same checksum,
   the replies of every sequence of calls are those of a map. *)
Theorem C36_map_partial : forall g n max cs s0,
  settings_ok g -> g_mode g = MODE_KV -> created g n s0 ->
  Forall call_ok cs -> no_collisions max [] cs -> nlen cs < 2 ^ 32 - 1 ->
  exists s, api_run g max cs s0 = Some (fst (a_run max cs []), s).
Proof. exact api_map. Qed.
Print Assumptions C36_map_partial.

Theorem C36_get_after_set_partial : forall g n max cs s0 os s now k v a s',
  settings_ok g -> g_mode g = MODE_KV -> created g n s0 ->
  Forall call_ok cs -> no_collisions max [] (cs ++ [KSet now k v]) -> nlen cs < 2 ^ 32 - 2 ->
  key_ok k -> blen v <= 8388608 ->
  api_run g max cs s0 = Some (os, s) ->
  zdb_api_set g max now k v s = Some (a, s') -> (a = ABuffer k \/ a = AUpToDate) ->
  zdb_api_get k s' = AEntry k v.
Proof. exact api_get_set. Qed.
Print Assumptions C36_get_after_set_partial.

Definition ap_g : settings := mkSettings MODE_KV 60.
Definition ap_cs : list api_call :=
  [KSet 1 (str "a") (str "one"); KSet 2 (str "a") (str "two"); KSet 3 (str "a") (str "two"); KSet 4 (str "b") (str "a long value");
   KGet (str "a"); KDel 5 (str "a"); KDel 6 (str "a"); KExists (str "a"); KCheck (str "b"); KSet 7 (str "b") (str "too long a value ..."); KSet 8 (str "c") (str "ten bytes.")].
Example C36_ex_run : fst (a_run 25 ap_cs []) =
  [ABuffer (str "a"); ABuffer (str "a"); AUpToDate; ABuffer (str "b"); AEntry (str "a") (str "two"); ASuccess; ANotFound; AFalse; ATrue;
   ABuffer (str "b"); AFailure "No space left on this namespace"].
Proof. vm_compute. reflexivity. Qed.
Lemma no_coll_cons max m c r :
  match c with
  | KSet _ k v => match kget k m with Some (v', _) => negb (zdb_crc32 v' =? zdb_crc32 v) || bseqb v' v | None => true end = true
  | _ => True
  end -> no_collisions max (snd (a_step max c m)) r -> no_collisions max m (c :: r).
Proof.
  intros H R. split; [|exact R]. destruct c as [now k v|k|k|k|now k]; try exact I. intros v' t G C. rewrite G in H. rewrite C, N.eqb_refl in H.
  now apply BytesFacts.bseqb_eq.
Qed.
Example C36_ex_hyp : settings_ok ap_g /\ g_mode ap_g = MODE_KV /\ (exists s0, created ap_g 5 s0) /\ Forall call_ok ap_cs /\
  no_collisions 25 [] ap_cs /\ nlen ap_cs < 2 ^ 32 - 2.
Proof.
  split; [split; [now left|vm_compute; discriminate]|]. split; [reflexivity|]. split; [apply created_total; split; [now left|vm_compute; discriminate]|].
  split; [repeat constructor; vm_compute; discriminate|]. split; [|reflexivity].
  unfold ap_cs. repeat (apply no_coll_cons; [first [exact I | vm_compute; reflexivity]|vm_compute a_step; cbn [snd]]). exact I.
Qed.

(* ---- witnesses ---- *)

Definition ap_s0 (mode : N) : est := got nothing (store_open mode 5 empty_table empty_disk).
Definition ap_replies (g : settings) (cs : list api_call) : option (list api_reply) :=
  option_map fst (api_run g 0 cs (ap_s0 (g_mode g))).

(* A value that differs from the old one by a zero byte in front is taken for the same:
   the call succeeds and the old value stays. *)
Theorem C36_same_checksum_refuted :
  exists v v', v <> v' /\
    ap_replies ap_g [KSet 1 (str "k") v; KSet 2 (str "k") v'; KGet (str "k")] =
    Some [ABuffer (str "k"); AUpToDate; AEntry (str "k") v].
Proof. exists (str "v"), (x00 :: str "v"). split; [discriminate|vm_compute; reflexivity]. Qed.
Print Assumptions C36_same_checksum_refuted.

(* Two different keys of 257 bytes are one key: the value of the second is read under the
   first. *)
Theorem C36_long_key_refuted :
  exists k k', k <> k' /\
    ap_replies ap_g [KSet 1 k (str "one"); KSet 2 k' (str "two"); KGet k] =
    Some [ABuffer k; ABuffer k'; AEntry k (str "two")].
Proof. exists (x41 :: repeat x42 256), (x41 :: repeat x43 256). split; [discriminate|vm_compute; reflexivity]. Qed.
Print Assumptions C36_long_key_refuted.

(* In mixed mode, the default of the library, every zdb_api_set within the quota calls
   through a pointer read behind the end of the table of handlers. *)
Theorem C36_mixed_mode_refuted : forall size now key value s,
  zdb_api_set (mkSettings MODE_MIX size) 0 now key value s = None.
Proof. intros. reflexivity. Qed.
Print Assumptions C36_mixed_mode_refuted.

(* Sequential mode: entries of the second data file are looked for in the first one. *)
Definition sq_g : settings := mkSettings MODE_SEQ 60.
Theorem C36_sequential_refuted :
  ap_replies sq_g [KSet 1 [] (str "one one one one"); KSet 2 [] (str "two two two two"); KGet (le 8 1)] =
  Some [ABuffer (le 8 0); ABuffer (le 8 1); AEntry (le 8 1) (str "one one one one")].
Proof. vm_compute. reflexivity. Qed.
Print Assumptions C36_sequential_refuted.
