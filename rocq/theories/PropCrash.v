(* PROPERTIES of user-key namespaces when the process dies.  Vocabulary:
   CrashModel.v (crash points), CrashSpec.v (what a crash may do). *)
From Coq Require Import List NArith Bool Strings.Byte Strings.String Lia.
From Verif Require Import Bytes BytesFacts Layout Store Text Commands SpecKV Machine Reach CrashModel CrashSpec KvFacts CrashFacts PropKV.
Import ListNotations.
Open Scope N_scope.

(* C03, whole histories.  Missing for the full statement: the crash points left out
   by [covered] (an index file created but still without its header, an index append
   cut in the middle); both are refuted below. *)
Theorem C03_histories_with_crashes_partial : forall g n c0 es o c s,
  creached g n c0 es o c s ->
  exists r m, o = map enc_reply r /\ kc_run es (c0, []) r (c, m) /\ forall k, read_all s k = reads_of m k.
Proof. exact crash_refines. Qed.
Print Assumptions C03_histories_with_crashes_partial.

(* such histories never get stuck: every restart succeeds *)
Theorem C03_every_restart_succeeds_partial : forall g n c0 es s0, settings_ok g -> Forall cevent_wf es -> created g n s0 ->
  cfiles_fit g es (c0, s0) -> crashes_covered g es (c0, s0) -> exists o c s, run_cevents g es (c0, s0) = Some (o, (c, s)).
Proof. exact creached_total. Qed.
Print Assumptions C03_every_restart_succeeds_partial.

Theorem C03_file_numbers_fit : forall g n s0 c es, settings_ok g -> Forall cevent_wf es -> created g n s0 ->
  crashes_covered g es (c, s0) -> nlen es < 2 ^ 32 - 1 -> cfiles_fit g es (c, s0).
Proof. exact cfiles_created. Qed.
Print Assumptions C03_file_numbers_fit.

(* one crash, in terms of replies only: other keys read as before; a first insertion,
   a deletion or a jump is seen not at all or completely; an overwritten key
   reads as before, as after, or as a key that was never set *)
Theorem C03_one_crash_partial : forall g n c0 es o c s p now q j t,
  creached g n c0 es o c s -> req_wf q -> nlen (dk_i (dk s)) < 2 ^ 32 ->
  covered (dk_i (dk s), dk_d (dk s)) (new_writes (dk s) (dk (snd (run_req g p now q c s)))) j t ->
  exists s', crash_req g p now q j t c s = Some s' /\
    (forall k, target q <> Some k -> read_all s' k = read_all s k) /\
    ((forall k v ts, q = QSet k v ts -> command_exists [str "EXISTS"; k] open_cfg s <> intreply 1) ->
      same_reads s s' \/ same_reads (snd (run_req g p now q c s)) s') /\
    (forall k v ts, q = QSet k v ts -> read_all s' k = read_all s k \/
      read_all s' k = read_all (snd (run_req g p now q c s)) k \/ read_all s' k = reads_of [] k).
Proof. exact one_crash. Qed.
Print Assumptions C03_one_crash_partial.

(* a history that meets the hypotheses: crashes in the middle of a data header, of a
   data value, between the index writes of an overwrite, inside the flag write of a
   deletion, in the middle of a jump, and work after each of them *)
Definition ex_crash : list cevent :=
  [CEv (EReq rw 1 (QSet (str "a") (str "one") None));
   CEv (EReq rw 2 (QSet (str "b") (str "two") None));
   CCrash rw 3 (QSet (str "c") (str "three") None) 0 7;
   CCrash rw 4 (QSet (str "c") (str "three") None) 1 2;
   CCrash rw 5 (QSet (str "c") (str "three") None) 2 0;
   CCrash rw 6 (QSet (str "a") (str "uno") None) 3 0;
   CCrash rw 7 (QDel (str "b") None) 2 10;
   CCrash adm 8 QJump 2 0;
   CCrash adm 8 QJump 3 11;
   CEv (EReq rw 9 (QSet (str "d") (str "four") None));
   CCrash rw 10 (QDel (str "d") None) 3 0;
   CEv (EReq rw 11 (QMget [str "a"; str "b"; str "c"; str "d"]))].

Definition run_ex (es : list cevent) : option (list bytes * (nscfg * est)) :=
  match store_open MODE_MIX 5 empty_table empty_disk with
  | Some s0 => run_cevents ex_g es (ex_c, s0)
  | None => None
  end.

(* the hypothesis on crash points, computed *)
Fixpoint all_covered (g : settings) (es : list cevent) (st : nscfg * est) : bool :=
  match es with
  | [] => true
  | e :: r =>
      match e with
      | CEv _ => true
      | CCrash p now q j n =>
          let s := snd st in
          let W := new_writes (dk s) (dk (snd (run_req g p now q (fst st) s))) in
          match nth_error W j with
          | Some (WrI f off b) => (n =? 0) || (off + blen b <=? index_size f (apply_writes (firstn j W) (dk_i (dk s), dk_d (dk s))))
          | _ => true
          end && match j with O => true | S i => match nth_error W i with Some (MkI _) => false | _ => true end end
      end && match run_cevent g e st with Some (_, st') => all_covered g r st' | None => true end
  end.

Lemma all_covered_ok g es st : all_covered g es st = true -> crashes_covered g es st.
Proof.
  revert st. induction es as [|e es IH]; intros st A i p now q j n o c s X R.
  - destruct i; discriminate.
  - cbn [all_covered] in A. apply andb_prop in A. destruct A as [A1 A2].
    destruct i as [|i].
    + cbn [nth_error] in X. injection X as ->. cbn [firstn run_cevents] in R. injection R as _ ->. cbn [fst snd] in A1.
      apply andb_prop in A1. destruct A1 as [A0 A1]. split.
      * destruct (nth_error _ j) as [[]|]; auto. apply orb_prop in A0. destruct A0 as [A0|A0].
        -- left. now apply N.eqb_eq.
        -- right. now apply N.leb_le.
      * destruct j as [|j]; auto. destruct (nth_error _ j) as [[]|]; auto. discriminate.
    + cbn [nth_error] in X. cbn [firstn run_cevents] in R.
      destruct (run_cevent g e st) as [[o1 st1]|]; [|discriminate].
      destruct (run_cevents g (firstn i es) st1) as [[o2 st2]|] eqn:R2; [|discriminate].
      injection R as _ ->. exact (IH st1 A2 i p now q j n o2 c s X R2).
Qed.

Lemma ex_created : exists s0, store_open MODE_MIX 5 empty_table empty_disk = Some s0 /\ created ex_g 5 s0.
Proof.
  destruct (store_open MODE_MIX 5 empty_table empty_disk) as [s0|] eqn:E.
  - exists s0. split; [reflexivity|]. exists empty_table. split; [intros h e []|exact E].
  - exfalso. revert E. vm_compute. discriminate.
Qed.

Lemma creached_ex es : Forall cevent_wf es ->
  match store_open MODE_MIX 5 empty_table empty_disk with Some s0 => all_covered ex_g es (ex_c, s0) | None => false end = true ->
  nlen es < 2 ^ 32 - 1 ->
  exists o c s, creached ex_g 5 ex_c es o c s /\ run_ex es = Some (o, (c, s)).
Proof.
  intros W A L. destruct ex_created as (s0 & O & C). unfold run_ex. rewrite O in *.
  apply all_covered_ok in A.
  pose proof (cfiles_created _ _ _ ex_c es ex_settings W C A L) as F.
  destruct (creached_total _ _ ex_c es s0 ex_settings W C F A) as (o & c & s & R).
  exists o, c, s. split; [|exact R]. split; [apply ex_settings|]. split; [exact W|]. exists s0. auto.
Qed.

Lemma probe {A} (f : list bytes * (nscfg * est) -> A) es o c s v : run_ex es = Some (o, (c, s)) ->
  option_map f (run_ex es) = Some v -> f (o, (c, s)) = v.
Proof. intros E X. rewrite E in X. cbn [option_map] in X. congruence. Qed.

Example C03_example : exists o c s, creached ex_g 5 ex_c ex_crash o c s /\
  o = [bulk (str "a"); bulk (str "b"); bulk (str "d");
       arrayhdr 4 ++ hardsend "$-1" ++ bulk (str "two") ++ hardsend "$-1" ++ hardsend "$-1"].
Proof.
  destruct (creached_ex ex_crash) as (o & c & s & R & E).
  - repeat constructor; vm_compute; try discriminate; auto.
  - vm_compute. reflexivity.
  - reflexivity.
  - exists o, c, s. split; [exact R|].
    refine (probe fst _ _ _ _ _ E _). vm_compute. reflexivity.
Qed.

(* C03 does not hold at the remaining point.  The process dies after a new index
   file was created and before its header was written.  The restart succeeds and
   a write is accepted, but the restart after that fails, so every key is lost. *)
Theorem C03_index_file_without_header_refuted : exists es p now q j,
  (exists o c s, creached ex_g 5 ex_c es o c s /\ run_ex es = Some (o, (c, s)) /\ read_all s (str "a") <> reads_of [] (str "a")) /\
  (exists o c s, run_ex (es ++ [CCrash p now q j 0; CEv (EReq rw 9 (QSet (str "b") (str "x") None))]) = Some (o, (c, s))) /\
  run_ex (es ++ [CCrash p now q j 0; CEv (EReq rw 9 (QSet (str "b") (str "x") None)); CEv ERestart]) = None.
Proof.
  exists [CEv (EReq rw 1 (QSet (str "a") (str "one") None))], adm, 8, QJump, 1%nat.
  split; [|split].
  - destruct (creached_ex [CEv (EReq rw 1 (QSet (str "a") (str "one") None))]) as (o & c & s & R & E).
    + repeat constructor; vm_compute; try discriminate; auto.
    + vm_compute. reflexivity.
    + reflexivity.
    + exists o, c, s. split; [exact R|]. split; [exact E|].
      assert (X : read_all s (str "a") = reads_of [(str "a", (str "one", 1))] (str "a")).
      { refine (probe (fun x => read_all (snd (snd x)) (str "a")) _ _ _ _ _ E _). vm_compute. reflexivity. }
      rewrite X. vm_compute. discriminate.
  - destruct (run_ex _) as [[o [c s]]|] eqn:E; [eauto|]. exfalso. revert E. vm_compute. discriminate.
  - vm_compute. reflexivity.
Qed.
Print Assumptions C03_index_file_without_header_refuted.

(* Nor does it hold when an index record is cut in the middle, wherever it is cut: the
   next start reads past the end of its buffer (undefined in the model). *)
Theorem C03_torn_index_record_refuted : exists es p now q j,
  (exists o c s, creached ex_g 5 ex_c es o c s /\ run_ex es = Some (o, (c, s)) /\ read_all s (str "a") <> reads_of [] (str "a")) /\
  (exists o c s, run_ex (es ++ [CCrash p now q j 0]) = Some (o, (c, s))) /\
  forall t, 0 < t -> t < 35 -> run_ex (es ++ [CCrash p now q j t]) = None.
Proof.
  exists [CEv (EReq rw 1 (QSet (str "a") (str "one") None))], rw, 8, (QSet (str "b") (str "two") None), 2%nat.
  split; [|split].
  - destruct (creached_ex [CEv (EReq rw 1 (QSet (str "a") (str "one") None))]) as (o & c & s & R & E).
    + repeat constructor; vm_compute; try discriminate; auto.
    + vm_compute. reflexivity.
    + reflexivity.
    + exists o, c, s. split; [exact R|]. split; [exact E|].
      assert (X : read_all s (str "a") = reads_of [(str "a", (str "one", 1))] (str "a")).
      { refine (probe (fun x => read_all (snd (snd x)) (str "a")) _ _ _ _ _ E _). vm_compute. reflexivity. }
      rewrite X. vm_compute. discriminate.
  - destruct (run_ex _) as [[o [c s]]|] eqn:E; [eauto|]. exfalso. revert E. vm_compute. discriminate.
  - assert (X : forallb (fun n => match run_ex ([CEv (EReq rw 1 (QSet (str "a") (str "one") None))]
                                    ++ [CCrash rw 8 (QSet (str "b") (str "two") None) 2 (N.of_nat n)]) with
                                  | Some _ => false | None => true end) (seq 1 34) = true) by (vm_compute; reflexivity).
    intros t A B. rewrite forallb_forall in X. specialize (X (N.to_nat t)). rewrite N2Nat.id in X.
    destruct (run_ex _); [|reflexivity]. exfalso. assert (false = true); [|discriminate]. apply X. apply in_seq. lia.
Qed.
Print Assumptions C03_torn_index_record_refuted.

(* C04 does not hold: between two whole writes of an overwrite the key is gone *)
Theorem C04_overwrite_loses_the_key_refuted : exists es o c s p now v j s',
  creached ex_g 5 ex_c es o c s /\
  covered (dk_i (dk s), dk_d (dk s)) (new_writes (dk s) (dk (snd (run_req ex_g p now (QSet (str "a") v None) c s)))) j 0 /\
  crash_req ex_g p now (QSet (str "a") v None) j 0 c s = Some s' /\
  command_get [str "GET"; str "a"] open_cfg s = bulk (str "one") /\
  fst (run_req ex_g p now (QSet (str "a") v None) c s) = bulk (str "a") /\
  command_get [str "GET"; str "a"] open_cfg s' = hardsend "$-1".
Proof.
  pose (es := [CEv (EReq rw 1 (QSet (str "a") (str "one") None))]).
  destruct (creached_ex es) as (o & c & s & R & E).
  - repeat constructor; vm_compute; try discriminate; auto.
  - vm_compute. reflexivity.
  - reflexivity.
  - exists es, o, c, s, rw, 2, (str "two"), 3%nat.
    pose (f := fun (x : list bytes * (nscfg * est)) => let c := fst (snd x) in let s := snd (snd x) in
       (all_covered ex_g [CCrash rw 2 (QSet (str "a") (str "two") None) 3 0] (c, s),
        command_get [str "GET"; str "a"] open_cfg s, fst (run_req ex_g rw 2 (QSet (str "a") (str "two") None) c s),
        option_map (command_get [str "GET"; str "a"] open_cfg) (crash_req ex_g rw 2 (QSet (str "a") (str "two") None) 3 0 c s))).
    assert (X : f (o, (c, s)) = (true, bulk (str "one"), bulk (str "a"), Some (hardsend "$-1"))).
    { refine (probe f _ _ _ _ _ E _). vm_compute. reflexivity. }
    unfold f in X. cbn [fst snd] in X.
    assert (X1 := f_equal (fun t => fst (fst (fst t))) X). assert (X2 := f_equal (fun t => snd (fst (fst t))) X).
    assert (X3 := f_equal (fun t => snd (fst t)) X). assert (X4 := f_equal snd X).
    cbn [fst snd] in X1, X2, X3, X4.
    destruct (crash_req ex_g rw 2 (QSet (str "a") (str "two") None) 3 0 c s) as [s'|]; [|discriminate].
    exists s'. split; [exact R|]. split.
    { apply all_covered_ok in X1. apply (X1 0%nat rw 2 (QSet (str "a") (str "two") None) 3%nat 0 [] c s); reflexivity. }
    split; [reflexivity|]. split; [exact X2|]. split; [exact X3|]. cbn [option_map] in X4. congruence.
Qed.
Print Assumptions C04_overwrite_loses_the_key_refuted.

(* what does hold for overwrites is the last clause of C03_one_crash_partial: the
   old value, the new value, or no value *)
Theorem C04_old_new_or_absent_partial : forall g n c0 es o c s p now k v ts j t,
  creached g n c0 es o c s -> req_wf (QSet k v ts) -> nlen (dk_i (dk s)) < 2 ^ 32 ->
  covered (dk_i (dk s), dk_d (dk s)) (new_writes (dk s) (dk (snd (run_req g p now (QSet k v ts) c s)))) j t ->
  exists s', crash_req g p now (QSet k v ts) j t c s = Some s' /\
    (read_all s' k = read_all s k \/ read_all s' k = read_all (snd (run_req g p now (QSet k v ts) c s)) k \/
     read_all s' k = reads_of [] k).
Proof.
  intros g n c0 es o c s p now k v ts j t R W F C.
  destruct (one_crash g n c0 es o c s p now _ j t R W F C) as (s' & E & _ & _ & X). exists s'. split; [exact E|].
  exact (X k v ts eq_refl).
Qed.
Print Assumptions C04_old_new_or_absent_partial.
