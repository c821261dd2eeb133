(* PROPERTY C63: a backup kept by the hook program. *)
From Coq Require Import Strings.String Strings.Byte List NArith Bool Lia.
From Verif Require Import Bytes Layout Store Text Commands System SpecKV Machine CrashModel SpecDirty JumpHook SpecBackup BackupFacts PropKV PropDirty.
Import ListNotations.
Open Scope N_scope.

(* In one run of a server whose hook program, called for jump-index, always copies the file
   which was closed, and reports success only when it has copied the other files it was told
   of too: at any time, after any requests, rotations and INDEX commands other than RESET,
   the copies are exact for all index files but the current one and those INDEX DIRTY lists. *)
Theorem C63_backup : forall mode n t d s0 b0 h s b,
  dk_io d = [] -> store_open mode n t d = Some s0 -> (forall f, (f < N.to_nat (x_indexid (ix s0)))%nat -> saved s0 b0 f) ->
  follow h s0 b0 = Some (s, b) -> Forall no_reset h -> all_careful h s0 -> nlen (dk_i (dk s)) < 2 ^ 31 ->
  exists l, lists s l /\ forall f, (f < N.to_nat (x_indexid (ix s)))%nat -> ~ In f l -> saved s b f.
Proof. exact backup_ok. Qed.
Print Assumptions C63_backup.

(* Whenever the program is called it is told the current file, the next one, and the list of
   INDEX DIRTY; when it succeeds, its copies are exact for all files but the new one. *)
Theorem C63_complete : forall mode n t d s0 b0 h s b e fs r s1,
  dk_io d = [] -> store_open mode n t d = Some s0 -> (forall f, (f < N.to_nat (x_indexid (ix s0)))%nat -> saved s0 b0 f) ->
  follow h s0 b0 = Some (s, b) -> Forall no_reset h -> all_careful h s0 ->
  no_reset (e, (0, fs)) -> bstep e 0 s = Some (Some r, s1) -> careful 0 fs r -> nlen (dk_i (dk s1)) < 2 ^ 31 ->
  r_closed r = x_indexid (ix s) /\ r_opened r = x_indexid (ix s) + 1 /\ lists s (map N.to_nat (told r)) /\
  forall f, (f < N.to_nat (r_opened r))%nat -> copy fs r b (N.of_nat f) = nth_error (r_files r) f.
Proof. exact complete_ok. Qed.
Print Assumptions C63_complete.

(* Success only clears the list: while the program fails, the server does what one without a
   hook does. *)
Theorem C63_same_server : forall g p now q c code s, code <> 0 ->
  exists o, bstep (BReq g p now q c) code s = Some (o, snd (run_req g p now q c s)).
Proof. exact same_server. Qed.
Print Assumptions C63_same_server.

(* Two keys; a jump whose hook fails after copying the file closed; a deletion in file 0 and a
   new key; a rotation whose hook fails in the same way; a SET of a key of file 0 that makes
   the files jump, with a hook that succeeds, copying all it is told, and is followed by the
   change of file 0; a deletion in file 1 and INDEX DIRTY. *)
Definition g63 : settings := mkSettings MODE_MIX 100.
Definition c63 : nscfg := mkCfg (str "default") None true false 0 0.
Definition rq (now : N) (q : req) : bevent := BReq g63 adm now q c63.
Definition quiet_hook : N * list N := (7, []).
Definition h63 : history :=
  [ (rq 1 (QSet (str "a") (str "one") None), quiet_hook); (rq 2 (QSet (str "b") (str "two") None), quiet_hook);
    (rq 3 QJump, (1, [0])); (rq 4 (QDel (str "a") None), quiet_hook);
    (rq 5 (QSet (str "c") (str "three") None), quiet_hook); (BRotate, (2, [1]));
    (rq 6 (QSet (str "b") (repeat x78 80) None), (0, [0; 2]));
    (rq 7 (QDel (str "c") None), quiet_hook); (BIndex adm [str "INDEX"; str "DIRTY"], quiet_hook) ].
Definition blank : copies := fun _ => None.
Definition fin63 : est * copies := match follow h63 dr0 blank with Some x => x | None => (dr0, blank) end.
(* what one event tells *)
Definition tells (n : nat) : option (N * N * list N) :=
  match follow (firstn n h63) dr0 blank, nth_error h63 n with
  | Some (s, _), Some (e, (code, _)) => match bstep e code s with Some (Some r, _) => Some (r_closed r, r_opened r, told r) | _ => None end
  | _, _ => None
  end.

Example C63_runs : follow h63 dr0 blank = Some fin63.
Proof.
  unfold fin63. assert (H : match follow h63 dr0 blank with Some _ => true | None => false end = true) by (vm_compute; reflexivity).
  destruct (follow h63 dr0 blank); [reflexivity|discriminate H].
Qed.
Example C63_example :
  map tells (seq 0 9) = [None; None; Some (0, 1, []); None; None; Some (1, 2, [0]); Some (2, 3, [0]); None; None] /\
  map N.to_nat (index_dirty_list (ix (fst fin63))) = [0; 1]%nat /\ x_indexid (ix (fst fin63)) = 3 /\
  map (fun f => match snd fin63 (N.of_nat f), nth_error (dk_i (dk (fst fin63))) f with Some x, Some y => bseqb x y | _, _ => false end) (seq 0 4)
    = [false; false; true; false].
Proof. split; [vm_compute; reflexivity|]. split; [vm_compute; reflexivity|]. split; vm_compute; reflexivity. Qed.
Example C63_hypotheses : dk_io empty_disk = [] /\ store_open MODE_MIX 5 empty_table empty_disk = Some dr0 /\ x_indexid (ix dr0) = 0 /\
  Forall no_reset h63 /\ nlen (dk_i (dk (fst fin63))) = 4.
Proof.
  split; [reflexivity|]. split; [exact open_dr0|]. split; [vm_compute; reflexivity|].
  split; [repeat (constructor; [cbn; first [exact I|discriminate]|]); constructor|vm_compute; reflexivity].
Qed.

(* the program of the example is careful *)
Definition careful_b (code : N) (fs : list N) (r : jreport) : bool :=
  existsb (N.eqb (r_closed r)) fs && (negb (code =? 0) || forallb (fun f => existsb (N.eqb f) fs) (told r)).
Fixpoint all_careful_b (h : history) (s : est) : bool :=
  match h with
  | [] => true
  | (e, (code, fs)) :: t =>
      match bstep e code s with
      | None => true
      | Some (o, s1) => match o with Some r => careful_b code fs r | None => true end && all_careful_b t s1
      end
  end.
Lemma in_b f fs : existsb (N.eqb f) fs = true -> In f fs.
Proof. intros H. apply existsb_exists in H. destruct H as (x & I & E). apply N.eqb_eq in E. now subst. Qed.
Lemma careful_b_ok : forall h s, all_careful_b h s = true -> all_careful h s.
Proof.
  induction h as [|[e [code fs]] h IH]; intros s H; cbn [all_careful all_careful_b] in *; [exact I|].
  destruct (bstep e code s) as [[o s1]|]; [|exact I]. apply andb_true_iff in H. destruct H as [H1 H2]. split; [|apply IH, H2].
  destruct o as [r|]; [|exact I]. unfold careful_b in H1. apply andb_true_iff in H1. destruct H1 as [H1 H3].
  split; [apply in_b, H1|]. intros -> f If. cbn [N.eqb negb orb] in H3. rewrite forallb_forall in H3. apply in_b, H3, If.
Qed.
Example C63_careful : all_careful h63 dr0.
Proof. apply careful_b_ok. vm_compute. reflexivity. Qed.

(* FINDING.  A hook which fails before it has copied the file closed is not made up for: the
   next one, which succeeds, is not told of that file again. *)
Definition h63b : history :=
  [ (rq 1 (QSet (str "a") (str "one") None), quiet_hook); (rq 3 QJump, (1, [])); (rq 5 (QSet (str "c") (str "three") None), quiet_hook);
    (rq 6 QJump, (0, [1])) ].
Definition fin63b : est * copies := match follow h63b dr0 blank with Some x => x | None => (dr0, blank) end.
Theorem C63_failed_refuted : exists h s b, follow h dr0 blank = Some (s, b) /\ Forall no_reset h /\
  (forall e code fs h1 h2 s1 b1 r s2, h = h1 ++ (e, (code, fs)) :: h2 -> follow h1 dr0 blank = Some (s1, b1) ->
     bstep e code s1 = Some (Some r, s2) -> code = 0 -> careful 0 fs r) /\
  lists s [] /\ (0 < N.to_nat (x_indexid (ix s)))%nat /\ ~ saved s b 0.
Proof.
  exists h63b, (fst fin63b), (snd fin63b).
  split. { unfold fin63b. assert (H : match follow h63b dr0 blank with Some _ => true | None => false end = true) by (vm_compute; reflexivity).
           destruct (follow h63b dr0 blank) as [[x y]|]; [reflexivity|discriminate H]. }
  split; [repeat (constructor; [cbn; first [exact I|discriminate]|]); constructor|]. split.
  - intros e code fs h1 h2 s1 b1 r s2 E F S Z. subst code.
    assert (N : h1 = firstn 3 h63b /\ e = rq 6 QJump /\ fs = [1]).
    { destruct h1 as [|x1 h1]; [discriminate E|]. destruct h1 as [|x2 h1]; [discriminate E|]. destruct h1 as [|x3 h1]; [discriminate E|].
      destruct h1 as [|x4 h1]; [injection E as <- <- <- <- <- _; auto|]. destruct h1; discriminate E. }
    destruct N as (-> & -> & ->).
    assert (H : match follow (firstn 3 h63b) dr0 blank with
                | Some (s, _) => match bstep (rq 6 QJump) 0 s with Some (Some r, _) => careful_b 0 [1] r | _ => false end
                | None => false end = true) by (vm_compute; reflexivity).
    rewrite F, S in H. unfold careful_b in H. apply andb_true_iff in H. destruct H as [H1 H2].
    split; [apply in_b, H1|]. intros _ f If. cbn [N.eqb negb orb] in H2. rewrite forallb_forall in H2. apply in_b, H2, If.
  - split; [|split; [vm_compute; lia|]].
    + pose proof (DirtyFacts.lists_ok (fst fin63b)) as L.
      assert (E : map N.to_nat (index_dirty_list (ix (fst fin63b))) = []) by (vm_compute; reflexivity). rewrite E in L. exact L.
    + unfold saved. intros E. apply (f_equal (fun o => match o with Some _ => true | None => false end)) in E. vm_compute in E. discriminate E.
Qed.
Print Assumptions C63_failed_refuted.
