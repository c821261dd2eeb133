(* PROPERTY C33: INDEX DIRTY. *)
From Coq Require Import Strings.String Strings.Byte List Sorted NArith Bool Lia.
From Verif Require Import Bytes Layout Store Text Commands System SpecKV Machine CrashModel SpecFiles SpecDirty
  DirtyFacts PropKV PropFiles.
Import ListNotations.
Open Scope N_scope.

(* In any mode, after any requests since the namespace was loaded or INDEX DIRTY
   RESET was answered, in a run without failing writes: INDEX DIRTY lists in
   increasing order exactly the index files that had existing bytes written over. *)
Theorem C33_dirty_list : forall s s', just_reset s -> serves s s' ->
  exists l, lists s' l /\ StronglySorted lt l /\ (forall f, In f l <-> In f (overwritten s s')).
Proof. exact dirty_list. Qed.
Print Assumptions C33_dirty_list.

(* A copy of the index files made at the reset, in which the listed files, the file
   that was current and the later ones are copied again, is the index. *)
Theorem C33_backup : forall s s' kept, just_reset s -> serves s s' -> nlen (dk_i (dk s')) < 2 ^ 32 ->
  exists l, lists s' l /\
    (refreshed 0 (fun f => In f l \/ (N.to_nat (x_indexid (ix s)) <= f)%nat) (dk_i (dk s)) (dk_i (dk s')) kept <-> kept = dk_i (dk s')).
Proof. exact backup. Qed.
Print Assumptions C33_backup.

(* user mode: two keys in file 0, a third one in file 1; reset; a deletion in
   file 0, a jump, an update of the key in file 1 *)
Definition dr0 : est := got nothing (store_open MODE_MIX 5 empty_table empty_disk).
Definition dr1 : est :=
  after 4 (QSet (str "c") (str "three") None) (after 3 QJump (after 2 (QSet (str "b") (str "two") None) (after 1 (QSet (str "a") (str "one") None) dr0))).
Definition fresh_map (s : est) : est := set_ix (index_dirty_reset (ix s)) s.
Definition dr2 : est := fresh_map (after 5 (QDel (str "b") None) dr1).
Definition dr3 : est := after 8 (QSet (str "c") (str "drei") None) (after 7 QJump (after 6 (QDel (str "a") None) dr2)).

Lemma open_dr0 : store_open MODE_MIX 5 empty_table empty_disk = Some dr0.
Proof. apply (got_some nothing). vm_compute. reflexivity. Qed.
Lemma up_trans a b c : up a b -> up b c -> up a c.
Proof. induction 1; intros; auto; [eapply up_request; eauto|eapply up_index; eauto]. Qed.
Lemma up_after now q a s : up a s -> up a (after now q s).
Proof. intros L. apply (up_trans a s _ L). unfold after. apply (up_request ex_g adm now q ex_c). apply up_here. Qed.
Lemma serves_trans a b c : serves a b -> serves b c -> serves a c.
Proof. induction 1; intros; auto. eapply sv_request; eauto. Qed.
Lemma serves_after now q a s : serves a s -> serves a (after now q s).
Proof. intros L. apply (serves_trans a s _ L). unfold after. apply (sv_request ex_g adm now q ex_c). apply sv_here. Qed.
Lemma reset_ok s : up dr0 s -> just_reset (fresh_map s).
Proof. intros U. eapply (jr_reset MODE_MIX 5 empty_table empty_disk dr0 s adm); [reflexivity|exact open_dr0|exact U|reflexivity]. Qed.

Lemma dr2_ok : just_reset dr2.
Proof. apply reset_ok. apply up_after. unfold dr1. repeat apply up_after. apply up_here. Qed.
Lemma dr3_ok : serves dr2 dr3.
Proof. unfold dr3. repeat apply serves_after. apply sv_here. Qed.

Example C33_ex : just_reset dr2 /\ serves dr2 dr3 /\ overwritten dr2 dr3 = [0; 1]%nat /\ lists dr3 [0; 1]%nat /\
  map blen (dk_i (dk dr2)) = [99; 64] /\ map blen (dk_i (dk dr3)) = [99; 64; 64].
Proof.
  split; [exact dr2_ok|]. split; [exact dr3_ok|]. split; [vm_compute; reflexivity|]. split; [|vm_compute; auto].
  pose proof (lists_ok dr3) as L. assert (E : map N.to_nat (index_dirty_list (ix dr3)) = [0; 1]%nat) by (vm_compute; reflexivity).
  rewrite E in L. exact L.
Qed.

(* FINDING.  A record added to the file that was current at the reset is in no file
   that is listed and in no file made since: such a backup misses it. *)
Theorem C33_append_not_listed_refuted : exists s s', just_reset s /\ serves s s' /\ lists s' [] /\
  List.length (dk_i (dk s)) = List.length (dk_i (dk s')) /\ dk_i (dk s) <> dk_i (dk s').
Proof.
  exists dr2, (after 6 (QSet (str "d") (str "four") None) dr2). split; [exact dr2_ok|]. split; [apply serves_after, sv_here|].
  split; [|split; [vm_compute; reflexivity|]].
  - pose proof (lists_ok (after 6 (QSet (str "d") (str "four") None) dr2)) as L.
    assert (E : map N.to_nat (index_dirty_list (ix (after 6 (QSet (str "d") (str "four") None) dr2))) = []) by (vm_compute; reflexivity).
    rewrite E in L. exact L.
  - intros E. apply (f_equal (map blen)) in E. vm_compute in E. discriminate E.
Qed.
Print Assumptions C33_append_not_listed_refuted.

(* FINDING.  The list is kept in memory only: after a restart a file written over
   since the reset is not listed. *)
Definition dr4 : est := after 6 (QDel (str "a") None) dr2.
Definition dr5 : est := got nothing (reopen ex_g dr4).
Theorem C33_restart_refuted : exists s s1 s2, just_reset s /\ serves s s1 /\ reopen ex_g s1 = Some s2 /\
  In 0%nat (overwritten s s1) /\ lists s2 [] /\ nth_error (dk_i (dk s)) 0 <> nth_error (dk_i (dk s2)) 0.
Proof.
  exists dr2, dr4, dr5. split; [exact dr2_ok|]. split; [apply serves_after, sv_here|].
  split; [apply (got_some nothing); vm_compute; reflexivity|]. split; [vm_compute; auto|]. split.
  - pose proof (lists_ok dr5) as L. assert (E : map N.to_nat (index_dirty_list (ix dr5)) = []) by (vm_compute; reflexivity).
    rewrite E in L. exact L.
  - intros E. apply (f_equal (fun o => match o with Some b => nth 42 b x00 | None => x00 end)) in E. vm_compute in E. discriminate E.
Qed.
Print Assumptions C33_restart_refuted.

(* FINDING.  A write that fails after some bytes changes the record and is not
   listed. *)
Definition dr6 : est := after 6 (QDel (str "a") None) (with_outcomes [WOk; WOk; WFail 20] dr2).
Theorem C33_failed_write_refuted : exists s io now k s', just_reset s /\
  s' = after now (QDel k None) (with_outcomes io s) /\
  lists s' [] /\ nth_error (dk_i (dk s)) 0 <> nth_error (dk_i (dk s')) 0 /\
  map blen (dk_i (dk s)) = map blen (dk_i (dk s')).
Proof.
  exists dr2, [WOk; WOk; WFail 20], 6, (str "a"), dr6. split; [exact dr2_ok|]. split; [reflexivity|]. split; [|split].
  - pose proof (lists_ok dr6) as L. assert (E : map N.to_nat (index_dirty_list (ix dr6)) = []) by (vm_compute; reflexivity).
    rewrite E in L. exact L.
  - intros E. apply (f_equal (fun o => match o with Some b => nth 42 b x00 | None => x00 end)) in E. vm_compute in E. discriminate E.
  - vm_compute. reflexivity.
Qed.
Print Assumptions C33_failed_write_refuted.
