(* PROOFS for C10: what an event may touch, and what the replies of a namespace
   depend on. *)
From Coq Require Import Strings.String Strings.Byte List NArith ZArith Bool Lia ZifyBool ZifyN ZifyNat.
From Verif Require Import Bytes BytesFacts Layout Store Text Commands TableFacts FrameFacts Sha1 Dispatch Namespace System Scan History Resp Server SpecAuth AuthFacts SpecServer.
Import ListNotations.
Open Scope N_scope.

(* every namespace knows its own number *)
Definition numbered (w : world) : Prop := forall i r, slot i w = Some r -> x_ns (r_ix r) = i.

Lemma push_at k r j l : k = free_slot 0 l -> oget j (push_slot k r l) = if j =? k then Some r else oget j l.
Proof.
  intros ->. unfold push_slot.
  assert (B : free_slot 0 l <= nlen l).
  { assert (G : forall l i, i <= free_slot i l <= i + nlen l).
    { clear. intros l. induction l as [|[r|] l IH]; intro i; cbn [free_slot nlen]; try lia. specialize (IH (i + 1)). lia. }
    specialize (G l 0). lia. }
  destruct (N.ltb_spec (free_slot 0 l) (nlen l)) as [L|L].
  - rewrite oget_nset. rewrite (N.eqb_sym j). destruct (_ =? j); [|reflexivity].
    replace (_ <? _) with true by lia. reflexivity.
  - replace (free_slot 0 l) with (nlen l) by lia. unfold oget.
    destruct (N.eqb_spec j (nlen l)) as [->|N].
    + rewrite nget_app2 by lia. rewrite N.sub_diag. reflexivity.
    + destruct (N.lt_ge_cases j (nlen l)).
      * rewrite nget_app1 by assumption. reflexivity.
      * rewrite nget_app2 by assumption. rewrite !(proj2 (nget_None _ _)) by (cbn [nlen]; lia). reflexivity.
Qed.

Lemma free_none l : oget (free_slot 0 l) l = None.
Proof.
  assert (G : forall l i, oget (free_slot i l - i) l = None).
  { clear. intros l. induction l as [|[r|] l IH]; intro i; cbn [free_slot].
    - reflexivity.
    - rewrite oget_cons. assert (G : forall l i, i <= free_slot i l).
      { clear. intros l. induction l as [|[r|] l IH]; intro i; cbn [free_slot]; try lia. specialize (IH (i + 1)). lia. }
      specialize (G l (i + 1)). replace (_ =? 0) with false by lia. specialize (IH (i + 1)).
      replace (N.pred (free_slot (i + 1) l - i)) with (free_slot (i + 1) l - (i + 1)) by lia. exact IH.
    - rewrite N.sub_diag. reflexivity. }
  specialize (G l 0). rewrite N.sub_0_r in G. exact G.
Qed.

(* ---- effects ---- *)

(* only the namespace k is touched *)
Definition only (k : N) (w w' : world) : Prop :=
  tframe k (w_tb w) (w_tb w') /\ (forall j, j <> k -> slot j w' = slot j w) /\
  (forall r, slot k w' = Some r -> x_ns (r_ix r) = k).

Lemma slots_only k w w' : w_tb w' = w_tb w -> w_slots w' = w_slots w -> numbered w -> only k w w'.
Proof.
  intros E1 E2 W. split; [rewrite E1; apply tframe_refl|]. unfold slot. rewrite E2. split; [reflexivity|]. intros r H. apply W. exact H.
Qed.

Lemma put_est_only k r s w : frame k (est_of w r) s -> slot k w = Some r -> numbered w -> only k w (put_est k r s w).
Proof.
  intros (F1 & F2) S W. split; [exact F2|]. unfold put_est, slot. cbn [w_slots w_tb]. split.
  - intros j J. fold (oget j (nset k (Some (mkNs (r_cfg r) (r_desc r) (ix s) (dt s) (dk s))) (w_slots w))).
    rewrite oget_nset. replace (k =? j) with false by lia. reflexivity.
  - intros r' H. fold (oget k (nset k (Some (mkNs (r_cfg r) (r_desc r) (ix s) (dt s) (dk s))) (w_slots w))) in H.
    rewrite oget_nset, N.eqb_refl in H. rewrite slot_oget in S. pose proof (oget_lt _ _ _ S) as L.
    replace (k <? _) with true in H by lia. cbn [andb] in H. injection H as <-. cbn [r_ix]. rewrite F1. cbn [ix est_of].
    apply W. exact S.
Qed.

Lemma clean_frame t x k : x_ns x = k -> tframe k t (index_clean_namespace t x).
Proof. intros <-. unfold index_clean_namespace. destruct (_ =? _); [apply tframe_refl|apply tframe_clean]. Qed.

Lemma reload_only g k r w w' : slot k w = Some r -> numbered w -> namespace_reload g k r w = Some w' -> only k w w'.
Proof.
  intros S W H. unfold namespace_reload in H. destruct (store_open _ _ _ _) as [s|] eqn:O; [|discriminate]. injection H as <-.
  apply store_open_frame in O. destruct O as (O1 & O2). apply put_est_only; [|exact S|exact W].
  split; [cbn [ix est_of]; rewrite O1; symmetry; apply W; exact S|].
  eapply tframe_trans; [|exact O2]. apply clean_frame. apply W. exact S.
Qed.

Lemma set_mode_frame n m s : frame n s (namespace_set_mode m s).
Proof. split; [cbn [ix namespace_set_mode]; rewrite rehash_ns; reflexivity|apply tframe_refl]. Qed.

Lemma command_index_frame n p argv s rep s' : command_index p argv s = Some (rep, s') -> frame n s s'.
Proof.
  unfold command_index, command_index_dirty. intro H. destr_res H; injection H as <- <-; try apply frame_refl.
  split; [reflexivity|apply tframe_refl].
Qed.

(* which namespace a command touches *)
Definition touched (i : N) (c : cmd) (argv : list bytes) (w : world) (k : N) : Prop :=
  k = i \/ (target_cmd c = true /\ exists rk, slot k w = Some rk /\ n_name (r_cfg rk) = cstr (arg 1 argv)) \/
  (c = CNsnew /\ slot k w = None).

Definition touches (i : N) (c : cmd) (argv : list bytes) (w w' : world) : Prop :=
  exists k, only k w w' /\ touched i c argv w k.

Lemma touch_none i c argv w w' : numbered w -> w_tb w' = w_tb w -> w_slots w' = w_slots w -> touches i c argv w w'.
Proof. intros W E1 E2. exists i. split; [apply slots_only; assumption|left; reflexivity]. Qed.

Lemma touch_own i c argv w r s : numbered w -> slot i w = Some r -> frame i (est_of w r) s -> touches i c argv w (put_est i r s w).
Proof. intros W S F. exists i. split; [apply put_est_only; assumption|left; reflexivity]. Qed.

Lemma nset_only k rk o w t l cls : slot k w = Some rk -> tframe k (w_tb w) t ->
  (forall r, o = Some r -> x_ns (r_ix r) = k) -> only k w (mkWorld t (nset k o (w_slots w)) l cls).
Proof.
  intros S T X. split; [exact T|]. split.
  - intros j J. rewrite !slot_oget. cbn [w_slots]. rewrite oget_nset. replace (k =? j) with false by lia. reflexivity.
  - intros r H. rewrite slot_oget in H. cbn [w_slots] in H. rewrite oget_nset, N.eqb_refl in H. rewrite slot_oget in S.
    apply oget_lt in S. replace (k <? _) with true in H by lia. cbn [andb] in H. apply X. exact H.
Qed.

Lemma ns_load_frame smode i name desc d t t' r : namespace_load smode i name desc d t = Some (t', r) ->
  x_ns (r_ix r) = i /\ tframe i t t'.
Proof.
  intros L. unfold namespace_load in L. destruct (descriptor_load _ _) as [[cf ds]|]; [|discriminate].
  destruct (store_open _ _ _ _) as [s|] eqn:O; [|discriminate]. injection L as <- <-.
  apply store_open_frame in O. exact O.
Qed.

Lemma push_only k rn w t e cls : k = free_slot 0 (w_slots w) -> x_ns (r_ix rn) = k -> tframe k (w_tb w) t ->
  only k w (mkWorld t (push_slot k rn (w_slots w)) e cls).
Proof.
  intros K X T. split; [exact T|]. split.
  - intros j J. rewrite !slot_oget. cbn [w_slots]. rewrite push_at by exact K.
    replace (j =? _) with false by lia. reflexivity.
  - intros r' H. rewrite slot_oget in H. cbn [w_slots] in H. rewrite push_at in H by exact K.
    rewrite N.eqb_refl in H. injection H as <-. exact X.
Qed.

Lemma nsnew_touches g p i argv w rep st w' : numbered w -> command_nsnew g p argv w = Done rep st w' -> touches i CNsnew argv w w'.
Proof.
  intros W H. unfold command_nsnew in H.
  destruct (admin_authorized _); [done_inv H; apply touch_none; auto|].
  destruct (args_validate _ _); [done_inv H; apply touch_none; auto|].
  destruct (args_namespace _ _); [done_inv H; apply touch_none; auto|].
  destruct (negb _); [done_inv H; apply touch_none; auto|].
  destruct (namespace_get _ _) as [[? ?]|]; [done_inv H; apply touch_none; auto|].
  destruct (_ =? _); [discriminate|].
  destruct (namespace_load _ _ _ _ _ _) as [[t rn]|] eqn:L; [|discriminate]. done_inv H.
  exists (free_slot 0 (w_slots w)). split; [|right; right; split; [reflexivity|]; apply free_none].
  apply ns_load_frame in L. destruct L as (X & T). apply push_only; [reflexivity|exact X|exact T].
Qed.

Lemma target_touched i c argv w k rk : target_cmd c = true -> namespace_get (cstr (arg 1 argv)) w = Some (k, rk) -> touched i c argv w k.
Proof. intros T G. right. left. split; [exact T|]. exists rk. apply get_slot. exact G. Qed.

Lemma nsdel_touches p me i argv w rep st w' : numbered w -> command_nsdel p me argv w = Done rep st w' -> touches i CNsdel argv w w'.
Proof.
  intros W H. unfold command_nsdel in H.
  destruct (admin_authorized _); [done_inv H; apply touch_none; auto|].
  destruct (args_validate _ _); [done_inv H; apply touch_none; auto|].
  destruct (args_namespace _ _); [done_inv H; apply touch_none; auto|].
  destruct (bseqb _ _); [done_inv H; apply touch_none; auto|].
  destruct (namespace_get _ _) as [[k rk]|] eqn:G; [|done_inv H; apply touch_none; auto].
  destruct (match me with Some j => j =? k | None => false end); [done_inv H; apply touch_none; auto|].
  done_inv H. exists k. split; [|eapply target_touched; [reflexivity|exact G]].
  apply get_slot in G. destruct G as (G & _). apply (nset_only k rk); [exact G|apply clean_frame; apply W; exact G|discriminate].
Qed.

Lemma nsset_touches g p i argv w rep st w' : numbered w -> command_nsset g p argv w = Done rep st w' -> touches i CNsset argv w w'.
Proof.
  intros W H. unfold command_nsset in H.
  destruct (admin_authorized _); [done_inv H; apply touch_none; auto|].
  destruct (args_validate _ _); [done_inv H; apply touch_none; auto|].
  destruct (args_namespace _ _); [done_inv H; apply touch_none; auto|].
  destruct (args_overflow _ _ _); [done_inv H; apply touch_none; auto|].
  destruct (args_overflow _ _ _); [done_inv H; apply touch_none; auto|].
  destruct (sprint_max _) as [cm|]; [|discriminate].
  destruct (namespace_get _ _) as [[k rk]|] eqn:G; [|done_inv H; apply touch_none; auto].
  pose proof G as G0. apply get_slot in G. destruct G as (G & _).
  destruct (bseqb cm _).
  - destruct (nsset_mode g _ _) as [err|s] eqn:M; [done_inv H; apply touch_none; auto|].
    assert (F : frame k (est_of w rk) s).
    { unfold nsset_mode in M. destr_res M; injection M as <-; apply set_mode_frame. }
    done_inv H. exists k. split; [|eapply target_touched; [reflexivity|exact G0]].
    destruct F as (F1 & F2). apply (nset_only k rk); [exact G|exact F2|].
    intros r' Hr. injection Hr as <-. cbn [r_ix]. rewrite F1. apply W. exact G.
  - destruct (nsset_apply _ _ _ _) as [err|cf]; [done_inv H; apply touch_none; auto|].
    done_inv H. exists k. split; [|eapply target_touched; [reflexivity|exact G0]].
    apply (nset_only k rk); [exact G|apply tframe_refl|]. intros r' Hr. injection Hr as <-. exact (W k rk G).
Qed.

Lemma reload_touches g p i argv w rep st w' : numbered w -> command_reload g p argv w = Done rep st w' -> touches i CReload argv w w'.
Proof.
  intros W H. unfold command_reload in H.
  destruct (admin_authorized _); [done_inv H; apply touch_none; auto|].
  destruct (args_validate _ _); [done_inv H; apply touch_none; auto|].
  destruct (args_namespace _ _); [done_inv H; apply touch_none; auto|].
  destruct (namespace_get _ _) as [[k rk]|] eqn:G; [|done_inv H; apply touch_none; auto].
  destruct (namespace_reload _ _ _ _) as [w1|] eqn:R; [|discriminate]. done_inv H. exists k. split.
  - eapply reload_only; [|exact W|exact R]. apply get_slot in G. apply G.
  - eapply target_touched; [reflexivity|exact G].
Qed.

Lemma flush_touches g i argv r w rep st w' : numbered w -> slot i w = Some r -> command_flush g i r w = Done rep st w' -> touches i CFlush argv w w'.
Proof.
  intros W S H. unfold command_flush in H. destruct (_ || _); [done_inv H; apply touch_none; auto|].
  destruct (cleanable _); [discriminate|]. destruct (namespace_reload _ _ _ _) as [w1|] eqn:R; [|discriminate]. done_inv H.
  exists i. split; [|left; reflexivity]. eapply reload_only; eassumption.
Qed.

Lemma handle_only g v fd cl i r c argv w rep st w' : numbered w -> slot i w = Some r ->
  handle g v fd cl i r c argv w = Done rep st w' -> touches i c argv w w'.
Proof.
  intros W S H. destruct c; unfold handle in H; try (done_inv H; apply touch_none; auto); try (told_step H; apply touch_none; auto).
  - unfold command_wait in H. destr_res H; done_inv H; apply touch_none; auto.
  - destruct (admin_authorized _); done_inv H; apply touch_none; auto.
  - destruct (admin_authorized _); done_inv H; apply touch_none; auto.
  - unfold command_auth in H. destr_res H; done_inv H; apply touch_none; auto.
  - destruct (admin_authorized _); done_inv H; apply touch_none; auto.
  - destruct (command_index _ _ _) as [[rp s']|] eqn:E; [|discriminate]. done_inv H. apply touch_own; auto.
    eapply command_index_frame. exact E.
  - unfold on_ns in H. pose proof (command_set_frame i (v_set g) (perm_of cl) (v_sec v) argv (r_cfg r) (est_of w r) (W _ _ S)) as F.
    destruct (command_set _ _ _ _ _ _) as [rp s']. done_inv H. apply touch_own; auto.
  - unfold on_ns in H. pose proof (command_del_frame i (perm_of cl) (v_sec v) argv (r_cfg r) (est_of w r) (W _ _ S)) as F.
    destruct (command_del _ _ _ _ _) as [rp s']. done_inv H. apply touch_own; auto.
  - destruct (v_release g); done_inv H; apply touch_none; auto.
  - eapply nsnew_touches; eassumption.
  - eapply nsdel_touches; eassumption.
  - eapply nsset_touches; eassumption.
  - unfold on_ns in H. pose proof (command_nsjump_frame i (perm_of cl) (est_of w r)) as F.
    destruct (command_nsjump _ _) as [rp s']. done_inv H. apply touch_own; auto.
  - unfold command_select in H. destr_res H; done_inv H; apply touch_none; auto.
  - eapply reload_touches; eassumption.
  - eapply flush_touches; eassumption.
Qed.

Lemma only_numbered k w w' : numbered w -> only k w w' -> numbered w'.
Proof.
  intros W (_ & A & B) j r H. destruct (N.eq_dec j k) as [->|J]; [apply B; exact H|]. rewrite (A j J) in H. apply W. exact H.
Qed.

(* ---- events ---- *)

Lemma post_slots v fd argv w out w' : posthandler v fd argv w = Some (out, w') -> w_tb w' = w_tb w /\ w_slots w' = w_slots w.
Proof. intro H. apply posthandler_world in H. destruct H as (A & B & _). split; assumption. Qed.

Lemma same_numbered w w' : w_slots w' = w_slots w -> numbered w -> numbered w'.
Proof. intros E W i r H. apply W. unfold slot in *. rewrite E in H. exact H. Qed.

Lemma dispatch_only g v fd cl argv w rep st w' : numbered w -> dispatch g v fd cl argv w = Done rep st w' ->
  (w_tb w' = w_tb w /\ w_slots w' = w_slots w) \/
  exists k, only k w w' /\
    (c_ns cl = Some k \/
     (exists h c rk, lookup_handler (arg 0 argv) = Some (h, c) /\ target_cmd c = true /\ slot k w = Some rk /\ n_name (r_cfg rk) = cstr (arg 1 argv)) \/
     slot k w = None).
Proof.
  intros W H. apply dispatch_inv in H. destruct H as [(_ & -> & _)|(i & r & C & S & H)]; [left; split; reflexivity|].
  destruct H as [(_ & -> & _)|(h & c & L & H)]; [left; split; reflexivity|]. right.
  apply handle_only in H; [|apply (same_numbered w); [reflexivity|exact W]|exact S].
  destruct H as (k & O & H). exists k. split; [exact O|]. destruct H as [->|[(T & rk & G)|(_ & N)]].
  - left. exact C.
  - right. left. exists h, c, rk. split; [exact L|]. split; [exact T|]. exact G.
  - right. right. exact N.
Qed.

Lemma rotate_numbered old ks : forall w, numbered w -> numbered (files_rotate old ks w) /\
  (forall j, ~ In j old -> slot j (files_rotate old ks w) = slot j w /\ veq j (w_tb w) (w_tb (files_rotate old ks w))).
Proof.
  induction ks as [|k ks IH]; intros w W; cbn [files_rotate]; [split; [exact W|intros; split; [reflexivity|apply veq_refl]]|].
  set (w1 := match slot k w with Some r => _ | None => w end).
  assert (A : numbered w1 /\ forall j, ~ In j old -> slot j w1 = slot j w /\ veq j (w_tb w) (w_tb w1)).
  { unfold w1. destruct (slot k w) as [r|] eqn:S; [|split; [exact W|intros; split; [reflexivity|apply veq_refl]]].
    destruct (x_updated _ && _) eqn:U; [|split; [exact W|intros; split; [reflexivity|apply veq_refl]]].
    pose proof (put_est_only k r (jump_next (est_of w r)) w (jump_frame k _) S W) as O. split; [eapply only_numbered; eassumption|].
    intros j J. assert (j <> k).
    { intros ->. apply J. apply andb_true_iff in U. destruct U as (_ & U). apply existsb_exists in U. destruct U as (y & Y & E).
      replace k with y by lia. exact Y. }
    destruct O as (O1 & O2 & _). split; [apply O2; assumption|]. eapply tframe_veq; [|exact O1]. assumption. }
  destruct A as (A1 & A2). destruct (IH w1 A1) as (B1 & B2). split; [exact B1|]. intros j J.
  destruct (A2 j J) as (A3 & A4). destruct (B2 j J) as (B3 & B4). split; [congruence|eapply veq_trans; eassumption].
Qed.

Lemma load_all_numbered smode l : forall i t t' slots, load_all smode i l t = Some (t', slots) ->
  forall j r, oget j slots = Some r -> x_ns (r_ix r) = i + j.
Proof.
  induction l as [|[[name desc] d] l IH]; intros i t t' slots H j r G; cbn [load_all] in H.
  - injection H as <- <-. discriminate.
  - destruct (descriptor_load name desc); [|exact (IH _ _ _ _ H j r G)].
    destruct (namespace_load _ _ _ _ _ _) as [[t1 r1]|] eqn:L; [|discriminate].
    destruct (load_all _ _ _ _) as [[t2 rs]|] eqn:A; [|discriminate]. injection H as <- <-.
    rewrite oget_cons in G. destruct (N.eqb_spec j 0) as [->|J].
    + injection G as <-. rewrite N.add_0_r. unfold namespace_load in L. destruct (descriptor_load _ _) as [[cf ds]|]; [|discriminate].
      destruct (store_open _ _ _ _) as [s|] eqn:O; [|discriminate]. injection L as <- <-. apply store_open_frame in O. apply O.
    + rewrite (IH _ _ _ _ A (N.pred j) r G). lia.
Qed.

Lemma boot_numbered g l w : boot g l = Some w -> numbered w.
Proof.
  intro H. apply boot_inv in H. destruct H as (? & ? & ? & ? & ? & t & slots & _ & _ & L & ->).
  intros i r S. pose proof (load_all_numbered _ _ _ _ _ _ L i r S) as E. lia.
Qed.

Lemma step_numbered g e w out st w' : numbered w -> run_sevent g e w = SDone out st w' -> numbered w'.
Proof.
  intros W H. destruct e as [fd|fd|fd v argv|now old|ord]; cbn [run_sevent] in H.
  - unfold connect in H. destruct (client_at fd w); [discriminate|]. injection H as <- <- <-. apply (same_numbered w); [reflexivity|exact W].
  - unfold close in H. injection H as <- <- <-. apply (same_numbered w); [reflexivity|exact W].
  - apply request_inv in H. destruct H as (cl & _ & [(_ & ->)|(rep & w1 & o1 & D & P & _)]); [exact W|].
    apply post_slots in P. destruct P as (_ & P). apply (same_numbered w1); [exact P|].
    apply dispatch_only in D; [|exact W]. destruct D as [(_ & D)|(k & O & _)]; [apply (same_numbered w); assumption|eapply only_numbered; eassumption].
  - unfold idle in H. destruct (watch_timeout _ _ _) as [o l]. injection H as <- <- <-. destruct (v_rotate g).
    + apply rotate_numbered. apply (same_numbered w); [reflexivity|exact W].
    + apply (same_numbered w); [reflexivity|exact W].
  - destruct (boot g ord) as [w1|] eqn:B; [|discriminate]. injection H as <- <- <-. eapply boot_numbered. exact B.
Qed.

Lemma run_numbered g es : forall w outs w', numbered w -> run_sevents g es w = Some (outs, w') -> numbered w'.
Proof.
  induction es as [|e es IH]; intros w outs w' W H; cbn [run_sevents] in H; [injection H as <- <-; exact W|].
  destruct (run_sevent g e w) as [out st w1|] eqn:E; [|discriminate]. destruct (run_sevents g es w1) as [[o w2]|] eqn:R; [|discriminate].
  injection H as <- <-. eapply IH; [|exact R]. eapply step_numbered; eassumption.
Qed.

Lemma step_spares g e w out st w' j r : numbered w -> slot j w = Some r -> spares e w j -> run_sevent g e w = SDone out st w' ->
  slot j w' = Some r /\ veq j (w_tb w) (w_tb w').
Proof.
  intros W S Sp H. destruct e as [fd|fd|fd v argv|now old|ord]; cbn [run_sevent spares] in *; [| | | |contradiction].
  - unfold connect in H. destruct (client_at fd w); [discriminate|]. injection H as <- <- <-. split; [exact S|apply veq_refl].
  - unfold close in H. injection H as <- <- <-. split; [exact S|apply veq_refl].
  - apply request_inv in H. destruct H as (cl & C & [(_ & ->)|(rep & w1 & o1 & D & P & _)]); [split; [exact S|apply veq_refl]|].
    apply post_slots in P. destruct P as (P1 & P2). unfold slot at 1. rewrite P1, P2. fold (slot j w1).
    apply dispatch_only in D; [|exact W]. destruct (Sp cl C) as (N1 & N2).
    destruct D as [(D1 & D2)|(k & (O1 & O2 & _) & K)]; [unfold slot; rewrite D1, D2; split; [exact S|apply veq_refl]|].
    assert (j <> k).
    { intros <-. destruct K as [K|[(h & c & rk & L & T & Sk & Nm)|K]]; [contradiction| |congruence].
      rewrite S in Sk. injection Sk as <-. apply (N2 h c r L T S). rewrite Nm. symmetry. apply text_cstr. }
    split; [rewrite O2 by assumption; exact S|]. eapply tframe_veq; [|exact O1]. assumption.
  - unfold idle in H. destruct (watch_timeout _ _ _) as [o l]. injection H as <- <- <-. destruct (v_rotate g); [|split; [exact S|apply veq_refl]].
    set (w0 := mkWorld (w_tb w) (w_slots w) (w_eff w) l).
    destruct (rotate_numbered old (upto (length (w_slots w)) 0) w0) as (_ & R); [apply (same_numbered w); [reflexivity|exact W]|].
    destruct (R j Sp) as (R1 & R2). split; [rewrite R1; exact S|exact R2].
Qed.

Lemma run_spares g j r es : forall w outs w', numbered w -> slot j w = Some r -> all_spare g j es w -> run_sevents g es w = Some (outs, w') ->
  slot j w' = Some r /\ veq j (w_tb w) (w_tb w').
Proof.
  induction es as [|e es IH]; intros w outs w' W S A H; cbn [run_sevents all_spare] in *; [injection H as <- <-; split; [exact S|apply veq_refl]|].
  destruct A as (A1 & A2). destruct (run_sevent g e w) as [out st w1|] eqn:E; [|discriminate].
  destruct (run_sevents g es w1) as [[o w2]|] eqn:R; [|discriminate]. injection H as <- <-.
  destruct (step_spares g e w out st w1 j r W S A1 E) as (B1 & B2).
  destruct (IH w1 o w2 (step_numbered _ _ _ _ _ _ W E) B1 A2 R) as (C1 & C2). split; [exact C1|]. eapply veq_trans; eassumption.
Qed.

(* ---- replies ---- *)

Lemma kscan_same rel hs argv j r w w' : x_ns (r_ix r) = j -> veq j (w_tb w) (w_tb w') ->
  command_kscan rel hs argv (est_of w' r) = command_kscan rel hs argv (est_of w r).
Proof.
  intros Hn V. unfold command_kscan. cbn [ix tb est_of]. destruct rel; [reflexivity|]. destruct (negb _); [reflexivity|].
  destruct (args_validate argv 2); [reflexivity|]. f_equal. rewrite Hn. clear Hn. induction hs as [|h hs IH]; [reflexivity|].
  cbn [flat_map]. rewrite IH. f_equal.
  assert (X : forall l, filter (kscan_match j (arg 1 argv)) l = filter (kscan_match j (arg 1 argv)) (filter (mine j) l)).
  { clear. induction l as [|e l IH]; [reflexivity|]. cbn [filter]. destruct (mine j e) eqn:M.
    - cbn [filter]. now rewrite IH.
    - unfold kscan_match at 1. unfold mine in M. rewrite M. exact IH. }
  rewrite (X (w_tb w' h)), (X (w_tb w h)), (V h). reflexivity.
Qed.

Lemma told_reply o w : reply_of (told o w) = o.
Proof. destruct o; reflexivity. Qed.

Lemma get_same j r w w' k : sim j j (est_of w r) (est_of w' r) -> 
  option_map (fun e => (index_entry_serialize e, e_indexid e, e_idxoff e, e_id e, e_pid e, e_poff e)) (index_get (est_of w' r) k) =
  option_map (fun e => (index_entry_serialize e, e_indexid e, e_idxoff e, e_id e, e_pid e, e_poff e)) (index_get (est_of w r) k).
Proof. intros Sm. rewrite (get_sim j j _ _ k Sm). destruct (index_get (est_of w r) k); reflexivity. Qed.

Lemma handle_same g v fd cl j r c argv w w' : data_cmd c = true -> x_ns (r_ix r) = j -> veq j (w_tb w) (w_tb w') ->
  reply_of (handle g v fd cl j r c argv w') = reply_of (handle g v fd cl j r c argv w).
Proof.
  intros D Hn V. assert (Sm : sim j j (est_of w r) (est_of w' r)).
  { constructor; try reflexivity; [exact Hn|cbn [ix est_of]; rewrite <- Hn; symmetry; apply xren_same|apply veq_rview; exact V]. }
  destruct c; try discriminate D; unfold handle, on_ns; cbn [reply_of].
  all: try (rewrite (command_get_sim j j _ _ _ _ Sm); reflexivity).
  all: try (rewrite (command_mget_sim j j _ _ _ _ Sm); reflexivity).
  all: try (rewrite (command_exists_sim j j _ _ _ _ Sm); reflexivity).
  all: try (rewrite (command_check_sim j j _ _ _ _ Sm); reflexivity).
  all: try (rewrite (command_length_sim j j _ _ _ _ Sm); reflexivity).
  all: try (rewrite (command_keytime_sim j j _ _ _ _ Sm); reflexivity).
  all: try (rewrite (command_dbsize_sim j j _ _ Sm); reflexivity).
  - unfold command_index, command_index_dirty. cbn [ix est_of].
    destruct (admin_authorized _); [reflexivity|]. destruct (args_validate_min _ _); [reflexivity|].
    destruct (args_overflow _ _ _); [reflexivity|]. destruct (sprint_max _); [|reflexivity]. destruct (case_eq _ _); [|reflexivity].
    destruct (_ =? _); [|reflexivity]. destruct (args_overflow _ _ _); [reflexivity|]. destruct (sprint_max _); [|reflexivity].
    destruct (case_eq _ _); reflexivity.
  - unfold command_data, command_data_raw. cbn [dk est_of].
    destruct (admin_authorized _); [reflexivity|]. destruct (args_validate_min _ _); [reflexivity|].
    destruct (args_overflow _ _ _); [reflexivity|]. destruct (sprint_max _); [|reflexivity]. destruct (case_eq _ _); reflexivity.
  - destruct (command_set_sim j j (v_set g) (perm_of cl) (v_sec v) argv (r_cfg r) _ _ Sm) as (E & _).
    destruct (command_set _ _ _ _ _ (est_of w r)), (command_set _ _ _ _ _ (est_of w' r)). cbn [fst reply_of] in *. congruence.
  - destruct (command_del_sim j j (perm_of cl) (v_sec v) argv (r_cfg r) _ _ Sm) as (E & _).
    destruct (command_del _ _ _ _ (est_of w r)), (command_del _ _ _ _ (est_of w' r)). cbn [fst reply_of] in *. congruence.
  - rewrite !told_reply. reflexivity.
  - rewrite !told_reply. reflexivity.
  - rewrite (kscan_same (v_release g) (all_buckets tt) argv j r w w' Hn V). reflexivity.
  - rewrite !told_reply. unfold command_history. cbn [dk est_of]. destruct (negb _ && negb _); [reflexivity|]. destruct (is_frozen _); [reflexivity|].
    destruct (_ =? 2).
    + pose proof (get_same j r w w' (u8_key (arg 1 argv)) Sm) as E.
      destruct (index_get (est_of w' r) _), (index_get (est_of w r) _); cbn [option_map] in E; try discriminate E; [|reflexivity].
      injection E as _ _ _ _ _ E1 E2 E3 E4 E5. rewrite E1, E2, E3, E4, E5. reflexivity.
    + reflexivity.
  - f_equal. unfold command_keycur. destruct (args_validate argv 2); [reflexivity|]. destruct (is_frozen _); [reflexivity|].
    pose proof (get_same j r w w' (arg 1 argv) Sm) as E.
    destruct (index_get (est_of w' r) _), (index_get (est_of w r) _); cbn [option_map] in E; try discriminate E; [|reflexivity].
    assert (E1 : index_entry_serialize e = index_entry_serialize e0) by congruence. rewrite E1. reflexivity.
  - destruct (command_nsjump_sim j j (perm_of cl) _ _ Sm) as (E & _).
    destruct (command_nsjump _ (est_of w r)), (command_nsjump _ (est_of w' r)). cbn [fst reply_of] in *. congruence.
Qed.

Lemma isolated g j r es w outs w' v fd cl argv h c :
  numbered w -> slot j w = Some r -> all_spare g j es w -> run_sevents g es w = Some (outs, w') ->
  c_ns cl = Some j -> lookup_handler (arg 0 argv) = Some (h, c) -> data_cmd c = true ->
  slot j w' = Some r /\ reply_of (dispatch g v fd cl argv w') = reply_of (dispatch g v fd cl argv w).
Proof.
  intros W S A R C L D. destruct (run_spares g j r es w outs w' W S A R) as (S' & V). split; [exact S'|].
  unfold dispatch. rewrite C, S, S', L. apply handle_same; [exact D|apply W; exact S|exact V].
Qed.

Lemma first_numbered g w : first_boot g = Some w -> numbered w.
Proof. unfold first_boot. apply boot_numbered. Qed.

Lemma isolated_reached g es0 w0 outs0 w j r es outs w' v fd cl argv h c :
  first_boot g = Some w0 -> run_sevents g es0 w0 = Some (outs0, w) ->
  slot j w = Some r -> all_spare g j es w -> run_sevents g es w = Some (outs, w') ->
  c_ns cl = Some j -> lookup_handler (arg 0 argv) = Some (h, c) -> data_cmd c = true ->
  slot j w' = Some r /\ reply_of (dispatch g v fd cl argv w') = reply_of (dispatch g v fd cl argv w).
Proof.
  intros B R0. apply first_numbered in B. pose proof (run_numbered _ _ _ _ _ B R0) as W. apply isolated. exact W.
Qed.

(* a test, for the examples *)
Definition sparesb (e : sevent) (w : world) (j : N) : bool :=
  match e with
  | SConnect _ | SClose _ => true
  | SRequest fd v argv =>
      match client_at fd w with
      | None => true
      | Some cl =>
          negb (match c_ns cl with Some k => k =? j | None => false end) &&
          match lookup_handler (arg 0 (effective cl argv)) with
          | Some (_, c) => negb (target_cmd c) ||
              match slot j w with Some r => negb (bseqb (text (arg 1 (effective cl argv))) (n_name (r_cfg r))) | None => true end
          | None => true
          end
      end
  | SIdle _ old => negb (existsb (N.eqb j) old)
  | SRestart _ => false
  end.

Lemma sparesb_ok e w j : sparesb e w j = true -> spares e w j.
Proof.
  destruct e; cbn [sparesb spares]; intro H; auto; [|intro I|discriminate].
  - intros cl C. rewrite C in H. apply andb_true_iff in H. destruct H as (A & B). split.
    + intro E. rewrite E, N.eqb_refl in A. discriminate.
    + intros h c r L T Sj E. rewrite L, T, Sj, E, bseqb_refl in B. discriminate.
  - apply negb_true_iff in H. assert (E : existsb (N.eqb j) old = true) by (apply existsb_exists; exists j; split; [exact I|apply N.eqb_refl]).
    congruence.
Qed.

Fixpoint all_spareb (g : server) (j : N) (es : list sevent) (w : world) : bool :=
  match es with
  | [] => true
  | e :: r => sparesb e w j && match run_sevent g e w with SDone _ _ w1 => all_spareb g j r w1 | SUndef => true end
  end.

Lemma all_spareb_ok g j es : forall w, all_spareb g j es w = true -> all_spare g j es w.
Proof.
  induction es as [|e es IH]; intros w H; cbn [all_spareb all_spare] in *; [exact I|]. apply andb_true_iff in H. destruct H as (A & B).
  split; [apply sparesb_ok; exact A|]. destruct (run_sevent g e w); [apply IH; exact B|exact I].
Qed.
