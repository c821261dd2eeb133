(* CHECK in reachable states, and after the stored bytes were changed behind the
   server's back. *)
From Coq Require Import Strings.String Strings.Byte List NArith ZArith Bool Lia ZifyBool ZifyN ZifyNat.
From Verif Require Import Bytes BytesFacts Layout LayoutFacts Store Crc32 Text Commands Machine SpecKV Reach SpecSeq SpecCheck
  CheckFacts DataFacts UserInv UserReq KvFacts SeqInv SeqSteps SeqReq SeqReach SeqRun SeqFacts Crc32Facts Api SpecApi ApiFacts.
Import ListNotations.
Open Scope N_scope.
Local Notation length := List.length.

Lemma read_bulk k c f v : read_command [str "GET"; k] c f = bulk v ->
  f k = bulk v /\ (forall a h, blen a =? 0 = false -> read_command [a; k] c h = h k).
Proof.
  unfold read_command, bulk. rewrite args_validate_2 by reflexivity.
  destruct (blen k =? 0) eqn:E; [intros X; vm_compute in X; discriminate|].
  change (arg 1 [str "GET"; k]) with k. destruct (MAX_KEY_LENGTH <? blen k) eqn:E1; [intros X; vm_compute in X; discriminate|].
  destruct (is_frozen c) eqn:E2; [intros X; vm_compute in X; discriminate|].
  intros X. split; [exact X|]. intros a h Ha. rewrite args_validate_2 by auto. rewrite E.
  change (arg 1 [a; k]) with k. now rewrite E1.
Qed.

Lemma index_get_dfile f b s k : index_get (with_dfile f b s) k = index_get s k.
Proof. reflexivity. Qed.

Lemma burst_length v v' : burst v v' -> blen v' = blen v.
Proof.
  intros (a & o & w & b & -> & -> & L & _). rewrite !blen_app, !(blen_length o), !(blen_length w), L. reflexivity.
Qed.

Lemma burst_crc v v' : burst v v' -> zdb_crc32 v' =? zdb_crc32 v = false.
Proof.
  intros (a & o & w & b & -> & -> & L & L4 & D). apply N.eqb_neq. apply crc_detects_burst; auto. lia.
Qed.

Lemma check_core g p now s k c e r v : fst (run_req g p now (QGet k) c s) = bulk v ->
  index_get s k = Some e -> data_at (dk_d (dk s)) (e_dataid e) (e_off e) r v -> drec_wf r ->
  dr_datalen r = blen v -> dr_crc r = zdb_crc32 v -> e_len e = blen v -> blen (e_id e) = blen (dr_id r) ->
  checks g p now c s k v.
Proof.
  intros G I A W L C Le Li. cbn [run_req fst argv_of] in G. unfold command_get in G.
  destruct (read_bulk _ _ _ _ G) as (_ & RC).
  destruct A as (pre & post & A & Ho).
  exists (e_dataid e), (e_off e + 18 + blen (dr_id r)), (pre ++ enc_drec r ++ v ++ post).
  assert (O : e_off e + 18 + blen (dr_id r) = blen (pre ++ enc_drec r)) by (rewrite blen_app, blen_enc_drec; lia).
  split; [exact A|]. split.
  { rewrite O, app_assoc. now apply fread_app. }
  split.
  { cbn [run_req fst argv_of]. unfold command_check. rewrite RC by reflexivity. rewrite I.
    unfold data_check, dfile. rewrite A, <- Ho, data_check_stored by auto. now rewrite C, N.eqb_refl. }
  intros v' Lv. set (file' := fwrite _ _ v').
  assert (F : file' = pre ++ enc_drec r ++ v' ++ post).
  { unfold file'. rewrite O, (app_assoc pre). rewrite fwrite_app by auto. now rewrite <- app_assoc. }
  assert (A' : data_at (dk_d (dk (with_dfile (e_dataid e) file' s))) (e_dataid e) (e_off e) r v').
  { exists pre, post. split; [|exact Ho]. cbn [with_dfile dk dk_d]. rewrite F.
    apply nget_nset_same. now apply nget_lt in A. }
  split.
  - cbn [run_req fst argv_of]. unfold command_get. rewrite RC by reflexivity. unfold get_single.
    rewrite index_get_dfile, I, Li, Le, <- Lv. rewrite (data_get_at _ _ _ r v') by (auto; lia). reflexivity.
  - intros B. cbn [run_req fst argv_of]. unfold command_check. rewrite RC by reflexivity.
    rewrite index_get_dfile, I. rewrite (data_check_at _ _ _ r v') by (auto; lia).
    rewrite C, burst_crc by auto. reflexivity.
Qed.

Lemma bulk_of_reply r v : enc_reply (get_reply r) = bulk v -> exists t, r = Some (v, t).
Proof.
  destruct r as [[v0 t]|]; cbn [get_reply]; [|intros X; pose proof (nil_not_bulk v) as Y; rewrite X, bseqb_refl in Y; discriminate].
  cbn [enc_reply]. intros E. exists t. f_equal. f_equal. now apply bulk_inj.
Qed.

Lemma check_user g n c0 es o c s p now k v : reached g n c0 es o c s ->
  fst (run_req g p now (QGet k) c s) = bulk v -> checks g p now c s k v.
Proof.
  intros R G. destruct (reached_inv _ _ _ _ _ _ _ R) as (_ & _ & gi & H & U & E & FL).
  pose proof G as G0. cbn [run_req fst argv_of] in G0. unfold command_get in G0.
  destruct (read_bulk _ _ _ _ G0) as (G1 & _).
  pose proof (get_single_ok n s gi H k U) as GS. rewrite G1 in GS. symmetry in GS.
  destruct (bulk_of_reply _ _ GS) as (t & K).
  pose proof (lookup_spec n s gi H k U) as L. destruct (index_get s k) as [e|] eqn:I; [|congruence].
  destruct L as (x & w & L1 & L2 & L3 & -> & L5 & L6 & L7).
  destruct L6 as (V1 & V2 & V3 & V4 & r & R1 & R2 & R3 & R4 & R5 & R6 & R7).
  rewrite K in L7. injection L7 as L7. destruct w as [k' [v0 t0]]. cbn [fst snd] in *. injection L7 as <- <-.
  eapply check_core; eauto; cbn [entry_of e_len e_id]; congruence.
Qed.

Lemma check_seq g n c0 es o c s p now k v : sreached g n c0 es o c s -> key_asked (x_nextentry (ix s)) k ->
  fst (run_req g p now (QGet k) c s) = bulk v -> checks g p now c s k v.
Proof.
  intros R Ka G. destruct (sreached_inv _ _ _ _ _ _ _ R) as (rr & gi & H & U0 & E & FL).
  destruct U0 as (m & U & _).
  assert (Ka' : key_asked (tot gi) k) by (rewrite <- (si_next _ _ _ _ _ U); exact Ka).
  pose proof G as G0. cbn [run_req fst argv_of] in G0. unfold command_get in G0.
  destruct (read_bulk _ _ _ _ G0) as (G1 & _).
  pose proof (sget_single_ok n s m gi H k U Ka') as GS. rewrite G1 in GS. symmetry in GS.
  destruct (bulk_of_reply _ _ GS) as (t & K).
  pose proof (seq_ex n s m gi H k U Ka') as L. destruct (index_get s k) as [e|] eqn:I; [|congruence].
  destruct L as (g1 & l1 & it & l2 & g2 & A' & B & HA & w & HB & At & ->).
  pose proof (as_get _ _ _ _ _ _ _ _ _ _ _ _ _ _ At) as L7.
  destruct (as_ver _ _ _ _ _ _ _ _ _ _ _ _ _ _ At) as (V1 & V2 & V3 & V4 & r & R1 & R2 & R3 & R4 & R5 & R6 & R7).
  rewrite K in L7. injection L7 as L7. destruct w as [k' [v0 t0]]. cbn [fst snd] in *. injection L7 as <- <-.
  eapply check_core; eauto; cbn [seq_entry e_len e_id]; congruence.
Qed.

(* the library *)
Lemma api_check_damaged g n max cs s0 os s k v : settings_ok g -> g_mode g = MODE_KV -> created g n s0 ->
  Forall call_ok cs -> no_collisions max [] cs -> nlen cs < 2 ^ 32 - 1 -> api_run g max cs s0 = Some (os, s) ->
  key_ok k -> zdb_api_get k s = AEntry k v ->
  exists f off file, nget f (dk_d (dk s)) = Some file /\ fread file off (blen v) = v /\ zdb_api_check k s = ATrue /\
    forall v', blen v' = blen v -> let s' := with_dfile f (fwrite file off v') s in
      zdb_api_get k s' = AEntry k v' /\ (burst v v' -> zdb_api_check k s' = AFalse).
Proof.
  intros Hg Hm C W NC Hl R Hk G. pose proof (created_inv g n s0 Hg C) as U0. change (2 ^ 32 - 1) with 4294967295 in Hl.
  destruct (api_run_ok g n max cs Hm Hg s0 [[]] [] U0 W NC) as (s1 & gi & H & R1 & U & _); [cbn [nlen]; lia|].
  assert (s1 = s) by congruence. subst s1. clear R R1 U0.
  pose proof (api_get_ok n s gi H k U Hk) as Gk. rewrite Gk in G. pose proof (api_check_ok n s gi H k U Hk) as Ck.
  pose proof (lookup_spec n s gi H k U) as L. destruct (index_get s k) as [e|] eqn:I; [|rewrite L in G; discriminate].
  destruct L as (x & w & L1 & L2 & L3 & Ee & L5 & L6 & L7). rewrite L7 in G, Ck.
  destruct L6 as (V1 & V2 & V3 & V4 & r & R1 & R2 & R3 & R4 & R5 & R6 & A). destruct w as [k' [v0 t0]]. cbn [fst snd] in *. injection G as ->.
  assert (Ei : index_get s (key8 k) = Some e) by (rewrite (key8_id k Hk); exact I).
  destruct A as (pre & post & A & Ho).
  exists (e_dataid e), (e_off e + 18 + blen (dr_id r)), (pre ++ enc_drec r ++ v ++ post). subst e. cbn [entry_of e_dataid e_off] in *. clear Gk.
  match goal with |- context [fread _ ?o _] => assert (O : o = blen (pre ++ enc_drec r)) by (rewrite blen_app, blen_enc_drec; lia); rewrite O end.
  split; [exact A|]. split; [rewrite app_assoc; now apply fread_app|]. split; [exact Ck|]. intros v' Lv. cbv zeta.
  set (file' := fwrite _ _ v'). assert (F : file' = pre ++ enc_drec r ++ v' ++ post).
  { unfold file'. rewrite (app_assoc pre). rewrite fwrite_app by auto. now rewrite <- app_assoc. }
  match type of A with nget ?f _ = _ => set (fi := f) in * end.
  assert (A' : forall o, o = blen pre -> data_at (dk_d (dk (with_dfile fi file' s))) fi o r v').
  { intros o ->. exists pre, post. split; [|reflexivity]. cbn [with_dfile dk dk_d]. rewrite F. apply nget_nset_same. now apply nget_lt in A. }
  unfold zdb_api_get, zdb_api_check. rewrite index_get_dfile, Ei. cbn [entry_of e_off e_len e_dataid e_id]. split.
  - rewrite V1, V2, <- R2. replace (blen v) with (blen v') by exact Lv. rewrite (data_get_at _ _ _ r v') by (try apply A'; auto; lia). reflexivity.
  - intros B. rewrite (data_check_at _ _ _ r v') by (try apply A'; auto; lia). rewrite R4, burst_crc by auto. reflexivity.
Qed.
