(* Consequences of SeqRun.v. *)
From Coq Require Import List NArith ZArith Bool Sorted Strings.Byte Strings.String Lia ZifyBool ZifyN ZifyNat.
From Verif Require Import Bytes BytesFacts Crc32 Crc32Facts Layout LayoutFacts Store Text TextFacts Commands SpecKV SpecSeq Machine Reach
  Ghost DataFacts TableFacts CheckFacts UserInv UserSteps UserLoad CrashPre UserReq KvFacts CrashModel CrashSpec CrashFacts
  SeqMap SeqInv SeqSteps SeqLoad SeqReq SeqReach SeqRun.
Import ListNotations.
Open Scope N_scope.
Ltac Zify.zify_post_hook ::= Z.div_mod_to_equations.
Local Notation length := List.length.

(* ---- bulk replies are told apart ---- *)
Lemma cr_split (u v x y : bytes) : forallb is_digit u = true -> forallb is_digit v = true ->
  u ++ x0d :: x = v ++ x0d :: y -> u = v /\ x = y.
Proof.
  revert v; induction u as [|a u IH]; intros [|b v] Hu Hv E; cbn [app forallb] in *.
  - split; congruence.
  - injection E as <- _. apply andb_true_iff in Hv. destruct Hv as [Hv _]. vm_compute in Hv. discriminate.
  - injection E as -> _. apply andb_true_iff in Hu. destruct Hu as [Hu _]. vm_compute in Hu. discriminate.
  - injection E as -> E. apply andb_true_iff in Hu, Hv. destruct (IH v (proj2 Hu) (proj2 Hv) E). subst. auto.
Qed.

Lemma bulk_inj a b : bulk a = bulk b -> a = b.
Proof.
  unfold bulk. intros E. apply app_inv_head in E. unfold CRLF in E. cbn [app] in E.
  apply cr_split in E; auto using dec_all. destruct E as [_ E]. injection E as E. now apply app_inv_tail in E.
Qed.

Lemma bseqb_bulk a b : bseqb (bulk a) (bulk b) = bseqb a b.
Proof.
  destruct (bseqb_spec a b) as [->|E]; [apply bseqb_refl|]. apply bseqb_neq. intros X. now apply bulk_inj in X.
Qed.

(* ---- the specification alone ---- *)
Lemma sq_set_cases p now c st k v ts :
  let '(r, st') := sq_set p now c st k v ts in
  (k = [] /\ r = RBulk (ident (sq_next st)) /\
     st' = mkSq (sq_next st + 1) (sq_map st ++ [(ident (sq_next st), (v, stamp ts now))])) \/
  (0 < blen k /\ kget k (sq_map st) <> None /\ r = RBulk k /\
     st' = mkSq (sq_next st + 1) (kset k v (stamp ts now) (sq_map st))) \/
  (st' = st /\ ((exists e, r = RErr e) \/ (r = RNil /\ 0 < blen k))).
Proof.
  unfold sq_set.
  assert (E : forall e, st = st /\ ((exists e', RErr e = RErr e') \/ (RErr e = RNil /\ 0 < blen k))) by eauto.
  destruct ts, (p_admin p); try (right; right; now auto);
    repeat match goal with |- context [if ?b then (_, st) else _] => destruct b; [right; right; unfold err_readonly, err_frozen, err_locked; now auto|] end;
    (destruct (N.eqb_spec (blen k) 0) as [B|B]; [left; apply blen_0 in B; auto|]);
    (destruct (kget k (sq_map st)) as [[v' t]|] eqn:K; [|right; right; now auto]);
    (destruct (bseqb v' v); right;
      [right; split; [reflexivity|]; right; split; [reflexivity|lia]|left; split; [lia|]; split; [discriminate|]; auto]).
Qed.

Lemma del_cases p c st k ts :
  let '(r, m') := kv_del p c (sq_map st) k ts in
  (r = ROk /\ m' = kdel k (sq_map st)) \/ (bseqb (enc_reply r) (hardsend "+OK") = false /\ m' = sq_map st).
Proof. apply del_reply_cases. Qed.

Definition sq_wf (st : sqs) : Prop :=
  keys_nodup (sq_map st) /\ forall k, In k (map fst (sq_map st)) -> exists i, k = ident i /\ i < sq_next st.

Lemma kset_keys k v ts m : map fst (kset k v ts m) = map fst m.
Proof.
  unfold kset. rewrite map_map. apply map_ext. intros [a w]. cbn [fst]. destruct (bseqb_spec a k) as [->|]; reflexivity.
Qed.

Lemma kget_kset k k' v ts m : kget k (kset k' v ts m) = if bseqb k' k then (match kget k m with Some _ => Some (v, ts) | None => None end) else kget k m.
Proof.
  induction m as [|[a w] m IH]; cbn [kset map kget fst]; [now destruct (bseqb k' k)|].
  match goal with |- context [map ?f m] => change (map f m) with (kset k' v ts m) end.
  destruct (bseqb_spec a k') as [->|E]; cbn [kget].
  - destruct (bseqb k' k); [reflexivity|exact IH].
  - rewrite IH. destruct (bseqb_spec a k) as [->|]; [|reflexivity].
    destruct (bseqb_spec k' k); congruence.
Qed.

Lemma ident_blen i : blen (ident i) = 8.
Proof. unfold ident. now rewrite blen_le. Qed.

Lemma sq_wf_step p now c q st : sq_wf st -> sq_next (snd (sq_step p now c q st)) < 18446744073709551616 ->
  sq_wf (snd (sq_step p now c q st)) /\ sq_next st <= sq_next (snd (sq_step p now c q st)) /\ sq_next (snd (sq_step p now c q st)) <= sq_next st + 1.
Proof.
  intros [ND ID]. destruct q as [k v ts|k ts| | | | | | | |]; cbn [sq_step snd]; try (intros _; split; [split; auto|lia]).
  - pose proof (sq_set_cases p now c st k v ts) as X. destruct (sq_set p now c st k v ts) as [r st']. cbn [snd].
    destruct X as [(_ & _ & ->)|[(_ & _ & _ & ->)|(-> & _)]]; cbn [sq_next sq_map]; intros B.
    + split; [|lia]. split; unfold keys_nodup; cbn [sq_map sq_next]; rewrite map_app; cbn [map fst].
      * apply NoDup_snoc; auto. intros Hin. destruct (ID _ Hin) as (i & E & Hi). apply ident_inj in E; lia.
      * intros k0 Hin. apply in_app_or in Hin. destruct Hin as [Hin|[<-|[]]].
        -- destruct (ID _ Hin) as (i & E & Hi). exists i. split; auto. lia.
        -- exists (sq_next st). split; auto. lia.
    + split; [|lia]. split; unfold keys_nodup; cbn [sq_map sq_next]; rewrite kset_keys; auto.
      intros k0 Hin. destruct (ID _ Hin) as (i & E & Hi). exists i. split; auto. lia.
    + split; [split; auto|lia].
  - pose proof (del_cases p c st k ts) as X. destruct (kv_del p c (sq_map st) k ts) as [r m']. cbn [snd sq_next]. intros _.
    destruct X as [(_ & ->)|(_ & ->)]; (split; [|lia]); split; cbn [sq_map sq_next]; auto using nodup_kdel.
    intros k0 Hin. apply in_kdel in Hin. apply ID. tauto.
Qed.

Lemma sq_next_step p now c q st :
  sq_next st <= sq_next (snd (sq_step p now c q st)) /\ sq_next (snd (sq_step p now c q st)) <= sq_next st + 1.
Proof.
  destruct q as [k v ts|k ts| | | | | | | |]; cbn [sq_step snd]; try lia.
  - pose proof (sq_set_cases p now c st k v ts) as X. destruct (sq_set p now c st k v ts) as [r st']. cbn [snd].
    destruct X as [(_ & _ & ->)|[(_ & _ & _ & ->)|(-> & _)]]; cbn [sq_next]; lia.
  - destruct (kv_del p c (sq_map st) k ts). cbn [snd sq_next]. lia.
Qed.

Lemma sq_next_event e st : sq_next (snd st) <= sq_next (snd (snd (sq_event e st))).
Proof.
  destruct st as [c m], e as [p now q|c'|]; cbn [sq_event snd]; try lia.
  pose proof (sq_next_step p now c q m). destruct (sq_step p now c q m). cbn [snd] in *. lia.
Qed.

Lemma sc_run_next es st r st' : sc_run es st r st' -> sq_next (snd st) <= sq_next (snd st').
Proof.
  induction 1 as [|e es st o st' R IH|p now q j n es c m m' o st' C R IH]; [lia| |].
  - pose proof (sq_next_event e st). lia.
  - cbn [snd] in *. pose proof (sq_next_step p now c q m). destruct C as [->|[->|(_ & E)]]; lia.
Qed.

Lemma err_start e : exists b, enc_reply (RErr e) = x2d :: b.
Proof. cbn. eauto. Qed.

Lemma handed_run es st r st' : sc_run es st r st' ->
  exists L, handed_out (combine (crequests es) (map enc_reply r)) = map (fun i => bulk (ident i)) L /\
    StronglySorted N.lt L /\ Forall (fun i => sq_next (snd st) <= i /\ i < sq_next (snd st')) L.
Proof.
  induction 1 as [|e es st o st' R IH|p now q j n es c m m' o st' C R IH].
  - exists []. repeat constructor.
  - destruct IH as (L & L1 & L2 & L3). pose proof (sc_run_next _ _ _ _ R) as NX.
    destruct st as [c m]. destruct e as [p now q|c'|]; cbn [sq_event snd fst crequests app] in *; [|eauto..].
    pose proof (sq_next_step p now c q m) as NS. destruct (sq_step p now c q m) as [r0 m'] eqn:Q. cbn [snd fst map combine app] in *.
    assert (L3' : Forall (fun i => sq_next m <= i /\ i < sq_next (snd st')) L).
    { eapply Forall_impl; [|exact L3]. cbn beta. intros i Hi. lia. }
    assert (KEEP : (match q with QSet [] _ _ => exists b, enc_reply r0 = x2d :: b | _ => True end) ->
      exists L, handed_out ((q, enc_reply r0) :: combine (crequests es) (map enc_reply o)) = map (fun i => bulk (ident i)) L /\
        StronglySorted N.lt L /\ Forall (fun i => sq_next m <= i /\ i < sq_next (snd st')) L).
    { intros K. exists L. split; [|auto]. cbn [handed_out]. destruct q as [[|a k] v ts| | | | | | | | |]; auto.
      destruct K as (b & ->). exact L1. }
    destruct q as [[|a k] v ts| | | | | | | | |]; try (apply KEEP; exact I).
    cbn [sq_step] in Q. pose proof (sq_set_cases p now c m [] v ts) as X. rewrite Q in X.
    destruct X as [(_ & -> & ->)|[(X & _)|(-> & [(e & ->)|(_ & X)])]]; [|discriminate X| |discriminate X].
    + exists (sq_next m :: L). split; [|split].
      * cbn [map]. rewrite <- L1. reflexivity.
      * constructor; auto. eapply Forall_impl; [|exact L3]. cbn [sq_next]. intros i Hi. lia.
      * constructor; auto. cbn [sq_next] in NX. lia.
    + apply KEEP. apply err_start.
  - destruct IH as (L & L1 & L2 & L3). exists L. cbn [crequests snd] in *. split; [exact L1|]. split; [exact L2|].
    eapply Forall_impl; [|exact L3]. cbn beta. intros i Hi. pose proof (sq_next_step p now c q m).
    destruct C as [->|[->|(_ & E)]]; lia.
Qed.

Lemma sq_last_step p now c q st k : sq_wf st -> sq_next st < 18446744073709551616 -> 0 < blen k ->
  option_map fst (kget k (sq_map (snd (sq_step p now c q st)))) =
  sq_last k [(q, enc_reply (fst (sq_step p now c q st)))] (option_map fst (kget k (sq_map st))).
Proof.
  intros [ND ID] B K0. destruct q as [k' v ts|k' ts| | | | | | | |]; cbn [sq_step snd fst sq_last]; auto.
  - pose proof (sq_set_cases p now c st k' v ts) as X. destruct (sq_set p now c st k' v ts) as [r st']. cbn [fst snd].
    destruct X as [(-> & -> & ->)|[(K1 & K2 & -> & ->)|(-> & X)]]; cbn [sq_map].
    + rewrite kget_app. cbn [kget]. change (enc_reply (RBulk ?x)) with (bulk x). rewrite bseqb_bulk.
      change (bseqb [] [] || bseqb [] k) with true. cbn [andb].
      destruct (bseqb_spec (ident (sq_next st)) k) as [<-|E].
      * replace (kget (ident (sq_next st)) (sq_map st)) with (@None (bytes * N)); [reflexivity|]. symmetry. apply kget_none.
        intros Hin. destruct (ID _ Hin) as (i & Ei & Hi). apply ident_inj in Ei; lia.
      * now destruct (kget k (sq_map st)).
    + rewrite kget_kset. change (enc_reply (RBulk ?x)) with (bulk x). rewrite bseqb_bulk.
      replace (bseqb k' []) with false by (symmetry; apply bseqb_neq; intros ->; discriminate K1). cbn [orb].
      destruct (bseqb_spec k' k) as [<-|E]; cbn [andb]; [|reflexivity].
      destruct (kget k' (sq_map st)); [reflexivity|congruence].
    + replace (bseqb (enc_reply r) (bulk k)) with false; [now rewrite andb_false_r|]. symmetry.
      destruct X as [(e & ->)|(-> & _)]; [|apply nil_not_bulk]. apply bseqb_neq. destruct (err_start e) as (b & ->). discriminate.
  - pose proof (del_cases p c st k' ts) as X. destruct (kv_del p c (sq_map st) k' ts) as [r m']. cbn [fst snd sq_map].
    destruct X as [(-> & ->)|(X & ->)].
    + rewrite kget_kdel. change (enc_reply ROk) with (hardsend "+OK"). rewrite bseqb_refl, andb_true_r. now destruct (bseqb k' k).
    + now rewrite X, andb_false_r.
Qed.

Lemma sq_last_cons k x tr cur : sq_last k (x :: tr) cur = sq_last k tr (sq_last k [x] cur).
Proof. destruct x as [[] r]; reflexivity. Qed.

Lemma sq_run_next es st : sq_next (snd st) <= sq_next (snd (snd (sq_run es st))).
Proof.
  revert st; induction es as [|e es IH]; intros st; cbn [sq_run]; [cbn [snd]; lia|].
  pose proof (sq_next_event e st). destruct (sq_event e st) as [o1 st1]. specialize (IH st1).
  destruct (sq_run es st1) as [o2 st2]. cbn [snd] in *. lia.
Qed.

Lemma sq_last_run k es : 0 < blen k -> forall c st, sq_wf st -> sq_next (snd (snd (sq_run es (c, st)))) < 18446744073709551616 ->
  option_map fst (kget k (sq_map (snd (snd (sq_run es (c, st)))))) =
  sq_last k (combine (requests es) (map enc_reply (fst (sq_run es (c, st))))) (option_map fst (kget k (sq_map st))) /\
  sq_wf (snd (snd (sq_run es (c, st)))).
Proof.
  intros K0. induction es as [|e es IH]; intros c st W B; [split; [reflexivity|exact W]|]. cbn [sq_run] in *.
  destruct e as [p now q|c'|]; cbn [sq_event requests] in *.
  - pose proof (sq_last_step p now c q st k W) as S. pose proof (sq_wf_step p now c q st W) as WS.
    destruct (sq_step p now c q st) as [r m']. cbn [fst snd] in S, WS. pose proof (sq_run_next es (c, m')) as NX.
    specialize (IH c m'). destruct (sq_run es (c, m')) as [o2 [c2 m2]]. cbn [fst snd map app combine] in *.
    destruct WS as (W' & N1 & N2); [lia|]. destruct (IH W' B) as (I1 & I2). split; [|exact I2].
    rewrite sq_last_cons, I1, S; auto. lia.
  - specialize (IH c' st W). destruct (sq_run es (c', st)) as [o2 [c2 m2]]. exact (IH B).
  - specialize (IH (unlocked c) st W). destruct (sq_run es (unlocked c, st)) as [o2 [c2 m2]]. exact (IH B).
Qed.

Lemma sq_wf_empty : sq_wf sq_empty.
Proof. split; [constructor|intros k []]. Qed.

(* ---- reachable states ---- *)
Lemma sa_next n s gi H : SA n s gi H -> x_nextentry (ix s) = tot gi /\ tot gi < 18446744073709551616.
Proof.
  intros (m & U & _). split; [apply U|]. pose proof (tot_bound _ _ _ _ (si_f _ _ _ _ _ U)). lia.
Qed.

Lemma ids_fresh g n c0 es o c s : sreached g n c0 es o c s ->
  exists L, handed_out (combine (crequests es) o) = map (fun i => bulk (ident i)) L /\
    StronglySorted N.lt L /\ Forall (fun i => i < 2 ^ 64) L.
Proof.
  intros R. destruct (sreached_inv _ _ _ _ _ _ _ R) as (r & gi & H & U & -> & K).
  destruct (handed_run _ _ _ _ K) as (L & L1 & L2 & L3). exists L. split; [exact L1|]. split; [exact L2|].
  destruct (sa_next _ _ _ _ U) as (_ & B). eapply Forall_impl; [|exact L3]. cbn [snd sq_of sq_next].
  change (2 ^ 64) with 18446744073709551616. intros i Hi. lia.
Qed.

Lemma sorted_nodup L : StronglySorted N.lt L -> NoDup L.
Proof.
  induction 1 as [|i L S IH F]; constructor; auto. intros Hin. rewrite Forall_forall in F. specialize (F _ Hin). lia.
Qed.

Lemma ids_nodup g n c0 es o c s : sreached g n c0 es o c s -> NoDup (handed_out (combine (crequests es) o)).
Proof.
  intros R. destruct (ids_fresh _ _ _ _ _ _ _ R) as (L & -> & S & B).
  pose proof (sorted_nodup _ S) as ND. clear S R. induction ND as [|i L Hn ND IH]; cbn [map]; [constructor|].
  pose proof (Forall_inv B) as Bi. apply Forall_inv_tail in B. constructor; [|auto].
  intros Hin. apply in_map_iff in Hin. destruct Hin as (j & E & Hj). apply bulk_inj in E.
  rewrite Forall_forall in B. specialize (B _ Hj). change (2 ^ 64) with 18446744073709551616 in *.
  apply ident_inj in E; auto. congruence.
Qed.

Lemma splain_inv g n c0 es o c s : sreached g n c0 (plain es) o c s ->
  o = map enc_reply (fst (sq_run es (c0, sq_empty))) /\ c = fst (snd (sq_run es (c0, sq_empty))) /\
  exists gi H, SA n s gi H /\ sq_of gi H = sq_of_history c0 es /\ sq_wf (sq_of gi H).
Proof.
  intros R. destruct (sreached_plain _ _ _ _ _ _ _ R) as (E & gi & H & U & K).
  split; [exact E|]. split; [rewrite K; reflexivity|]. exists gi, H. split; [exact U|].
  assert (Q : sq_of gi H = sq_of_history c0 es) by (unfold sq_of_history; rewrite K; reflexivity).
  split; [exact Q|]. rewrite Q. unfold sq_of_history.
  apply (sq_last_run (ident 0) es) with (c := c0); [rewrite ident_blen; lia|apply sq_wf_empty|].
  fold (sq_of_history c0 es). rewrite <- Q. apply (sa_next _ _ _ _ U).
Qed.

Lemma sreach_req g n c0 es o c s p now q : sreached g n c0 es o c s -> req_calm g p now q c s ->
  exists gi H gi' H', SA n s gi H /\ SA n (snd (run_req g p now q c s)) gi' H' /\
    fst (run_req g p now q c s) = enc_reply (fst (sq_step p now c q (sq_of gi H))) /\
    sq_of gi' H' = snd (sq_step p now c q (sq_of gi H)).
Proof.
  intros R C. destruct (sreached_inv _ _ _ _ _ _ _ R) as (r & gi & H & U & _ & _). exists gi, H.
  destruct (event_sok g n (EReq p now q) c s gi H (proj1 R) U C) as (o1 & c1 & s1 & gi' & H' & E1 & E2 & _ & E4 & E5 & _).
  cbn [run_event sq_event] in *. destruct (run_req g p now q c s) as [b s2]. destruct (sq_step p now c q (sq_of gi H)) as [r2 m2].
  apply some_inj in E1. injection E1 as <- <- <-. cbn [fst snd map] in *. injection E4 as ->. injection E5 as ->.
  exists gi', H'. auto.
Qed.

Lemma sget_last g n c0 es o c s p now k : sreached g n c0 (plain es) o c s ->
  req_calm g p now (QGet k) c s -> 0 < blen k -> blen k <= 255 -> n_lock c <> 2 ->
  fst (run_req g p now (QGet k) c s) =
  match sq_last k (combine (requests es) o) None with Some v => bulk v | None => hardsend "$-1" end.
Proof.
  intros R C K1 K2 L. destruct (splain_inv _ _ _ _ _ _ _ R) as (Ho & _ & gi & H & U & Q & _).
  destruct (event_sok g n (EReq p now (QGet k)) c s gi H (proj1 R) U C) as (o1 & c1 & s1 & gi' & H' & E1 & _ & _ & _ & E5 & _).
  cbn [run_event sq_event] in *. destruct (run_req g p now (QGet k) c s) as [b s2].
  apply some_inj in E1. injection E1 as <- <- <-. cbn [fst snd map sq_step kv_step] in *. injection E5 as ->.
  unfold kv_read. destruct (N.eqb_spec (blen k) 0); [lia|]. destruct (N.ltb_spec 255 (blen k)); [lia|].
  destruct (N.eqb_spec (n_lock c) 2); [lia|].
  pose proof (sq_last_run k es K1 c0 sq_empty sq_wf_empty) as LW. fold (sq_of_history c0 es) in LW. rewrite <- Q in *.
  destruct LW as (LW & _); [apply (sa_next _ _ _ _ U)|]. cbn [kget option_map sq_map sq_empty] in LW. rewrite <- Ho in LW.
  rewrite <- LW. cbn [sq_of sq_map]. now destruct (kget k (livem (flat 0 gi) H)) as [[v t]|].
Qed.

(* ---- restarts ---- *)
Lemma sq_run_strip es : never_locked es -> forall c m, n_lock c = 0 -> sq_run (strip es) (c, m) = sq_run es (c, m).
Proof.
  induction 1 as [|e es He _ IH]; intros c m L; [reflexivity|].
  destruct e as [p now q|c'|]; cbn [strip sq_run sq_event].
  - destruct (sq_step p now c q m) as [r m']. now rewrite IH.
  - now rewrite IH.
  - rewrite unlocked_id by auto. rewrite IH by auto. now destruct (sq_run es (c, m)).
Qed.

Lemma asked_le a b k : a <= b -> key_asked a k -> key_asked b k.
Proof. intros L K B. specialize (K B). lia. Qed.

Lemma same_sreads_inv n n' s m gi H s' m' gi' H' : SInv n s m gi H -> SInv n' s' m' gi' H' ->
  livem (flat 0 gi') H' = livem (flat 0 gi) H -> tot gi <= tot gi' -> same_sreads s s'.
Proof.
  intros U U' E L. split; [|split].
  - intros k Ka. rewrite (si_next _ _ _ _ _ U) in Ka.
    rewrite (sread_all_spec _ _ _ _ _ k U Ka), (sread_all_spec _ _ _ _ _ k U' (asked_le _ _ _ L Ka)). now rewrite E.
  - rewrite (proj1 (scounters _ _ _ _ _ U)), (proj1 (scounters _ _ _ _ _ U')). now rewrite E.
  - rewrite (proj2 (scounters _ _ _ _ _ U)), (proj2 (scounters _ _ _ _ _ U')). now rewrite E.
Qed.

Lemma srestart_invisible g n n' c0 es o c s o' c' s' :
  sreached g n c0 (plain es) o c s -> sreached g n' c0 (plain (strip es)) o' c' s' ->
  never_locked es -> n_lock c0 = 0 ->
  o = o' /\ c = c' /\ same_sreads s' s /\ x_nextentry (ix s) = x_nextentry (ix s').
Proof.
  intros R R' NL L. destruct (splain_inv _ _ _ _ _ _ _ R) as (E1 & E2 & gi & H & (m & U & _) & E3 & _).
  destruct (splain_inv _ _ _ _ _ _ _ R') as (E1' & E2' & gi' & H' & (m' & U' & _) & E3' & _).
  unfold sq_of_history in *. rewrite sq_run_strip in * by auto. split; [congruence|]. split; [congruence|].
  assert (EQ : sq_of gi H = sq_of gi' H') by congruence.
  pose proof (f_equal sq_next EQ) as T. pose proof (f_equal sq_map EQ) as M. cbn [sq_of sq_next sq_map] in T, M.
  split; [eapply same_sreads_inv; eauto; lia|]. rewrite (si_next _ _ _ _ _ U), (si_next _ _ _ _ _ U'). exact T.
Qed.

(* one restart, even when the current index file is empty *)
Lemma one_srestart g n c0 es o c s : sreached g n c0 es o c s ->
  exists s', reopen g s = Some s' /\ same_sreads s s' /\ x_nextentry (ix s') = x_nextentry (ix s).
Proof.
  intros R. destruct (sreached_inv _ _ _ _ _ _ _ R) as (r & gi & H & (m & U & _) & _ & _).
  destruct (sreopen_ok g n s m gi H (proj1 R) U) as (s' & R1 & R2 & _). exists s'. split; [exact R1|].
  split; [eapply same_sreads_inv; eauto; lia|]. now rewrite (si_next _ _ _ _ _ U), (si_next _ _ _ _ _ R2).
Qed.

(* ---- crashes ---- *)
Lemma scrash_refines g n c0 es o c s : sreached g n c0 es o c s ->
  exists r st, o = map enc_reply r /\ sc_run es (c0, sq_empty) r (c, st) /\
    forall k, key_asked (sq_next st) k -> read_all s k = reads_of (sq_map st) k.
Proof.
  intros R. destruct (sreached_inv _ _ _ _ _ _ _ R) as (r & gi & H & (m & U & _) & E & K).
  exists r, (sq_of gi H). split; [exact E|]. split; [exact K|]. intros k Ka. now apply (sread_all_spec n s m).
Qed.

Lemma one_scrash g n c0 es o c s p now q j t : sreached g n c0 es o c s -> req_calm g p now q c s ->
  between_writes (new_writes (dk s) (dk (snd (run_req g p now q c s)))) j t ->
  exists s', crash_req g p now q j t c s = Some s' /\
    (same_sreads s s' \/ same_sreads (snd (run_req g p now q c s)) s').
Proof.
  intros R C B. destruct (sreached_inv _ _ _ _ _ _ _ R) as (r & gi & H & U & _ & _).
  destruct (scrash_ok g n s gi H p now q c j t (proj1 R) U C B) as (s' & gi' & H' & E & U' & _ & _ & K).
  destruct (event_sok g n (EReq p now q) c s gi H (proj1 R) U C) as (o1 & c1 & s1 & gi2 & H2 & E1 & U2 & _ & E4 & _).
  exists s'. split; [exact E|]. destruct U as (m & U & _). destruct U2 as (m2 & U2 & _).
  cbn [run_event sq_event] in *. pose proof (sq_next_step p now c q (sq_of gi H)) as NS.
  destruct (run_req g p now q c s) as [b s2]. destruct (sq_step p now c q (sq_of gi H)) as [r2 st2].
  apply some_inj in E1. injection E1 as <- <- <-. cbn [fst snd] in *. injection E4 as ->. cbn [sq_of sq_next] in NS.
  destruct K as [K|[K|(K1 & K2)]].
  - left. pose proof (f_equal sq_next K) as T. pose proof (f_equal sq_map K) as M. cbn [sq_of sq_next sq_map] in T, M.
    eapply same_sreads_inv; eauto. lia.
  - right. pose proof (f_equal sq_next K) as T. pose proof (f_equal sq_map K) as M. cbn [sq_of sq_next sq_map] in T, M.
    eapply same_sreads_inv; eauto. lia.
  - left. cbn [sq_of sq_next sq_map] in K1, K2. eapply same_sreads_inv; eauto. lia.
Qed.

Lemma sq_step_other p now c q st k : target q <> Some k -> k <> ident (sq_next st) ->
  kget k (sq_map (snd (sq_step p now c q st))) = kget k (sq_map st).
Proof.
  intros T N. destruct q as [k' v ts|k' ts| | | | | | | |]; cbn [sq_step snd target] in *; auto.
  - pose proof (sq_set_cases p now c st k' v ts) as X. destruct (sq_set p now c st k' v ts) as [r st']. cbn [snd].
    destruct X as [(_ & _ & ->)|[(_ & _ & _ & ->)|(-> & _)]]; cbn [sq_map]; auto.
    + rewrite kget_app. cbn [kget]. destruct (bseqb_spec (ident (sq_next st)) k); [congruence|]. now destruct (kget k (sq_map st)).
    + rewrite kget_kset. destruct (bseqb_spec k' k); congruence.
  - pose proof (del_cases p c st k' ts) as X. destruct (kv_del p c (sq_map st) k' ts) as [r m']. cbn [snd sq_map].
    destruct X as [(_ & ->)|(_ & ->)]; auto. rewrite kget_kdel. destruct (bseqb_spec k' k); congruence.
Qed.

(* identifiers already handed out, other than the one concerned *)
Lemma scrash_others g n c0 es o c s p now q j t : sreached g n c0 es o c s -> req_calm g p now q c s ->
  between_writes (new_writes (dk s) (dk (snd (run_req g p now q c s)))) j t ->
  exists s', crash_req g p now q j t c s = Some s' /\
    forall i, i < x_nextentry (ix s) -> target q <> Some (ident i) ->
      read_all s' (ident i) = read_all s (ident i) /\
      read_all (snd (run_req g p now q c s)) (ident i) = read_all s (ident i).
Proof.
  intros R C B. destruct (sreached_inv _ _ _ _ _ _ _ R) as (r & gi & H & U & _ & _).
  destruct (scrash_ok g n s gi H p now q c j t (proj1 R) U C B) as (s' & gi' & H' & E & U' & _ & _ & K).
  destruct (event_sok g n (EReq p now q) c s gi H (proj1 R) U C) as (o1 & c1 & s1 & gi2 & H2 & E1 & U2 & _ & E4 & _).
  exists s'. split; [exact E|]. destruct (sa_next _ _ _ _ U) as (NX & NB). destruct U as (m & U & _). destruct U2 as (m2 & U2 & _).
  cbn [run_event sq_event] in *. pose proof (sq_next_step p now c q (sq_of gi H)) as NS.
  intros i Hi T. rewrite NX in Hi.
  assert (O : kget (ident i) (sq_map (snd (sq_step p now c q (sq_of gi H)))) = kget (ident i) (sq_map (sq_of gi H))).
  { apply sq_step_other; auto. cbn [sq_of sq_next]. intros X. apply ident_inj in X; lia. }
  destruct (run_req g p now q c s) as [b s2]. destruct (sq_step p now c q (sq_of gi H)) as [r2 st2].
  apply some_inj in E1. injection E1 as <- <- <-. cbn [fst snd] in *. injection E4 as ->. cbn [sq_of sq_next sq_map] in *.
  assert (KA : forall n', tot gi <= n' -> key_asked n' (ident i)).
  { intros n' L _. left. rewrite unle_ident by lia. lia. }
  assert (TN : tot gi <= tot gi' /\ kget (ident i) (livem (flat 0 gi') H') = kget (ident i) (livem (flat 0 gi) H)).
  { destruct K as [K|[K|(K1 & K2)]].
    - injection K as -> ->. split; [lia|reflexivity].
    - injection K as -> ->. split; [lia|exact O].
    - cbn [sq_of sq_next sq_map] in K1, K2. rewrite K1. split; [lia|reflexivity]. }
  rewrite (sread_all_spec _ _ _ _ _ _ U (KA _ (N.le_refl _))), (sread_all_spec _ _ _ _ _ _ U' (KA _ (proj1 TN))).
  rewrite (sread_all_spec _ _ _ _ _ _ U2 (KA (tot gi2) ltac:(lia))).
  split; apply reads_kget; [apply TN|exact O].
Qed.

(* ---- refused requests, WORM, counters, quota ---- *)
Lemma srefused g n c0 es o c s p now q : sreached g n c0 es o c s -> req_calm g p now q c s ->
  sq_accept q (fst (run_req g p now q c s)) = false ->
  same_sreads s (snd (run_req g p now q c s)) /\ x_nextentry (ix (snd (run_req g p now q c s))) = x_nextentry (ix s).
Proof.
  intros R C A. destruct (sreach_req _ _ _ _ _ _ _ p now q R C) as (gi & H & gi' & H' & (m & U & _) & (m' & U' & _) & E1 & E2).
  assert (S : snd (sq_step p now c q (sq_of gi H)) = sq_of gi H).
  { rewrite E1 in A. destruct q as [k v ts|k ts| | | | | | | |]; auto; cbn [sq_step sq_accept] in *.
    - pose proof (sq_set_cases p now c (sq_of gi H) k v ts) as X. destruct (sq_set p now c (sq_of gi H) k v ts) as [r st']. cbn [fst snd] in *.
      assert (Y : forall b, match enc_reply (RBulk b) with x24 :: _ => negb (bseqb (enc_reply (RBulk b)) (hardsend "$-1")) | _ => false end = true).
      { intros b. change (enc_reply (RBulk b)) with (bulk b). pose proof (nil_not_bulk b) as NB. change (enc_reply RNil) with (hardsend "$-1") in NB.
        destruct (bseqb_spec (bulk b) (hardsend "$-1")) as [Z|Z]; [rewrite Z, bseqb_refl in NB; discriminate|reflexivity]. }
      destruct X as [(_ & -> & _)|[(_ & _ & -> & _)|(-> & _)]]; auto; rewrite Y in A; discriminate.
    - pose proof (del_cases p c (sq_of gi H) k ts) as X. destruct (kv_del p c (sq_map (sq_of gi H)) k ts) as [r m0]. cbn [fst snd] in *.
      destruct X as [(-> & _)|(_ & ->)]; [|reflexivity]. vm_compute in A. discriminate. }
  rewrite S in E2. pose proof (f_equal sq_next E2) as T. pose proof (f_equal sq_map E2) as M. cbn [sq_of sq_next sq_map] in T, M.
  split; [eapply same_sreads_inv; eauto; lia|]. now rewrite (si_next _ _ _ _ _ U), (si_next _ _ _ _ _ U').
Qed.

Lemma sworm_step p now c q st k v : n_worm c = true -> sq_wf st -> sq_next st < 18446744073709551616 ->
  kget k (sq_map st) = Some v -> kget k (sq_map (snd (sq_step p now c q st))) = Some v.
Proof.
  intros W [ND ID] B K. destruct q as [k' v' ts|k' ts| | | | | | | |]; cbn [sq_step snd]; auto.
  - unfold sq_set. destruct (bseqb_spec k' k) as [->|E].
    + rewrite K, W. cbv beta iota. destruct ts, (p_admin p); auto;
      repeat match goal with |- context [if ?b then _ else _] => destruct b; [exact K|] end; exact K.
    + pose proof (sq_set_cases p now c st k' v' ts) as X. unfold sq_set in X. destruct (match ts with Some _ => _ | None => _ end) as [r st'].
      cbn [snd]. destruct X as [(_ & _ & ->)|[(_ & _ & _ & ->)|(-> & _)]]; cbn [sq_map]; auto.
      * rewrite kget_app, K. reflexivity.
      * rewrite kget_kset. destruct (bseqb_spec k' k); congruence.
  - unfold kv_del. rewrite W. destruct ts, (p_admin p), (blen k'); auto;
      repeat match goal with |- context [if ?b then (_, _) else _] => destruct b; [exact K|] end;
      destruct (kget k' (sq_map st)); exact K.
Qed.

Lemma sworm_keeps g n c0 es o c s p now q : sreached g n c0 (plain es) o c s -> n_worm c = true -> req_calm g p now q c s ->
  forall k, key_asked (x_nextentry (ix s)) k -> command_exists [str "EXISTS"; k] open_cfg s = intreply 1 ->
    read_all (snd (run_req g p now q c s)) k = read_all s k.
Proof.
  intros R W C k Ka Ex. destruct (splain_inv _ _ _ _ _ _ _ R) as (_ & _ & gi & H & U & _ & WF).
  destruct (event_sok g n (EReq p now q) c s gi H (proj1 R) U C) as (o1 & c1 & s1 & gi2 & H2 & E1 & U2 & _ & E4 & _).
  destruct (sa_next _ _ _ _ U) as (NX & NB). destruct U as (m & U & _). destruct U2 as (m2 & U2 & _). rewrite NX in Ka.
  pose proof (sread_all_spec _ _ _ _ _ k U Ka) as RA.
  assert (K : exists v, kget k (livem (flat 0 gi) H) = Some v).
  { unfold read_all, reads_of in RA. cbn [map] in RA. injection RA as _ RA _ _ _. rewrite Ex in RA. cbn [kv_step fst] in RA. unfold kv_read in RA.
    destruct (blen k =? 0); [discriminate|]. destruct (255 <? blen k); [discriminate|]. cbn [n_lock open_cfg N.eqb] in RA.
    destruct (kget k (livem (flat 0 gi) H)) as [v|]; [eauto|]. vm_compute in RA. discriminate. }
  destruct K as (v & K). pose proof (sworm_step p now c q (sq_of gi H) k v W WF NB K) as K2.
  cbn [run_event sq_event] in *. pose proof (sq_next_step p now c q (sq_of gi H)) as NS.
  destruct (run_req g p now q c s) as [b s2]. destruct (sq_step p now c q (sq_of gi H)) as [r2 st2].
  apply some_inj in E1. injection E1 as <- <- <-. cbn [fst snd] in *. injection E4 as ->. cbn [sq_of sq_next sq_map] in *.
  rewrite RA, (sread_all_spec _ _ _ _ _ k U2 (asked_le _ _ _ (proj1 NS) Ka)). apply reads_kget. congruence.
Qed.

Lemma scount g n c0 es o c s : sreached g n c0 (plain es) o c s ->
  x_entries (ix s) = kcount (sq_map (sq_of_history c0 es)) mod 2 ^ 64 /\
  x_datasize (ix s) = ksize (sq_map (sq_of_history c0 es)) mod 2 ^ 64.
Proof.
  intros R. destruct (splain_inv _ _ _ _ _ _ _ R) as (_ & _ & gi & H & (m & U & _) & <- & _). exact (scounters _ _ _ _ _ U).
Qed.

Lemma ksize_kset k v ts m : keys_nodup m -> kget k m <> None -> ksize (kset k v ts m) + oldlen k m = ksize m + blen v.
Proof.
  unfold oldlen, keys_nodup. induction m as [|[a [w t]] m IH]; intros ND K; [cbn [kget] in K; congruence|].
  inversion ND as [|? ? Hn Hd]; subst. cbn [kset map kget fst ksize] in *.
  match goal with |- context [map ?f m] => change (map f m) with (kset k v ts m) end.
  destruct (bseqb_spec a k) as [->|E].
  - cbn [ksize]. assert (X : kset k v ts m = m).
    { unfold kset. clear -Hn. induction m as [|[b u] m IH]; [reflexivity|]. cbn [map fst] in *.
      destruct (bseqb_spec b k) as [->|]; [exfalso; apply Hn; now left|]. rewrite IH; auto. intros X. apply Hn. now right. }
    rewrite X. lia.
  - cbn [ksize]. specialize (IH Hd K). destruct (kget k m) as [[w' t']|]; [lia|congruence].
Qed.

Lemma str_inj a b : str a = str b -> a = b.
Proof. unfold str. intros E. rewrite <- (string_of_list_byte_of_string a), E. apply string_of_list_byte_of_string. Qed.

Lemma squota g n c0 es o c s p now k v ts : sreached g n c0 (plain es) o c s -> req_calm g p now (QSet k v ts) c s ->
  n_maxsize c <> 0 -> n_maxsize c + 2 ^ 32 <= 2 ^ 64 -> ksize (sq_map (sq_of_history c0 es)) + 2 ^ 32 <= 2 ^ 64 ->
  let r := fst (run_req g p now (QSet k v ts) c s) in
  let m := sq_map (sq_of_history c0 es) in
  let m' := sq_map (snd (sq_step p now c (QSet k v ts) (sq_of_history c0 es))) in
  (sq_accept (QSet k v ts) r = true -> ksize m' <= n_maxsize c /\ ksize m' + oldlen k m = ksize m + blen v) /\
  (r = hardsend "-No space left on this namespace" -> n_maxsize c < ksize m + blen v - oldlen k m /\ m' = m).
Proof.
  intros R C M0 M1 S1 r m m'. destruct (splain_inv _ _ _ _ _ _ _ R) as (_ & _ & gi & H & U & EQ & WF).
  destruct (event_sok g n (EReq p now (QSet k v ts)) c s gi H (proj1 R) U C) as (o1 & c1 & s1 & gi2 & H2 & E1 & U2 & _ & E4 & E5 & _).
  assert (Er : r = enc_reply (fst (sq_step p now c (QSet k v ts) (sq_of gi H)))).
  { unfold r. cbn [run_event sq_event] in *. destruct (run_req g p now (QSet k v ts) c s) as [b s2].
    destruct (sq_step p now c (QSet k v ts) (sq_of gi H)) as [r2 st2]. apply some_inj in E1. injection E1 as <- <- <-.
    cbn [fst map] in *. now injection E5 as ->. }
  unfold m, m'. rewrite Er. rewrite <- EQ in *. clear E1 E4 E5 U2 s1 c1 o1 gi2 H2 r m m' Er.
  destruct C as ((Wv & _) & Ka & _ & _). destruct (sa_next _ _ _ _ U) as (NX & NB). rewrite NX in Ka. destruct U as (mm & U & _).
  cbn [sq_step]. cbn [sq_of sq_map] in *. set (m := livem (flat 0 gi) H) in *.
  change (2 ^ 64) with 18446744073709551616 in *. change (2 ^ 32) with 4294967296 in *.
  pose proof (ksize_kdel k m (proj1 WF)) as OL.
  assert (OV : oldlen k m <= ksize m) by lia.
  assert (OB' : oldlen k m < 4294967296).
  { unfold oldlen. destruct (kget k m) as [[w t]|] eqn:K; [|lia].
    pose proof (seq_ex n s mm gi H k U (Forall_inv Ka)) as L. destruct (index_get s k) as [e|]; [|unfold m in K; congruence].
    destruct L as (g1 & l1 & it & l2 & g2 & A & B & HA & u & HB & At & _).
    pose proof (as_get _ _ _ _ _ _ _ _ _ _ _ _ _ _ At) as G. fold m in G. rewrite K in G. apply some_inj in G.
    destruct (as_ver _ _ _ _ _ _ _ _ _ _ _ _ _ _ At) as (V1 & V2 & V3 & V4 & r0 & R1 & R2 & R3 & _).
    destruct u as [uk [uv ut]]. cbn [fst snd] in *. injection G as <- <-. rewrite <- R3. destruct R1 as (_ & _ & X & _). lia. }
  pose proof (sq_set_cases p now c (sq_of gi H) k v ts) as X.
  assert (Q : fst (sq_set p now c (sq_of gi H) k v ts) <> RErr "No space left on this namespace" ->
     sq_accept (QSet k v ts) (enc_reply (fst (sq_set p now c (sq_of gi H) k v ts))) = true -> ksize m + blen v <= n_maxsize c + oldlen k m).
  { unfold sq_set. change (sq_map (sq_of gi H)) with m. intros Q1 Q2.
    assert (NA : forall e st, sq_accept (QSet k v ts) (enc_reply (fst (RErr e, st : sqs))) = true -> False) by (intros e st; cbn; discriminate).
    unfold err_readonly, err_frozen, err_locked in *.
    assert (OQ : over_quota (n_maxsize c) m k v = false).
    { destruct ts, (p_admin p); cbv beta iota in *; try (exfalso; now apply NA in Q2);
        repeat match type of Q2 with context [if ?b then (RErr ?x, _) else _] =>
          lazymatch b with over_quota _ _ _ _ => fail | _ => destruct b; [exfalso; now apply NA in Q2|] end end;
        destruct (over_quota (n_maxsize c) m k v); auto; cbn [fst] in Q1; congruence. }
    unfold over_quota in OQ. change (2 ^ 64) with 18446744073709551616 in *. rewrite !N.mod_small in OQ by lia.
    destruct (N.eqb_spec (n_maxsize c) 0) as [Z|_]; [lia|]. cbn [negb andb] in OQ. lia. }
  assert (Q' : fst (sq_set p now c (sq_of gi H) k v ts) = RErr "No space left on this namespace" -> n_maxsize c + oldlen k m < ksize m + blen v).
  { unfold sq_set. change (sq_map (sq_of gi H)) with m. intros Q1. unfold err_readonly, err_frozen, err_locked in *.
    assert (OQ : over_quota (n_maxsize c) m k v = true).
    { destruct (over_quota (n_maxsize c) m k v); auto. exfalso.
      destruct ts, (p_admin p); cbv beta iota in *; try discriminate Q1;
        repeat match type of Q1 with context [if ?b then _ else _] => destruct b; [discriminate Q1|] end;
        repeat match type of Q1 with context [match ?b with Some _ => _ | None => _ end] => destruct b as [[? ?]|]; try discriminate Q1 end;
        repeat match type of Q1 with context [if ?b then _ else _] => destruct b; try discriminate Q1 end. }
    unfold over_quota in OQ. change (2 ^ 64) with 18446744073709551616 in *. rewrite !N.mod_small in OQ by lia.
    destruct (N.eqb_spec (n_maxsize c) 0) as [Z|_]; [lia|]. cbn [negb andb] in OQ. lia. }
  destruct (sq_set p now c (sq_of gi H) k v ts) as [r st']. cbn [fst snd] in *. change (sq_map (sq_of gi H)) with m in X.
  destruct X as [(-> & -> & ->)|[(K1 & K2 & -> & ->)|(-> & X)]]; cbn [sq_map].
  - split; [|intros Z; exfalso; cbn in Z; discriminate]. intros A. rewrite ksize_app. cbn [ksize].
    assert (O : oldlen [] m = 0) by (unfold oldlen, m; now rewrite (kget_nil gi H _ _ (si_f _ _ _ _ _ U))).
    specialize (Q ltac:(discriminate) A). lia.
  - split; [|intros Z; exfalso; cbn in Z; discriminate]. intros A. specialize (Q ltac:(discriminate) A).
    pose proof (ksize_kset k v (stamp ts now) m (proj1 WF) K2). lia.
  - change (sq_map (sq_of gi H)) with m. destruct X as [(e & ->)|(-> & _)].
    + split; [intros Z; exfalso; cbn in Z; discriminate|]. intros Z.
      assert (Ee : str e = str "No space left on this namespace").
      { cbn [enc_reply] in Z. unfold hardsend in Z.
        change (str "-No space left on this namespace") with (str "-" ++ str "No space left on this namespace") in Z.
        rewrite <- app_assoc in Z. apply app_inv_head in Z. now apply app_inv_tail in Z. }
      apply str_inj in Ee. subst e. specialize (Q' eq_refl). split; [lia|reflexivity].
    + split; [intros Z; exfalso; vm_compute in Z; discriminate|]. intros Z. exfalso. revert Z. vm_compute. discriminate.
Qed.

(* WORM over any number of requests *)
Lemma sworm_run g n : sq_settings g -> forall ws c s gi H, SA n s gi H -> sq_wf (sq_of gi H) -> n_worm c = true ->
  only_requests ws -> calm g (plain ws) (c, s) ->
  exists o' s' gi' H', run_cevents g (plain ws) (c, s) = Some (o', (c, s')) /\ SA n s' gi' H' /\ tot gi <= tot gi' /\
    forall k v, kget k (livem (flat 0 gi) H) = Some v -> kget k (livem (flat 0 gi') H') = Some v.
Proof.
  intros Hg. induction ws as [|e ws IH]; intros c s gi H U WF W OR C.
  - exists [], s, gi, H. split; [reflexivity|]. split; [exact U|]. split; [lia|auto].
  - pose proof (Forall_inv OR) as Oe. apply Forall_inv_tail in OR. destruct e as [p now q| |]; [|destruct Oe..].
    destruct C as [C1 C2]. cbn [ev_calm plain map run_cevents fst snd] in *.
    destruct (event_sok g n (EReq p now q) c s gi H Hg U C1) as (o1 & c1 & s1 & gi2 & H2 & E1 & U2 & _ & E4 & _).
    destruct (sa_next _ _ _ _ U) as (NX & NB).
    pose proof (fun k v => sworm_step p now c q (sq_of gi H) k v W WF NB) as KS.
    pose proof (sq_wf_step p now c q (sq_of gi H) WF) as WS. destruct (sa_next _ _ _ _ U2) as (_ & NB2).
    cbn [run_cevent] in *. rewrite E1 in *.
    assert (Ec : c1 = c). { cbn [run_event] in E1. destruct (run_req g p now q c s). apply some_inj in E1. congruence. }
    subst c1. cbn [sq_event] in E4. destruct (sq_step p now c q (sq_of gi H)) as [r2 st2]. cbn [fst snd] in *. injection E4 as ->.
    destruct WS as (WF2 & NS & _); [exact NB2|]. specialize (C2 _ _ eq_refl).
    destruct (IH c s1 gi2 H2 U2 WF2 W OR C2) as (o2 & s' & gi' & H' & R1 & R2 & R3 & R4).
    change (map CEv ws) with (plain ws). rewrite R1. exists (o1 ++ o2), s', gi', H'. split; [reflexivity|]. split; [exact R2|].
    cbn [sq_of sq_next] in NS. split; [lia|]. intros k v K. apply R4. exact (KS k v K).
Qed.

Lemma exists_live n s m gi H k : SInv n s m gi H -> key_asked (tot gi) k ->
  command_exists [str "EXISTS"; k] open_cfg s = intreply 1 -> exists v, kget k (livem (flat 0 gi) H) = Some v.
Proof.
  intros U Ka Ex. pose proof (sread_all_spec _ _ _ _ _ k U Ka) as RA.
  unfold read_all, reads_of in RA. cbn [map] in RA. injection RA as _ RA _ _ _. rewrite Ex in RA. cbn [kv_step fst] in RA. unfold kv_read in RA.
  destruct (blen k =? 0); [discriminate|]. destruct (255 <? blen k); [discriminate|]. cbn [n_lock open_cfg N.eqb] in RA.
  destruct (kget k (livem (flat 0 gi) H)) as [v|]; [eauto|]. vm_compute in RA. discriminate.
Qed.

Lemma sworm_history g n c0 es o c s ws : sreached g n c0 (plain es) o c s -> n_worm c = true ->
  only_requests ws -> calm g (plain ws) (c, s) ->
  exists o' s', run_cevents g (plain ws) (c, s) = Some (o', (c, s')) /\
    forall k, key_asked (x_nextentry (ix s)) k -> command_exists [str "EXISTS"; k] open_cfg s = intreply 1 ->
      read_all s' k = read_all s k.
Proof.
  intros R W OR C. destruct (splain_inv _ _ _ _ _ _ _ R) as (_ & _ & gi & H & U & _ & WF).
  destruct (sworm_run g n (proj1 R) ws c s gi H U WF W OR C) as (o' & s' & gi' & H' & R1 & (m' & R2 & _) & R3 & R4).
  exists o', s'. split; [exact R1|]. intros k Ka Ex. destruct U as (m & U & _). rewrite (si_next _ _ _ _ _ U) in Ka.
  destruct (exists_live _ _ _ _ _ _ U Ka Ex) as (v & K).
  rewrite (sread_all_spec _ _ _ _ _ k U Ka), (sread_all_spec _ _ _ _ _ k R2 (asked_le _ _ _ R3 Ka)). apply reads_kget.
  rewrite K. exact (R4 _ _ K).
Qed.

(* keys that were never handed out *)
Lemma sunknown g n c0 es o c s k : sreached g n c0 (plain es) o c s -> blen k = 8 -> x_nextentry (ix s) <= unle k -> unle k < 100000000 ->
  read_all s k = reads_of [] k.
Proof.
  intros R K8 K1 K2. destruct (splain_inv _ _ _ _ _ _ _ R) as (_ & _ & gi & H & (m & U & _) & _ & WF).
  rewrite (sread_all_spec _ _ _ _ _ k U) by (intros _; now right). apply reads_kget. cbn [kget]. apply kget_none. intros Hin.
  destruct (proj2 WF _ Hin) as (i & -> & Hi). rewrite (si_next _ _ _ _ _ U) in K1. cbn [sq_of sq_next] in Hi.
  pose proof (tot_bound _ _ _ _ (si_f _ _ _ _ _ U)). rewrite unle_ident in K1 by lia. lia.
Qed.

(* the hypothesis on histories, computed *)
Definition settled_b (s : est) : bool :=
  (nlen (dk_i (dk s)) =? 1) ||
  match nget (nlen (dk_i (dk s)) - 1) (dk_i (dk s)) with Some f => 29 <? blen f | None => false end.

Definition key_asked_b (next : N) (k : bytes) : bool :=
  negb (blen k =? 8) || (unle k <? next) || (unle k <? 100000000).

Definition req_wf_b (q : req) : bool :=
  let ok ts := match ts with Some t => t <? 2 ^ 63 | None => true end in
  match q with QSet k v ts => (blen v <=? 8388608) && ok ts | QDel k ts => ok ts | _ => true end.

Definition req_calm_b (g : settings) (p : perm) (now : N) (q : req) (c : nscfg) (s : est) : bool :=
  req_wf_b q && forallb (key_asked_b (x_nextentry (ix s))) (keys_of q) && (nlen (dk_i (dk s)) <? 2 ^ 32) &&
  (negb (nlen (dk_i (dk s)) <? nlen (dk_i (dk (snd (run_req g p now q c s))))) || settled_b s).

Definition between_b (W : list dwrite) (j : nat) (n : N) : bool :=
  match nth_error W j with Some (WrI _ _ _) => n =? 0 | _ => true end &&
  match j with O => true | S i => match nth_error W i with Some (MkI _) => false | _ => true end end.

Definition ev_calm_b (g : settings) (e : cevent) (c : nscfg) (s : est) : bool :=
  match e with
  | CEv (EReq p now q) => req_calm_b g p now q c s
  | CEv (ECfg _) => true
  | CEv ERestart => settled_b s
  | CCrash p now q j n =>
      req_calm_b g p now q c s && between_b (new_writes (dk s) (dk (snd (run_req g p now q c s)))) j n &&
      match crash_req g p now q j n c s with Some s' => settled_b s' | None => true end
  end.

Fixpoint calm_b (g : settings) (es : list cevent) (st : nscfg * est) : bool :=
  match es with
  | [] => true
  | e :: r => ev_calm_b g e (fst st) (snd st) &&
              match run_cevent g e st with Some (_, st') => calm_b g r st' | None => true end
  end.

Lemma settled_b_ok s : settled_b s = true -> settled s.
Proof.
  unfold settled_b, settled. intros E. apply orb_prop in E. destruct E as [E|E]; [left; lia|right].
  destruct (nget _ _) as [f|]; [|discriminate]. exists f. split; [reflexivity|lia].
Qed.

Lemma req_calm_b_ok g p now q c s : req_calm_b g p now q c s = true -> req_calm g p now q c s.
Proof.
  unfold req_calm_b, req_calm. intros E. apply andb_prop in E. destruct E as [E E4]. apply andb_prop in E. destruct E as [E E3].
  apply andb_prop in E. destruct E as [E1 E2]. split; [|split; [|split]].
  - destruct q as [k v [t|]|k [t|]| | | | | | | |]; cbn [req_wf_b req_wf ots_ok] in *; auto; try (split; [lia|]); try apply I;
      try (apply andb_prop in E1; destruct E1 as [_ E1]); now apply N.ltb_lt.
  - unfold req_asked. apply Forall_forall. intros k Hk. rewrite forallb_forall in E2. specialize (E2 k Hk). unfold key_asked_b in E2.
    intros K8. rewrite K8 in E2. cbn [N.eqb Pos.eqb negb orb] in E2. lia.
  - now apply N.ltb_lt.
  - unfold adds_file. intros A. apply orb_prop in E4. destruct E4 as [E4|E4]; [|now apply settled_b_ok].
    apply N.ltb_lt in A. rewrite A in E4. discriminate.
Qed.

Lemma calm_b_ok g es : forall st, calm_b g es st = true -> calm g es st.
Proof.
  induction es as [|e es IH]; intros st A; [exact I|]. cbn [calm_b calm] in *. apply andb_prop in A. destruct A as [A1 A2]. split.
  - destruct e as [[p now q|c'|]|p now q j n]; cbn [ev_calm_b ev_calm] in *.
    + now apply req_calm_b_ok.
    + exact I.
    + now apply settled_b_ok.
    + apply andb_prop in A1. destruct A1 as [A1 A3]. apply andb_prop in A1. destruct A1 as [A0 A1]. split; [now apply req_calm_b_ok|]. split.
      * unfold between_b, between_writes in *. apply andb_prop in A1. destruct A1 as [B1 B2]. split.
        -- destruct (nth_error _ j) as [[]|]; auto. now apply N.eqb_eq.
        -- destruct j as [|j]; auto. destruct (nth_error _ j) as [[]|]; auto. discriminate.
      * intros s' E. rewrite E in A3. now apply settled_b_ok.
  - intros o st' E. rewrite E in A2. now apply IH.
Qed.

(* the map of a reachable namespace *)
Lemma rising_nondec f m : rising m -> nondec ((0, f) :: m).
Proof.
  intros R i j a b Ha Hb L. cbn [nget] in Ha, Hb. destruct (N.eqb_spec i 0) as [->|Hi].
  - apply some_inj in Ha. subst a. cbn [fst]. lia.
  - destruct (N.eqb_spec j 0); [lia|]. destruct (N.eq_dec i j) as [->|D]; [rewrite Ha in Hb; apply some_inj in Hb; subst; lia|].
    pose proof (rising_nget m (i - 1) (j - 1) a b R) as X. rewrite ?N.sub_1_r in *. pose proof (X Ha Hb ltac:(lia)). lia.
Qed.

Lemma map_sorted g n c0 es o c s : sreached g n c0 es o c s ->
  exists m, x_seq (ix s) = Some ((0, 0) :: m) /\ nondec ((0, 0) :: m).
Proof.
  intros R. destruct (sreached_inv _ _ _ _ _ _ _ R) as (r & gi & H & (m & U & _) & _ & _).
  destruct (so_shape _ _ (si_map _ _ _ _ _ U)) as (t & -> & Rt). exists t. split; [apply U|]. now apply rising_nondec.
Qed.
