(* Consequences of the refinement for reachable states of a user-key namespace. *)
From Coq Require Import List NArith ZArith Bool Strings.Byte Strings.String Lia ZifyBool ZifyN ZifyNat.
From Verif Require Import Bytes BytesFacts Crc32 Crc32Facts Layout LayoutFacts Store Text TextFacts Commands SpecKV Machine Reach
  Ghost DataFacts TableFacts CheckFacts UserInv UserSteps UserLoad UserReq UserRun.
Import ListNotations.
Open Scope N_scope.
Ltac Zify.zify_post_hook ::= Z.div_mod_to_equations.
Local Notation length := List.length.

(* the invariant behind a reachable state *)
Lemma reached_inv g n c0 es o c s : reached g n c0 es o c s ->
  o = map enc_reply (fst (kv_run es (c0, []))) /\ c = fst (snd (kv_run es (c0, []))) /\
  exists gi H, UInv n s gi H /\ livem (flat 0 gi) H = kv_of c0 es /\ files_lt s.
Proof.
  intros (Hg & W & s0 & (t & Ht & O) & FF & R).
  destruct (run_fresh g n t empty_disk es c0 Hg W eq_refl eq_refl eq_refl Ht) as (s0' & O' & X).
  rewrite O in O'. injection O' as <-. destruct (X FF) as (c' & s' & R1 & R2 & gi & H & R3 & R4 & R5).
  rewrite R in R1. injection R1 as -> -> ->. split; [reflexivity|]. split; [exact R2|].
  exists gi, H. split; [exact R3|]. split; [exact R5|].
  apply (FF (length es) (map enc_reply (fst (kv_run es (c0, [])))) c' s'). now rewrite firstn_all.
Qed.

(* every well-formed history runs *)
Lemma reached_total g n c0 es s0 : settings_ok g -> Forall event_wf es -> created g n s0 ->
  files_fit g es (c0, s0) -> exists o c s, reached g n c0 es o c s /\ run_events g es (c0, s0) = Some (o, (c, s)).
Proof.
  intros Hg W (t & Ht & O) FF.
  destruct (run_fresh g n t empty_disk es c0 Hg W eq_refl eq_refl eq_refl Ht) as (s0' & O' & X).
  rewrite O in O'. injection O' as <-. destruct (X FF) as (c' & s' & R1 & _).
  do 3 eexists. split; [|exact R1]. split; [exact Hg|]. split; [exact W|]. exists s0.
  split; [now exists t|]. split; [exact FF|exact R1].
Qed.

Lemma created_total g n : settings_ok g -> exists s0, created g n s0.
Proof.
  intros Hg. destruct (run_fresh g n empty_table empty_disk [] open_cfg Hg) as (s0 & O & _); auto.
  exists s0, empty_table. split; auto.
Qed.

(* reads are determined by the map *)
Lemma read_all_spec n s gi H k : UInv n s gi H ->
  read_all s k = map (fun q => enc_reply (fst (kv_step (mkPerm false false) 0 open_cfg q (livem (flat 0 gi) H))))
    [QGet k; QExists k; QLength k; QKeytime k; QCheck k].
Proof.
  intros U.
  assert (X : forall q, match q with QGet _ | QExists _ | QLength _ | QKeytime _ | QCheck _ => True | _ => False end ->
    fst (run_req (mkSettings MODE_KV 0) (mkPerm false false) 0 q open_cfg s) =
    enc_reply (fst (kv_step (mkPerm false false) 0 open_cfg q (livem (flat 0 gi) H)))).
  { intros q Hq. destruct q; try contradiction; cbn [run_req kv_step fst argv_of].
    - unfold command_get. apply read_command_ok; [reflexivity|]. now apply (get_single_ok n).
    - unfold command_exists. apply read_command_ok; [reflexivity|].
      pose proof (lookup_spec n s gi H k0 U) as L. destruct (index_get s k0) as [e|]; [|now rewrite L].
      destruct L as (x & w & _ & _ & _ & _ & _ & _ & ->). reflexivity.
    - unfold command_check. apply read_command_ok; [reflexivity|].
      pose proof (lookup_spec n s gi H k0 U) as L. destruct (index_get s k0) as [e|]; [|now rewrite L].
      destruct L as (x & w & _ & _ & _ & -> & _ & L6 & ->).
      destruct L6 as (V1 & V2 & V3 & V4 & r & R1 & R2 & R3 & R4 & R5 & R6 & R7).
      cbn [entry_of e_off e_dataid]. rewrite (data_check_at _ _ _ r (fst (snd w))) by auto.
      rewrite R4, N.eqb_refl. reflexivity.
    - unfold command_length. apply read_command_ok; [reflexivity|].
      pose proof (lookup_spec n s gi H k0 U) as L. destruct (index_get s k0) as [e|]; [|now rewrite L].
      destruct L as (x & w & _ & _ & _ & -> & _ & L6 & ->). destruct L6 as (_ & V2 & _).
      cbn [entry_of e_len]. rewrite V2. now destruct w as [? [? ?]].
    - unfold command_keytime. apply read_command_ok; [reflexivity|].
      pose proof (lookup_spec n s gi H k0 U) as L. destruct (index_get s k0) as [e|]; [|now rewrite L].
      destruct L as (x & w & _ & _ & _ & -> & _ & L6 & ->). destruct L6 as (_ & _ & _ & V4 & _).
      cbn [entry_of e_ts]. rewrite V4. now destruct w as [? [? ?]]. }
  cbn [map]. rewrite <- !X by exact I. reflexivity.
Qed.

Lemma same_reads_inv n s gi H s' gi' H' : UInv n s gi H -> UInv n s' gi' H' ->
  livem (flat 0 gi') H' = livem (flat 0 gi) H -> same_reads s s'.
Proof.
  intros U U' E. split; [|split].
  - intros k. rewrite (read_all_spec _ _ _ _ k U), (read_all_spec _ _ _ _ k U'). now rewrite E.
  - rewrite (ui_cnt _ _ _ _ U), (ui_cnt _ _ _ _ U').
    rewrite <- (kcount_livem (flat 0 gi) H), <- (kcount_livem (flat 0 gi') H'), E; auto;
      eapply forall2_length; eauto using fi_ver, ui_f.
  - rewrite (ui_dsz _ _ _ _ U), (ui_dsz _ _ _ _ U').
    rewrite <- (ksize_livem (dk_d (dk s)) (flat 0 gi) H), <- (ksize_livem (dk_d (dk s')) (flat 0 gi') H'), E; auto.
    apply U'. apply U.
Qed.

(* one more request in a reachable state *)
Lemma reached_req g n c0 es o c s p now q : reached g n c0 es o c s -> req_wf q ->
  exists gi H gi' H', UInv n s gi H /\ livem (flat 0 gi) H = kv_of c0 es /\
    fst (run_req g p now q c s) = enc_reply (fst (kv_step p now c q (kv_of c0 es))) /\
    UInv n (snd (run_req g p now q c s)) gi' H' /\
    livem (flat 0 gi') H' = snd (kv_step p now c q (kv_of c0 es)).
Proof.
  intros R Wq. destruct (reached_inv _ _ _ _ _ _ _ R) as (_ & _ & gi & H & U & E & FL).
  destruct (req_ok g n s gi H p now q c U (proj1 R) Wq FL) as (R1 & _ & gi' & H' & X & R2 & _ & R4 & _).
  rewrite E in *. exists gi, H, gi', H'. repeat (split; [assumption|]). assumption.
Qed.

(* replies are told apart by their encoding *)
Lemma enc_reply_bulk r b : enc_reply r = bulk b -> match r with RBulk _ => True | RNil => True | _ => False end.
Proof. destruct r; cbn; try discriminate; auto. Qed.

Lemma app_inv_len {A} (a b c d : list A) : length a = length c -> a ++ b = c ++ d -> a = c /\ b = d.
Proof.
  revert c; induction a as [|x a IH]; intros [|y c] L E; try discriminate; auto.
  cbn [app] in E. injection E as -> E. injection L as L. destruct (IH _ L E). now subst.
Qed.

Lemma bseqb_iff a b : bseqb a b = true <-> a = b.
Proof. destruct (bseqb_spec a b); split; congruence. Qed.

Lemma nil_not_bulk k : bseqb (enc_reply RNil) (bulk k) = false.
Proof.
  apply bseqb_neq. unfold bulk. cbn [enc_reply]. intros E.
    assert (hd x00 (dec (blen k)) = x2d).
    { assert (E' : str "-1" ++ CRLF = dec (blen k) ++ CRLF ++ k ++ CRLF).
      { change (str "$-1" ++ CRLF) with (str "$" ++ (str "-1" ++ CRLF)) in E. now apply app_inv_head in E. }
      pose proof (dec_nonempty (blen k)) as NE. destruct (dec (blen k)) as [|b l]; [congruence|].
      cbn [str app] in E'. cbn in E'. injection E' as <- _. reflexivity. }
    pose proof (dec_all (blen k)) as DA. pose proof (dec_nonempty (blen k)) as NE.
    destruct (dec (blen k)) as [|b l]; [congruence|]. cbn [hd] in H. subst b. cbn [forallb] in DA.
    apply andb_true_iff in DA. destruct DA as [DA _]. vm_compute in DA. discriminate.
Qed.

Lemma set_reply_cases p now c m k v ts :
  let '(r, m') := kv_set p now c m k v ts in
  (r = RBulk k /\ m' = kput k v (stamp ts now) m /\ 0 < blen k) \/
  (bseqb (enc_reply r) (bulk k) = false /\ m' = m).
Proof.
  unfold kv_set.
  assert (X : forall e : string, bseqb (enc_reply (RErr e)) (bulk k) = false).
  { intros e. apply bseqb_neq. unfold bulk. cbn. discriminate. }
  pose proof (nil_not_bulk k) as Y.
  destruct ts, (p_admin p); auto;
    repeat match goal with
    | |- context [if ?b then _ else _] => destruct b eqn:?; try (right; now auto)
    end; left; repeat split; lia.
Qed.

Lemma created_inv g n s0 : settings_ok g -> created g n s0 -> UInv n s0 [[]] [].
Proof.
  intros Hg (t & Ht & O). assert (T : TInv t n []).
  { constructor.
    - intros h e Hin He. exfalso. eapply Ht; eauto.
    - intros e [].
    - intros h. replace (filter (mine n) (t h)) with (@nil entry); [constructor|].
      specialize (Ht h). induction (t h) as [|e l IH]; auto. cbn [filter]. unfold mine at 1.
      destruct (N.eqb_spec (e_ns e) n) as [E|E]; [exfalso; apply (Ht e); auto; now left|].
      apply IH. intros e' Hin. apply Ht. now right.
    - constructor. }
  destruct (open_fresh (g_mode g) n t empty_disk) as (s & O1 & O2 & O3 & _); auto; [apply Hg|].
  rewrite O in O1. injection O1 as ->. exact O2.
Qed.

(* the file number hypothesis holds for every history shorter than 2^32 - 1 *)
Lemma files_fit_created g n s0 c es : settings_ok g -> Forall event_wf es -> created g n s0 ->
  nlen es < 2 ^ 32 - 1 -> files_fit g es (c, s0).
Proof.
  intros Hg W C L. eapply files_fit_short; eauto using created_inv.
  cbn [nlen]. change (2 ^ 32) with 4294967296 in L. lia.
Qed.

(* ---- the last accepted write ---- *)

Lemma kget_kdel k k' m : kget k (kdel k' m) = if bseqb k' k then None else kget k m.
Proof.
  induction m as [|[a v] m IH]; cbn [kdel filter kget].
  - now destruct (bseqb k' k).
  - cbn [fst]. destruct (bseqb_spec a k') as [->|E]; cbn [negb].
    + change (filter _ m) with (kdel k' m). rewrite IH. now destruct (bseqb k' k).
    + cbn [kget]. change (filter _ m) with (kdel k' m). rewrite IH.
      destruct (bseqb_spec a k) as [->|E']; [|reflexivity].
      destruct (bseqb_spec k' k); [congruence|reflexivity].
Qed.

Lemma kget_app k a b : kget k (a ++ b) = match kget k a with Some v => Some v | None => kget k b end.
Proof. induction a as [|[k' v] a IH]; cbn [app kget]; auto. now destruct (bseqb k' k). Qed.

Lemma kget_kput k k' v ts m : kget k (kput k' v ts m) = if bseqb k' k then Some (v, ts) else kget k m.
Proof.
  unfold kput. rewrite kget_app, kget_kdel. cbn [kget]. destruct (bseqb k' k); [reflexivity|].
  now destruct (kget k m).
Qed.

Lemma del_reply_cases p c m k ts :
  let '(r, m') := kv_del p c m k ts in
  (r = ROk /\ m' = kdel k m) \/ (bseqb (enc_reply r) (hardsend "+OK") = false /\ m' = m).
Proof.
  unfold kv_del.
  destruct ts, (p_admin p), (blen k);
    repeat match goal with
    | |- context [if ?b then _ else _] => destruct b; try (right; split; reflexivity)
    end; auto; destruct (kget k m); try (right; split; reflexivity); destruct (n_worm c); try (right; split; reflexivity); auto.
Qed.

Lemma last_write_step p now c q m k :
  option_map fst (kget k (snd (kv_step p now c q m))) =
  last_write k [(q, enc_reply (fst (kv_step p now c q m)))] (option_map fst (kget k m)).
Proof.
  destruct q as [k' v ts|k' ts| | | | | | | |]; cbn [kv_step snd fst last_write]; auto.
  - pose proof (set_reply_cases p now c m k' v ts) as X. destruct (kv_set p now c m k' v ts) as [r m'].
    cbn [fst snd]. destruct X as [(-> & -> & _)|(X & ->)].
    + rewrite kget_kput. change (enc_reply (RBulk k')) with (bulk k'). rewrite bseqb_refl, andb_true_r.
      now destruct (bseqb k' k).
    + now rewrite X, andb_false_r.
  - pose proof (del_reply_cases p c m k' ts) as X. destruct (kv_del p c m k' ts) as [r m'].
    cbn [fst snd]. destruct X as [(-> & ->)|(X & ->)].
    + rewrite kget_kdel. change (enc_reply ROk) with (hardsend "+OK"). rewrite bseqb_refl, andb_true_r.
      now destruct (bseqb k' k).
    + now rewrite X, andb_false_r.
Qed.

Lemma last_write_cons k x tr cur : last_write k (x :: tr) cur = last_write k tr (last_write k [x] cur).
Proof. destruct x as [[] r]; reflexivity. Qed.

Lemma last_write_run k es : forall c m,
  option_map fst (kget k (snd (snd (kv_run es (c, m))))) =
  last_write k (combine (requests es) (map enc_reply (fst (kv_run es (c, m))))) (option_map fst (kget k m)).
Proof.
  induction es as [|e es IH]; intros c m; [reflexivity|]. cbn [kv_run].
  destruct e as [p now q|c'|]; cbn [kv_event requests].
  - pose proof (last_write_step p now c q m k) as S. destruct (kv_step p now c q m) as [r m'].
    specialize (IH c m'). destruct (kv_run es (c, m')) as [o2 [c2 m2]]. cbn [fst snd map app combine] in *.
    rewrite last_write_cons, IH, S. reflexivity.
  - specialize (IH c' m). destruct (kv_run es (c', m)) as [o2 [c2 m2]]. exact IH.
  - specialize (IH (unlocked c) m). destruct (kv_run es (unlocked c, m)) as [o2 [c2 m2]]. exact IH.
Qed.

Lemma get_last_write g n c0 es o c s p now k : reached g n c0 es o c s ->
  0 < blen k -> blen k <= 255 -> n_lock c <> 2 ->
  fst (run_req g p now (QGet k) c s) =
  match last_write k (combine (requests es) o) None with Some v => bulk v | None => hardsend "$-1" end.
Proof.
  intros R K1 K2 L. destruct (reached_inv _ _ _ _ _ _ _ R) as (Ho & _ & _).
  destruct (reached_req _ _ _ _ _ _ _ p now (QGet k) R I) as (gi & H & gi' & H' & _ & _ & E & _).
  rewrite E. cbn [kv_step fst]. unfold kv_read.
  destruct (N.eqb_spec (blen k) 0); [lia|]. destruct (N.ltb_spec 255 (blen k)); [lia|].
  destruct (N.eqb_spec (n_lock c) 2); [lia|].
  pose proof (last_write_run k es c0 []) as LW. cbn [kget option_map] in LW. rewrite <- Ho in LW.
  unfold kv_of. rewrite <- LW. now destruct (kget k (snd (snd (kv_run es (c0, []))))) as [[v t]|].
Qed.

(* ---- restarts ---- *)

Lemma unlocked_id c : n_lock c = 0 -> unlocked c = c.
Proof. destruct c as [a1 a2 a3 a4 a5 a6]. cbn [n_lock]. intros ->. reflexivity. Qed.

Lemma kv_run_strip es : never_locked es -> forall c m, n_lock c = 0 -> kv_run (strip es) (c, m) = kv_run es (c, m).
Proof.
  induction 1 as [|e es He _ IH]; intros c m L; [reflexivity|].
  destruct e as [p now q|c'|]; cbn [strip kv_run kv_event].
  - destruct (kv_step p now c q m) as [r m']. now rewrite IH.
  - now rewrite IH.
  - rewrite unlocked_id by auto. rewrite IH by auto. now destruct (kv_run es (c, m)).
Qed.

Lemma restart_invisible g n n' c0 es o c s o' c' s' :
  reached g n c0 es o c s -> reached g n' c0 (strip es) o' c' s' -> never_locked es -> n_lock c0 = 0 ->
  o = o' /\ c = c' /\ same_reads s' s.
Proof.
  intros R R' NL L. destruct (reached_inv _ _ _ _ _ _ _ R) as (E1 & E2 & gi & H & U & E3 & _).
  destruct (reached_inv _ _ _ _ _ _ _ R') as (E1' & E2' & gi' & H' & U' & E3' & _).
  unfold kv_of in *. rewrite kv_run_strip in * by auto. split; [congruence|]. split; [congruence|].
  assert (livem (flat 0 gi) H = livem (flat 0 gi') H') as E by congruence.
  split; [|split].
  - intros k. rewrite (read_all_spec _ _ _ _ k U), (read_all_spec _ _ _ _ k U'). now rewrite E.
  - rewrite (ui_cnt _ _ _ _ U), (ui_cnt _ _ _ _ U').
    rewrite <- (kcount_livem (flat 0 gi) H), <- (kcount_livem (flat 0 gi') H'), E; auto;
      eapply forall2_length; eauto using fi_ver, ui_f.
  - rewrite (ui_dsz _ _ _ _ U), (ui_dsz _ _ _ _ U').
    rewrite <- (ksize_livem (dk_d (dk s)) (flat 0 gi) H), <- (ksize_livem (dk_d (dk s')) (flat 0 gi') H'), E; auto.
    apply U'. apply U.
Qed.

(* ---- counters ---- *)

Lemma counters g n c0 es o c s : reached g n c0 es o c s ->
  x_entries (ix s) = kcount (kv_of c0 es) mod 2 ^ 64 /\ x_datasize (ix s) = ksize (kv_of c0 es) mod 2 ^ 64.
Proof.
  intros R. destruct (reached_inv _ _ _ _ _ _ _ R) as (_ & _ & gi & H & U & E & _).
  rewrite <- E, (ui_cnt _ _ _ _ U), (ui_dsz _ _ _ _ U).
  rewrite (kcount_livem (flat 0 gi) H), (ksize_livem (dk_d (dk s)) (flat 0 gi) H); [split; reflexivity|apply U|].
  eapply forall2_length. apply U.
Qed.

(* ---- refused requests ---- *)

Lemma refused_no_effect g n c0 es o c s p now q : reached g n c0 es o c s -> req_wf q ->
  is_accept q (fst (run_req g p now q c s)) = false -> same_reads s (snd (run_req g p now q c s)).
Proof.
  intros R W A. destruct (reached_req _ _ _ _ _ _ _ p now q R W) as (gi & H & gi' & H' & U & E & E1 & U' & E2).
  eapply same_reads_inv; eauto. rewrite E2, E. rewrite E1 in A.
  destruct q as [k' v ts|k' ts| | | | | | | |]; auto; cbn [kv_step is_accept] in *.
  - pose proof (set_reply_cases p now c (kv_of c0 es) k' v ts) as X.
    destruct (kv_set p now c (kv_of c0 es) k' v ts) as [r m']. cbn [fst snd] in *.
    destruct X as [(-> & _)|(_ & ->)]; auto. change (enc_reply (RBulk k')) with (bulk k') in A.
    rewrite bseqb_refl in A. discriminate.
  - pose proof (del_reply_cases p c (kv_of c0 es) k' ts) as X.
    destruct (kv_del p c (kv_of c0 es) k' ts) as [r m']. cbn [fst snd] in *.
    destruct X as [(-> & _)|(_ & ->)]; auto. vm_compute in A. discriminate.
Qed.

(* ---- worm ---- *)

Lemma worm_step p now c q m k v : n_worm c = true -> kget k m = Some v ->
  kget k (snd (kv_step p now c q m)) = Some v.
Proof.
  intros W K. destruct q as [k' v' ts|k' ts| | | | | | | |]; cbn [kv_step snd]; auto.
  - destruct (bseqb_spec k' k) as [->|E].
    + unfold kv_set. rewrite K, W. cbv beta iota. destruct ts, (p_admin p); auto;
      repeat match goal with |- context [if ?b then _ else _] => destruct b; [exact K|] end; exact K.
    + pose proof (set_reply_cases p now c m k' v' ts) as X. destruct (kv_set p now c m k' v' ts) as [r m'].
      cbn [snd]. destruct X as [(_ & -> & _)|(_ & ->)]; auto.
      rewrite kget_kput. destruct (bseqb_spec k' k); [congruence|exact K].
  - unfold kv_del. rewrite W. destruct ts, (p_admin p), (blen k'); auto;
      repeat match goal with |- context [if ?b then (_, _) else _] => destruct b; [exact K|] end;
      destruct (kget k' m); exact K.
Qed.

Lemma worm_run es : only_requests es -> forall c m k v, n_worm c = true -> kget k m = Some v ->
  kget k (snd (snd (kv_run es (c, m)))) = Some v.
Proof.
  induction 1 as [|e es He _ IH]; intros c m k v W K; [exact K|].
  destruct e as [p now q|c'|]; try contradiction. cbn [kv_run kv_event].
  pose proof (worm_step p now c q m k v W K) as S. destruct (kv_step p now c q m) as [r m'].
  specialize (IH c m' k v W S). now destruct (kv_run es (c, m')) as [o2 [c2 m2]].
Qed.

Lemma exists_probe n s gi H k : UInv n s gi H ->
  command_exists [str "EXISTS"; k] open_cfg s = intreply 1 -> exists v, kget k (livem (flat 0 gi) H) = Some v.
Proof.
  intros U E. pose proof (read_all_spec _ _ _ _ k U) as R. unfold read_all in R. cbn [map] in R.
  injection R as _ R _ _ _. rewrite E in R. cbn [kv_step fst] in R. unfold kv_read in R.
  destruct (blen k =? 0); [discriminate|]. destruct (255 <? blen k); [discriminate|]. cbn [n_lock open_cfg N.eqb] in R.
  destruct (kget k (livem (flat 0 gi) H)) as [v|]; [eauto|]. vm_compute in R. discriminate.
Qed.

Lemma worm_keeps g n c0 es o c s ws : reached g n c0 es o c s -> n_worm c = true ->
  only_requests ws -> Forall event_wf ws -> files_fit g ws (c, s) ->
  exists o' c' s', run_events g ws (c, s) = Some (o', (c', s')) /\
    forall k, command_exists [str "EXISTS"; k] open_cfg s = intreply 1 -> read_all s' k = read_all s k.
Proof.
  intros R W OR WF FF. destruct (reached_inv _ _ _ _ _ _ _ R) as (_ & _ & gi & H & U & _ & _).
  destruct (run_ok g n ws (proj1 R) WF c s gi H U FF) as (o' & c' & s' & gi' & H' & X & R1 & U' & _ & _ & _ & R6 & _).
  exists o', c', s'. split; [exact R1|]. intros k Ex. destruct (exists_probe _ _ _ _ _ U Ex) as (v & K).
  pose proof (worm_run ws OR c _ k v W K) as K'.
  assert (E : snd (snd (kv_run ws (c, livem (flat 0 gi) H))) = livem (flat 0 gi') H') by (now rewrite R6).
  rewrite E in K'.
  rewrite (read_all_spec _ _ _ _ k U), (read_all_spec _ _ _ _ k U'). cbn [map kv_step fst]. unfold kv_read.
  now rewrite K, K'.
Qed.

(* ---- quota ---- *)

Lemma ksize_app a b : ksize (a ++ b) = ksize a + ksize b.
Proof. induction a as [|[k [v t]] a IH]; cbn [app ksize]; lia. Qed.

Definition keys_nodup (m : kv) : Prop := NoDup (map fst m).

Lemma in_kdel k m x : In x (map fst (kdel k m)) -> In x (map fst m) /\ x <> k.
Proof.
  intros H. apply in_map_iff in H. destruct H as (p & <- & H). apply filter_In in H. destruct H as [H1 H2].
  split; [now apply in_map|]. destruct (bseqb_spec (fst p) k); [discriminate|auto].
Qed.

Lemma nodup_kdel k m : keys_nodup m -> keys_nodup (kdel k m).
Proof.
  unfold keys_nodup. induction m as [|p m IH]; cbn [kdel filter map]; intros H; auto.
  inversion H; subst. destruct (negb _); cbn [map]; auto. constructor; auto.
  intros X. apply in_kdel in X. tauto.
Qed.

Lemma nodup_kput k v ts m : keys_nodup m -> keys_nodup (kput k v ts m).
Proof.
  intros H. unfold keys_nodup, kput. rewrite map_app. apply NoDup_app_disj.
  - now apply nodup_kdel.
  - cbn [map fst]. constructor; [auto|constructor].
  - intros x H1 [<-|[]]. apply in_kdel in H1. cbn [fst] in H1. tauto.
Qed.

Lemma ksize_kdel k m : keys_nodup m -> ksize (kdel k m) + oldlen k m = ksize m.
Proof.
  unfold oldlen, keys_nodup. induction m as [|[a [v t]] m IH]; intros H; [reflexivity|].
  inversion H as [|? ? Hn Hd]; subst. cbn [kdel filter kget fst ksize].
  destruct (bseqb_spec a k) as [->|E]; cbn [negb].
  - change (filter _ m) with (kdel k m). specialize (IH Hd).
    destruct (kget k m) as [[v' t']|] eqn:K; [|rewrite kdel_none by auto; lia].
    exfalso. apply Hn. clear -K. induction m as [|[a w] m IH]; [discriminate|]. cbn [kget] in K. cbn [map fst].
    destruct (bseqb_spec a k) as [->|]; [now left|]. right. auto.
  - cbn [ksize]. change (filter _ m) with (kdel k m). specialize (IH Hd).
    destruct (kget k m) as [[v' t']|]; lia.
Qed.

Lemma ksize_kput k v ts m : keys_nodup m -> ksize (kput k v ts m) + oldlen k m = ksize m + blen v.
Proof. intros H. unfold kput. rewrite ksize_app. cbn [ksize]. pose proof (ksize_kdel k m H). lia. Qed.

Lemma nodup_step p now c q m : keys_nodup m -> keys_nodup (snd (kv_step p now c q m)).
Proof.
  intros H. destruct q as [k' v ts|k' ts| | | | | | | |]; cbn [kv_step snd]; auto.
  - pose proof (set_reply_cases p now c m k' v ts) as X. destruct (kv_set p now c m k' v ts) as [r m']. cbn [snd].
    destruct X as [(_ & -> & _)|(_ & ->)]; auto using nodup_kput.
  - pose proof (del_reply_cases p c m k' ts) as X. destruct (kv_del p c m k' ts) as [r m']. cbn [snd].
    destruct X as [(_ & ->)|(_ & ->)]; auto using nodup_kdel.
Qed.

Lemma nodup_run es : forall c m, keys_nodup m -> keys_nodup (snd (snd (kv_run es (c, m)))).
Proof.
  induction es as [|e es IH]; intros c m H; [exact H|]. cbn [kv_run].
  destruct e as [p now q|c'|]; cbn [kv_event].
  - pose proof (nodup_step p now c q m H) as S. destruct (kv_step p now c q m) as [r m'].
    specialize (IH c m' S). now destruct (kv_run es (c, m')) as [o2 [c2 m2]].
  - specialize (IH c' m H). now destruct (kv_run es (c', m)) as [o2 [c2 m2]].
  - specialize (IH (unlocked c) m H). now destruct (kv_run es (unlocked c, m)) as [o2 [c2 m2]].
Qed.

Lemma nodup_of c0 es : keys_nodup (kv_of c0 es).
Proof. apply nodup_run. constructor. Qed.

Lemma run_snoc es e st : snd (kv_run (es ++ [e]) st) = snd (kv_event e (snd (kv_run es st))).
Proof.
  revert st; induction es as [|a es IH]; intros st; cbn [app kv_run].
  - cbn [snd]. destruct (kv_event e st) as [o [c m]]. reflexivity.
  - destruct (kv_event a st) as [o1 st1]. specialize (IH st1). destruct (kv_run (es ++ [e]) st1).
    destruct (kv_run es st1). exact IH.
Qed.

(* an accepted SET fits; a SET is refused for space only if it does not fit *)
Lemma quota g n c0 es o c s p now k v ts : reached g n c0 es o c s -> req_wf (QSet k v ts) ->
  n_maxsize c <> 0 -> n_maxsize c + 2 ^ 32 <= 2 ^ 64 -> ksize (kv_of c0 es) + 2 ^ 32 <= 2 ^ 64 ->
  let r := fst (run_req g p now (QSet k v ts) c s) in
  let m := kv_of c0 es in
  let m' := kv_of c0 (es ++ [EReq p now (QSet k v ts)]) in
  (r = bulk k -> ksize m' <= n_maxsize c /\ ksize m' + oldlen k m = ksize m + blen v) /\
  (r = hardsend "-No space left on this namespace" -> n_maxsize c < ksize m + blen v - oldlen k m /\ m' = m).
Proof.
  intros R W M0 M1 S1 r m m'.
  destruct (reached_inv _ _ _ _ _ _ _ R) as (_ & Hc & gi0 & H0 & U0 & E0 & _).
  destruct (reached_req _ _ _ _ _ _ _ p now _ R W) as (gi & H & gi' & H' & U & E & E1 & U' & E2).
  fold r in E1. fold m in E1, E2, S1. cbn [kv_step] in E1, E2.
  pose proof (ksize_kdel k m (nodup_of c0 es)) as OL.
  change (2 ^ 64) with 18446744073709551616 in *. change (2 ^ 32) with 4294967296 in *.
  assert (EM : m' = snd (kv_set p now c m k v ts)).
  { unfold m', kv_of. rewrite run_snoc. fold m. change (snd (snd (kv_run es (c0, [])))) with m.
    destruct (kv_run es (c0, [])) as [oo [cc mm]] eqn:ER. cbn [snd fst] in *. subst cc.
    unfold m, kv_of. rewrite ER. cbn [snd kv_event kv_step]. now destruct (kv_set p now c mm k v ts). }
  rewrite EM. cbn [req_wf] in W. destruct W as [W _].
  unfold kv_set in *. unfold over_quota in *. change (2 ^ 64) with 18446744073709551616 in *.
  assert (OV : oldlen k m <= ksize m) by lia.
  assert (OB' : oldlen k m < 4294967296).
  { unfold oldlen, m. rewrite <- E. destruct (kget k (livem (flat 0 gi) H)) as [[w t]|] eqn:K; [|lia].
    pose proof (lookup_spec n s gi H k U) as L. destruct (index_get s k) as [e|]; [|congruence].
    destruct L as (x & u & _ & _ & _ & _ & L5 & L6 & L7). rewrite K in L7. injection L7 as L7. subst.
    destruct L6 as (V1 & V2 & V3 & V4 & r0 & R1 & R2 & R3 & _). cbn [fst snd] in *.
    destruct u as [uk [uv ut]]. cbn [fst snd] in *. injection L7 as -> ->. rewrite <- R3.
    destruct R1 as (_ & _ & X & _). lia. }
  assert (GOAL : forall rr mm, (rr, mm) = 
     (if 255 <? blen k then (RErr "Key too large", m)
      else if negb (p_writable p) then (err_readonly, m)
      else if n_lock c =? 2 then (err_frozen, m)
      else if negb (n_lock c =? 0) then (err_locked, m)
      else if (match kget k m with Some _ => n_worm c | None => false end)
      then (RErr "Namespace is protected by worm mode", m)
      else if negb (n_maxsize c =? 0) && ((n_maxsize c + oldlen k m) mod 18446744073709551616 <? (ksize m + blen v) mod 18446744073709551616)
      then (RErr "No space left on this namespace", m)
      else if blen k =? 0 then (RErr "Invalid argument, key needed", m)
      else if (match kget k m with Some (v', _) => bseqb v' v | None => false end) then (RNil, m)
      else (RBulk k, kput k v (stamp ts now) m)) ->
     (enc_reply rr = bulk k -> ksize mm <= n_maxsize c /\ ksize mm + oldlen k m = ksize m + blen v) /\
     (enc_reply rr = hardsend "-No space left on this namespace" -> n_maxsize c < ksize m + blen v - oldlen k m /\ mm = m)).
  { intros rr mm.
    assert (NB : forall e : string, enc_reply (RErr e) <> bulk k).
    { intros e. unfold bulk. cbn. discriminate. }
    destruct (255 <? blen k); [intros [= -> ->]; split; [intros X; now apply NB in X|intros X; exfalso; revert X; vm_compute; discriminate]|].
    destruct (negb (p_writable p)); [intros [= -> ->]; split; [intros X; now apply NB in X|intros X; exfalso; revert X; vm_compute; discriminate]|].
    destruct (n_lock c =? 2); [intros [= -> ->]; split; [intros X; now apply NB in X|intros X; exfalso; revert X; vm_compute; discriminate]|].
    destruct (negb (n_lock c =? 0)); [intros [= -> ->]; split; [intros X; now apply NB in X|intros X; exfalso; revert X; vm_compute; discriminate]|].
    destruct (match kget k m with Some _ => n_worm c | None => false end);
      [intros [= -> ->]; split; [intros X; now apply NB in X|intros X; exfalso; revert X; vm_compute; discriminate]|].
    rewrite !N.mod_small by lia.
    destruct (N.eqb_spec (n_maxsize c) 0) as [X|_]; [lia|]. cbn [negb andb].
    destruct (N.ltb_spec (n_maxsize c + oldlen k m) (ksize m + blen v)) as [Hlt|Hge].
    { intros [= -> ->]; split; [intros X; now apply NB in X|]. intros _. split; [lia|reflexivity]. }
    destruct (blen k =? 0); [intros [= -> ->]; split; [intros X; now apply NB in X|intros X; exfalso; revert X; vm_compute; discriminate]|].
    destruct (match kget k m with Some (v', _) => bseqb v' v | None => false end) eqn:KV.
    { intros [= -> ->]. split; [|intros X; exfalso; revert X; vm_compute; discriminate]. intros X. exfalso.
      pose proof (nil_not_bulk k) as Y. rewrite X, bseqb_refl in Y. discriminate. }
    intros [= -> ->]. split.
    - intros _. pose proof (ksize_kput k v (stamp ts now) m (nodup_of c0 es)). split; lia.
    - intros X. exfalso. cbn in X. discriminate. }
  rewrite E1. destruct ts, (p_admin p).
  - apply GOAL. symmetry. apply surjective_pairing.
  - split; [intros X; exfalso; cbn in X; discriminate|intros X; exfalso; revert X; vm_compute; discriminate].
  - apply GOAL. symmetry. apply surjective_pairing.
  - apply GOAL. symmetry. apply surjective_pairing.
Qed.

(* ---- locations ---- *)

Lemma offsets_fit g n c0 es o c s v : reached g n c0 es o c s -> blen v <= 8388608 ->
  let s1 := if g_datasize g <? dsize (dk s) (d_dataid (dt s)) + blen v then jump_next s else s in
  dsize (dk s1) (d_dataid (dt s1)) < 2 ^ 32 /\ isize (dk s1) (x_indexid (ix s1)) < 2 ^ 32.
Proof.
  intros R Hv s1. destruct (reached_inv _ _ _ _ _ _ _ R) as (_ & _ & gi & H & U & _ & FL).
  destruct R as [[_ Hg] _]. change (2 ^ 31) with 2147483648 in Hg. change (2 ^ 32) with 4294967296.
  assert (S1 : exists gi1, UInv n s1 gi1 H /\ dsize (dk s1) (d_dataid (dt s1)) <= 2147483648).
  { unfold s1. destruct (N.ltb_spec (g_datasize g) (dsize (dk s) (d_dataid (dt s)) + blen v)) as [Hj|Hj].
    - unfold files_lt in FL. rewrite (nlen_files _ _ _ _ U) in FL.
      destruct (uinv_jump n s gi H U FL) as (J1 & J2 & J3 & J4 & J5 & J6).
      exists (gi ++ [[]]). split; [exact J1|]. rewrite J5, J6. lia.
    - exists gi. split; [exact U|]. lia. }
  destruct S1 as (gi1 & U1 & D1). split; [lia|].
  destruct (cur_split gi1 (x_indexid (ix s1)) (ui_id _ _ _ _ U1)) as (g1 & l & Eg & Hl).
  pose proof (ui_f _ _ _ _ U1) as F.
  pose proof (fi_room _ _ _ _ F g1 l Eg) as RO. rewrite Hl in RO. rewrite (room_dsize _ _ _ _ U1) in RO.
  assert (IS : isize (dk s1) (x_indexid (ix s1)) = 29 + isz l).
  { unfold isize, ifile. rewrite (fi_files _ _ _ _ F), Eg, <- Hl, nget_enc_ifs. apply blen_enc_if. }
  lia.
Qed.

Lemma enc_drec_split r : enc_drec r = (le 1 (dr_idlen r) ++ le 4 (dr_datalen r) ++ le 4 (dr_prev r) ++ le 4 (dr_crc r)
      ++ le 1 (dr_flags r) ++ le 4 (dr_ts r)) ++ dr_id r.
Proof. unfold enc_drec. now rewrite <- !app_assoc. Qed.

Lemma located g n c0 es o c s k v ts : reached g n c0 es o c s -> kget k (kv_of c0 es) = Some (v, ts) ->
  exists e file, index_get s k = Some e /\ dfile (dk s) (e_dataid e) = Some file /\
    fread file (e_off e + 18) (blen k) = k /\ fread file (e_off e + 18 + blen k) (e_len e) = v /\
    e_off e < 2 ^ 32 /\ e_idxoff e < 2 ^ 32.
Proof.
  intros R K. destruct (reached_inv _ _ _ _ _ _ _ R) as (_ & _ & gi & H & U & E & FL).
  pose proof (lookup_spec n s gi H k U) as L. destruct (index_get s k) as [e|]; [|congruence].
  destruct L as (x & w & L1 & L2 & L3 & -> & L5 & L6 & L7). rewrite E, K in L7. apply some_inj in L7.
  pose proof (loc_wf_in _ _ _ _ _ (ui_f _ _ _ _ U) L1) as W.
  destruct L6 as (V1 & V2 & V3 & V4 & r & R1 & R2 & R3 & R4 & R5 & R6 & (pre & post & P1 & P2)).
  exists (entry_of n x), (pre ++ enc_drec r ++ fst (snd w) ++ post). cbn [entry_of e_dataid e_off e_len e_idxoff].
  split; [reflexivity|]. split; [exact P1|].
  assert (RK : dr_id r = k) by congruence.
  assert (RV : fst (snd w) = v) by (rewrite <- L7; reflexivity).
  split; [|split; [|split; [apply W|]]].
  - rewrite (enc_drec_split r), <- app_assoc, <- P2, app_assoc, RK.
    replace (blen pre + 18) with (blen (pre ++ le 1 (dr_idlen r) ++ le 4 (dr_datalen r) ++ le 4 (dr_prev r) ++ le 4 (dr_crc r)
      ++ le 1 (dr_flags r) ++ le 4 (dr_ts r))) by (rewrite !blen_app, !blen_le; lia).
    now apply fread_app.
  - rewrite V2, RV. rewrite app_assoc. replace (it_off (l_it x) + 18 + blen k) with (blen (pre ++ enc_drec r))
      by (rewrite blen_app, blen_enc_drec, RK; lia).
    now apply fread_app.
  - apply W.
Qed.

(* ---- locks, read-only sessions: any state, any argument list ---- *)

Lemma set_denied g p now argv c s : n_lock c = 1 \/ n_lock c = 2 \/ p_writable p = false ->
  snd (command_set g p now argv c s) = s.
Proof.
  intros H. unfold command_set. destruct (if argc argv =? 4 then _ else _); [reflexivity|].
  destruct (MAX_KEY_LENGTH <? _); [reflexivity|]. unfold is_frozen, is_locked, NS_LOCK_READ_WRITE, NS_LOCK_UNLOCKED.
  destruct H as [->|[->| ->]]; destruct (negb (p_writable p)); reflexivity.
Qed.

Lemma del_denied p now argv c s : n_lock c = 1 \/ n_lock c = 2 \/ p_writable p = false ->
  snd (command_del p now argv c s) = s.
Proof.
  intros H. unfold command_del. destruct (if argc argv =? 3 then _ else _); [reflexivity|].
  destruct (MAX_KEY_LENGTH <? _); [reflexivity|]. unfold is_frozen, is_locked, NS_LOCK_READ_WRITE, NS_LOCK_UNLOCKED.
  destruct H as [->|[->| ->]]; destruct (negb (p_writable p)); reflexivity.
Qed.

Lemma read_frozen argv c f f' : n_lock c = 2 -> read_command argv c f = read_command argv c f'.
Proof. intros H. unfold read_command, is_frozen. rewrite H. reflexivity. Qed.

Lemma mget_frozen argv c s s' : n_lock c = 2 -> command_mget argv c s = command_mget argv c s'.
Proof. intros H. unfold command_mget, is_frozen. rewrite H. reflexivity. Qed.

Lemma mget_gets ks c s : ks <> [] -> Forall (fun k => 0 < blen k /\ blen k <= 255) ks -> n_lock c <> 2 ->
  command_mget (str "MGET" :: ks) c s
  = arrayhdr (nlen ks) ++ List.concat (map (fun k => command_get [str "GET"; k] c s) ks).
Proof.
  intros NE K L. unfold command_mget, argc. cbn [nlen tl].
  assert (0 < nlen ks) by (destruct ks; [congruence|cbn [nlen]; lia]).
  destruct (N.ltb_spec (N.succ (nlen ks)) 2); [lia|]. replace (N.succ (nlen ks) - 1) with (nlen ks) by lia.
  assert (EX : existsb (fun k => MAX_KEY_LENGTH <? blen k) ks = false).
  { clear -K. induction K as [|k ks H _ IH]; [reflexivity|]. cbn [existsb]. rewrite IH. unfold MAX_KEY_LENGTH. lia. }
  rewrite EX. unfold is_frozen, NS_LOCK_READ_WRITE. destruct (N.eqb_spec (n_lock c) 2); [congruence|].
  f_equal. f_equal. clear -K L. induction K as [|k ks H _ IH]; [reflexivity|]. cbn [map]. rewrite <- IH. f_equal.
  unfold command_get, read_command. rewrite args_validate_2 by reflexivity.
  destruct (N.eqb_spec (blen k) 0); [lia|]. unfold arg. cbn [nth]. unfold MAX_KEY_LENGTH.
  destruct (N.ltb_spec 255 (blen k)); [lia|]. unfold is_frozen, NS_LOCK_READ_WRITE.
  destruct (N.eqb_spec (n_lock c) 2); [congruence|]. reflexivity.
Qed.
