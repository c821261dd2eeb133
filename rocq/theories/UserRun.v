(* Runs of events on a user-key namespace refine SpecKV. *)
From Coq Require Import List NArith ZArith Bool Strings.Byte Strings.String Lia ZifyBool ZifyN ZifyNat.
From Verif Require Import Bytes BytesFacts Crc32 Crc32Facts Layout LayoutFacts Store Text TextFacts Commands SpecKV Machine Reach
  Ghost DataFacts TableFacts CheckFacts UserInv UserSteps UserLoad UserReq.
Import ListNotations.
Open Scope N_scope.
Ltac Zify.zify_post_hook ::= Z.div_mod_to_equations.
Local Notation length := List.length.

Lemma files_fit_now g es c s : files_fit g es (c, s) -> files_lt s.
Proof. intros F. exact (F O [] c s eq_refl). Qed.

Lemma files_fit_step g e es st o st1 : files_fit g (e :: es) st -> run_event g e st = Some (o, st1) ->
  files_fit g es st1.
Proof.
  intros F E j o' c s R. apply (F (S j) (o ++ o') c s). cbn [firstn run_events]. rewrite E, R. reflexivity.
Qed.

Lemma reopen_ok g n s gi H : g_ok g -> UInv n s gi H ->
  exists s', reopen g s = Some s' /\ UInv n s' gi H /\ tframe n (tb s) (tb s') /\
    dk_d (dk s') = dk_d (dk s) /\ dk_i (dk s') = dk_i (dk s).
Proof.
  intros [Hm _] U. unfold reopen, index_clean_namespace. rewrite (ui_mode _ _ _ _ U), (ui_ns _ _ _ _ U).
  change (MODE_KV =? MODE_SEQ) with false. cbn iota.
  destruct (open_ok (g_mode g) n (table_clean (tb s) n) (dk s) gi H) as (s' & R1 & R2 & R3 & R4 & R5 & R6 & _); auto.
  - apply U.
  - pose proof (ui_id _ _ _ _ U). lia.
  - left. split; [apply U|apply U].
  - apply U.
  - apply tinv_clean.
  - exists s'. split; [exact R1|]. split; [exact R2|]. split.
    + eapply tframe_trans; [apply tframe_clean|exact R3].
    + split; [apply R6; apply U|exact R5].
Qed.

Lemma event_ok g n e c s gi H : g_ok g -> event_wf e -> UInv n s gi H -> files_lt s ->
  exists o c' s' gi' H' X, run_event g e (c, s) = Some (o, (c', s')) /\
    UInv n s' gi' H' /\ H' = H ++ X /\ tframe n (tb s) (tb s') /\ dext (dk_d (dk s)) (dk_d (dk s')) /\
    kv_event e (c, livem (flat 0 gi) H) = (fst (kv_event e (c, livem (flat 0 gi) H)), (c', livem (flat 0 gi') H')) /\
    o = map enc_reply (fst (kv_event e (c, livem (flat 0 gi) H))) /\ nlen gi' <= nlen gi + 1.
Proof.
  intros Hg We U Hfl. destruct e as [p now q|c1|]; cbn [run_event kv_event event_wf] in *.
  - pose proof (req_ok g n s gi H p now q c U Hg We Hfl) as (R1 & _ & gi' & H' & X & R2 & R3 & R4 & R5 & R6 & _ & _ & R8).
    destruct (run_req g p now q c s) as [r s']. destruct (kv_step p now c q (livem (flat 0 gi) H)) as [r' m'].
    cbn [fst snd] in *. exists [r], c, s', gi', H', X. cbn [map fst].
    split; [reflexivity|]. split; [exact R2|]. split; [exact R3|]. split; [exact R5|]. split; [exact R6|].
    split; [now rewrite R4|]. split; [now rewrite R1|exact R8].
  - exists [], c1, s, gi, H, []. rewrite app_nil_r. split; [reflexivity|]. split; [exact U|]. split; [reflexivity|].
    split; [apply tframe_refl|]. split; [apply dext_refl|]. split; [reflexivity|]. split; [reflexivity|lia].
  - destruct (reopen_ok g n s gi H Hg U) as (s' & R1 & R2 & R3 & R4 & R5). rewrite R1.
    exists [], (unlocked c), s', gi, H, []. rewrite app_nil_r. split; [reflexivity|]. split; [exact R2|].
    split; [reflexivity|]. split; [exact R3|]. split; [rewrite R4; apply dext_refl|]. split; [reflexivity|]. split; [reflexivity|lia].
Qed.

Lemma run_ok g n es : g_ok g -> Forall event_wf es -> forall c s gi H, UInv n s gi H ->
  files_fit g es (c, s) ->
  exists o c' s' gi' H' X, run_events g es (c, s) = Some (o, (c', s')) /\
    UInv n s' gi' H' /\ H' = H ++ X /\ tframe n (tb s) (tb s') /\ dext (dk_d (dk s)) (dk_d (dk s')) /\
    kv_run es (c, livem (flat 0 gi) H) = (fst (kv_run es (c, livem (flat 0 gi) H)), (c', livem (flat 0 gi') H')) /\
    o = map enc_reply (fst (kv_run es (c, livem (flat 0 gi) H))).
Proof.
  intros Hg. induction es as [|e es IH]; intros Wes c s gi H U Hff.
  - exists [], c, s, gi, H, []. rewrite app_nil_r. split; [reflexivity|]. split; [exact U|]. split; [reflexivity|].
    split; [apply tframe_refl|]. split; [apply dext_refl|]. split; reflexivity.
  - inversion Wes as [|e0 es0 We Wes' Eq]; subst.
    destruct (event_ok g n e c s gi H Hg We U (files_fit_now _ _ _ _ Hff))
      as (o1 & c1 & s1 & gi1 & H1 & X1 & E1 & E2 & E3 & E4 & E5 & E6 & E7 & _).
    destruct (IH Wes' c1 s1 gi1 H1 E2 (files_fit_step _ _ _ _ _ _ Hff E1))
      as (o2 & c2 & s2 & gi2 & H2 & X2 & F1 & F2 & F3 & F4 & F5 & F6 & F7).
    exists (o1 ++ o2), c2, s2, gi2, H2, (X1 ++ X2). cbn [run_events kv_run]. rewrite E1, F1.
    destruct (kv_event e (c, livem (flat 0 gi) H)) as [r1 [k1 m1]]. cbn [fst] in *. injection E6 as -> ->.
    destruct (kv_run es (c1, livem (flat 0 gi1) H1)) as [r2 [k2 m2]]. cbn [fst] in *. injection F6 as -> ->.
    split; [reflexivity|]. split; [exact F2|]. split; [subst; now rewrite app_assoc|].
    split; [eapply tframe_trans; eauto|]. split; [eapply dext_trans; eauto|].
    split; [reflexivity|]. subst. now rewrite map_app.
Qed.

(* each event adds at most one file *)
Lemma files_fit_short g n es : g_ok g -> Forall event_wf es -> forall c s gi H, UInv n s gi H ->
  nlen gi + nlen es < 4294967296 -> files_fit g es (c, s).
Proof.
  intros Hg. induction es as [|e es IH]; intros Wes c s gi H U Hlt j o c' s' R.
  - rewrite firstn_nil in R. cbn [run_events] in R. injection R as <- <- <-.
    rewrite (nlen_files _ _ _ _ U). cbn [nlen] in Hlt. change (2 ^ 32) with 4294967296. lia.
  - cbn [nlen] in Hlt. destruct j as [|j]; cbn [firstn run_events] in R.
    + injection R as <- <- <-. rewrite (nlen_files _ _ _ _ U). change (2 ^ 32) with 4294967296. lia.
    + inversion Wes as [|e0 es0 We Wes' Eq]; subst.
      destruct (event_ok g n e c s gi H Hg We U) as (o1 & c1 & s1 & gi1 & H1 & X1 & E1 & E2 & _ & _ & _ & _ & _ & E8).
      { unfold files_lt. rewrite (nlen_files _ _ _ _ U). lia. }
      rewrite E1 in R. destruct (run_events g (firstn j es) (c1, s1)) as [[o2 [c2 s2]]|] eqn:R2; [|discriminate].
      injection R as <- <- <-. apply (IH Wes' c1 s1 gi1 H1 E2) with (j := j) (o := o2) (c := c2); auto. lia.
Qed.

(* from empty directories *)
Lemma run_fresh g n t d es c : g_ok g -> Forall event_wf es ->
  dk_i d = [] -> dk_d d = [] -> dk_io d = [] -> (forall h e, In e (t h) -> e_ns e <> n) ->
  exists s, store_open (g_mode g) n t d = Some s /\
    (files_fit g es (c, s) ->
     exists c' s', run_events g es (c, s) = Some (map enc_reply (fst (kv_run es (c, []))), (c', s')) /\
       c' = fst (snd (kv_run es (c, []))) /\
       exists gi H, UInv n s' gi H /\ tframe n t (tb s') /\ livem (flat 0 gi) H = snd (snd (kv_run es (c, [])))).
Proof.
  intros Hg Wes Hi Hd Hio Ht.
  assert (T : TInv t n []).
  { constructor.
    - intros h e Hin He. exfalso. eapply Ht; eauto.
    - intros e [].
    - intros h. replace (filter (mine n) (t h)) with (@nil entry); [constructor|].
      specialize (Ht h). induction (t h) as [|e l IH]; auto. cbn [filter]. unfold mine at 1.
      destruct (N.eqb_spec (e_ns e) n) as [E|E]; [exfalso; apply (Ht e); auto; now left|].
      apply IH. intros e' Hin. apply Ht. now right.
    - constructor. }
  destruct (open_fresh (g_mode g) n t d) as (s & O1 & O2 & O3 & _); auto; [apply Hg|].
  exists s. split; [exact O1|]. intros Hff.
  destruct (run_ok g n es Hg Wes c s [[]] [] O2 Hff) as (o & c' & s' & gi' & H' & X & R1 & R2 & R3 & R4 & R5 & R6 & R7).
  change (livem (flat 0 [[]]) []) with (@nil ver) in R6, R7.
  exists c', s'. split; [rewrite R1; subst o; reflexivity|]. split; [rewrite R6; reflexivity|].
  exists gi', H'. split; [exact R2|]. split; [rewrite <- O3; exact R4|]. rewrite R6. reflexivity.
Qed.
