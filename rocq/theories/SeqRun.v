(* Runs of events on a sequential namespace refine SpecSeq. *)
From Coq Require Import List NArith ZArith Bool Sorted Strings.Byte Strings.String Lia ZifyBool ZifyN ZifyNat.
From Verif Require Import Bytes BytesFacts Crc32 Crc32Facts Layout LayoutFacts Store Text TextFacts Commands SpecKV SpecSeq Machine Reach
  Ghost DataFacts TableFacts CheckFacts UserInv UserSteps UserLoad CrashPre UserReq KvFacts CrashModel CrashSpec CrashFacts
  SeqMap SeqInv SeqSteps SeqLoad SeqReq SeqReach.
Import ListNotations.
Open Scope N_scope.
Ltac Zify.zify_post_hook ::= Z.div_mod_to_equations.
Local Notation length := List.length.

(* a state whose map covers the current file *)
Definition SA n s gi H := exists m, SInv n s m gi H /\ anchored m gi.

Lemma settled_spec n s m gi H : SInv n s m gi H -> settled s -> settled_g gi.
Proof.
  intros U S g l Eg. unfold settled in S. rewrite (nlen_sfiles _ _ _ _ _ U) in S.
  rewrite (sf_files _ _ _ _ (si_f _ _ _ _ _ U)) in S. subst gi. rewrite nlen_app in S. cbn [nlen] in S.
  destruct S as [S|(f & S1 & S2)].
  - right. destruct g; auto. cbn [nlen] in S. lia.
  - left. intros ->. replace (nlen g + N.succ 0 - 1) with (nlen g) in S1 by lia.
    rewrite nget_enc_ifs in S1. apply some_inj in S1. subst f. rewrite blen_enc_if in S2. cbn [isz] in S2. lia.
Qed.

Lemma settles_spec n g p now q c s m gi H : SInv n s m gi H -> (adds_file g p now q c s -> settled s) ->
  settles gi s (snd (run_req g p now q c s)).
Proof. intros U A X. eapply settled_spec; eauto. Qed.

Lemma sreopen_ok g n s m gi H : sq_settings g -> SInv n s m gi H ->
  exists s', reopen g s = Some s' /\ SInv n s' (load_map gi) gi H /\ tb s' = tb s /\
    dk_d (dk s') = dk_d (dk s) /\ dk_i (dk s') = dk_i (dk s).
Proof.
  intros [Hm _] U. unfold reopen, index_clean_namespace. rewrite (si_mode _ _ _ _ _ U), (si_ns _ _ _ _ _ U).
  change (MODE_SEQ =? MODE_SEQ) with true. cbn iota.
  destruct (sopen_ok (g_mode g) n (tb s) (dk s) gi H) as (s' & R1 & R2 & R3 & R4 & R5 & R6 & _); auto.
  - apply U.
  - pose proof (si_id _ _ _ _ _ U). lia.
  - left. split; [apply U|apply U].
  - apply U.
  - apply U.
  - exists s'. split; [exact R1|]. split; [exact R2|]. split; [exact R3|]. split; [apply R6; apply U|exact R5].
Qed.

Lemma event_sok g n e c s gi H : sq_settings g -> SA n s gi H -> ev_calm g (CEv e) c s ->
  exists o c' s' gi' H', run_event g e (c, s) = Some (o, (c', s')) /\ SA n s' gi' H' /\
    dext (dk_d (dk s)) (dk_d (dk s')) /\
    sq_event e (c, sq_of gi H) = (fst (sq_event e (c, sq_of gi H)), (c', sq_of gi' H')) /\
    o = map enc_reply (fst (sq_event e (c, sq_of gi H))) /\ nlen gi' <= nlen gi + 1 /\
    smoved (flat 0 gi) H (flat 0 gi') H'.
Proof.
  intros Hg (m & U & An) C. destruct e as [p now q|c1|]; cbn [run_event sq_event ev_calm] in *.
  - destruct C as (Wq & Ha & FL & Ad). rewrite (si_next _ _ _ _ _ U) in Ha.
    pose proof (sreq_ok g n s m gi H p now q c U An (proj2 Hg) Wq FL Ha (settles_spec _ _ _ _ _ _ _ _ _ _ U Ad))
      as (R1 & _ & m' & gi' & H' & R2 & R3 & R4 & R5 & R6 & _ & R8 & R9).
    destruct (run_req g p now q c s) as [r s']. destruct (sq_step p now c q (sq_of gi H)) as [r' m2].
    cbn [fst snd] in *. exists [r], c, s', gi', H'. cbn [map fst].
    split; [reflexivity|]. split; [exists m'; auto|]. split; [exact R6|].
    split; [now rewrite R4|]. split; [now rewrite R1|]. split; [exact R8|exact R9].
  - exists [], c1, s, gi, H. split; [reflexivity|]. split; [exists m; auto|].
    split; [apply dext_refl|]. split; [reflexivity|]. split; [reflexivity|]. split; [lia|now left].
  - destruct (sreopen_ok g n s m gi H Hg U) as (s' & R1 & R2 & R3 & R4 & R5). rewrite R1.
    exists [], (unlocked c), s', gi, H. split; [reflexivity|]. split.
    { exists (load_map gi). split; [exact R2|]. apply load_map_anchored. exact (settled_spec _ _ _ _ _ U C). }
    split; [rewrite R4; apply dext_refl|]. split; [reflexivity|]. split; [reflexivity|]. split; [lia|now left].
Qed.

Lemma between_spre W : headed W -> forall fs j n, between_writes W j n -> spre fs W (persisted W j n).
Proof.
  induction 1 as [|w W Hw HW IH|f w W Hw HW IH]; intros fs j n C.
  - unfold persisted. rewrite firstn_nil. destruct j; constructor.
  - destruct j as [|j].
    + unfold persisted, torn. cbn [firstn nth_error app]. destruct C as [C _]. cbn [nth_error] in C.
      destruct (N.eqb_spec n 0) as [|E]; [constructor|]. destruct w; try constructor. contradiction.
    + change (persisted (w :: W) (S j) n) with (w :: persisted W j n). constructor; [exact Hw|].
      apply IH. destruct C as [C1 C2]. split; [exact C1|]. destruct j as [|j]; [exact I|].
      cbn [nth_error] in C2. exact C2.
  - destruct j as [|[|j]].
    + unfold persisted, torn. cbn [firstn nth_error app]. destruct (n =? 0); constructor.
    + destruct C as [_ C]. cbn [nth_error] in C. contradiction.
    + change (persisted (MkI f :: w :: W) (S (S j)) n) with (MkI f :: w :: persisted W j n). constructor; [exact Hw|].
      apply IH. destruct C as [C1 C2]. split; [exact C1|]. destruct j as [|j]; [exact I|].
      cbn [nth_error] in C2. exact C2.
Qed.

Lemma scrash_ok g n s gi H p now q c j k : sq_settings g -> SA n s gi H -> req_calm g p now q c s ->
  between_writes (new_writes (dk s) (dk (snd (run_req g p now q c s)))) j k ->
  exists s' gi' H', crash_req g p now q j k c s = Some s' /\ SInv n s' (load_map gi') gi' H' /\
    dext (dk_d (dk s)) (dk_d (dk s')) /\ nlen gi' <= nlen gi + 1 /\
    sq_crash (sq_of gi H) (snd (sq_step p now c q (sq_of gi H))) (sq_of gi' H').
Proof.
  intros Hg (m & U & An) (Wq & Ha & FL & Ad) B. rewrite (si_next _ _ _ _ _ U) in Ha.
  destruct (sreq_ok g n s m gi H p now q c U An (proj2 Hg) Wq FL Ha (settles_spec _ _ _ _ _ _ _ _ _ _ U Ad))
    as (_ & (W & W1 & W2 & W3 & W4) & _).
  unfold crash_req. rewrite (new_writes_eq _ _ _ W1) in *.
  pose proof (W4 _ (between_spre W W2 _ _ _ B)) as (gi' & H' & (L1 & L2 & L3) & D & N' & M).
  rewrite (si_ns _ _ _ _ _ U). destruct Hg as [Hm _].
  destruct (sopen_ok (g_mode g) n (table_clean (tb s) n) (crash_disk (dk s) (persisted W j k)) gi' H')
    as (s' & R1 & R2 & R3 & R4 & _); auto.
  - apply tinv_clean.
  - exists s', gi', H'. split; [exact R1|]. split; [exact R2|].
    split; [eapply dext_trans; [exact D|exact R4]|]. split; [exact N'|]. exact M.
Qed.

Lemma scrun_ok g n es : sq_settings g -> forall c s gi H, SA n s gi H -> calm g es (c, s) ->
  exists o r c' s' gi' H', run_cevents g es (c, s) = Some (o, (c', s')) /\ SA n s' gi' H' /\
    dext (dk_d (dk s)) (dk_d (dk s')) /\
    sc_run es (c, sq_of gi H) r (c', sq_of gi' H') /\ o = map enc_reply r.
Proof.
  intros Hg. induction es as [|e es IH]; intros c s gi H U C.
  - exists [], [], c, s, gi, H. split; [reflexivity|]. split; [exact U|].
    split; [apply dext_refl|]. split; [constructor|reflexivity].
  - cbn [calm fst snd] in C. destruct C as [C1 C2]. destruct e as [e|p now q j k].
    + destruct (event_sok g n e c s gi H Hg U C1) as (o1 & c1 & s1 & gi1 & H1 & E1 & E2 & E5 & E6 & E7 & _).
      destruct (IH c1 s1 gi1 H1 E2 (C2 _ _ E1)) as (o2 & r2 & c2 & s2 & gi2 & H2 & F1 & F2 & F4 & F5 & F6).
      exists (o1 ++ o2), (fst (sq_event e (c, sq_of gi H)) ++ r2), c2, s2, gi2, H2.
      cbn [run_cevents run_cevent]. rewrite E1, F1. split; [reflexivity|]. split; [exact F2|].
      split; [eapply dext_trans; eauto|].
      split; [|subst; now rewrite map_app]. apply sc_ev. rewrite E6. exact F5.
    + cbn [ev_calm] in C1. destruct C1 as (C3 & C4 & C5).
      destruct (scrash_ok g n s gi H p now q c j k Hg U C3 C4) as (s1 & gi1 & H1 & E1 & E2 & E4 & E5 & E6).
      assert (E0 : run_cevent g (CCrash p now q j k) (c, s) = Some ([], (unlocked c, s1))).
      { cbn [run_cevent fst snd]. now rewrite E1. }
      assert (A1 : SA n s1 gi1 H1).
      { exists (load_map gi1). split; [exact E2|]. apply load_map_anchored. exact (settled_spec _ _ _ _ _ E2 (C5 _ E1)). }
      destruct (IH (unlocked c) s1 gi1 H1 A1 (C2 _ _ E0)) as (o2 & r2 & c2 & s2 & gi2 & H2 & F1 & F2 & F4 & F5 & F6).
      exists o2, r2, c2, s2, gi2, H2. cbn [run_cevents]. rewrite E0, F1. split; [reflexivity|]. split; [exact F2|].
      split; [eapply dext_trans; eauto|]. split; [|exact F6]. eapply sc_crash; eauto.
Qed.

Lemma tinv_other t n : (forall h e, In e (t h) -> e_ns e <> n) -> TInv t n [].
Proof.
  intros Ht. constructor.
  - intros h e Hin He. exfalso. eapply Ht; eauto.
  - intros e [].
  - intros h. replace (filter (mine n) (t h)) with (@nil entry); [constructor|].
    specialize (Ht h). induction (t h) as [|e l IH]; auto. cbn [filter]. unfold mine at 1.
    destruct (N.eqb_spec (e_ns e) n) as [E|E]; [exfalso; apply (Ht e); auto; now left|].
    apply IH. intros e' Hin. apply Ht. now right.
  - constructor.
Qed.

Lemma screated_inv n s0 : sq_created n s0 -> SA n s0 [[]] [].
Proof.
  intros (t & Ht & O). destruct (sopen_fresh n t empty_disk) as (s & O1 & O2 & _); auto; [now apply tinv_other|].
  rewrite O in O1. apply some_inj in O1. subst s. exists [(0, 0)]. split; [exact O2|].
  intros g l E. destruct g as [|a g]; [|destruct g; discriminate]. cbn [app nlen tot]. now left.
Qed.

Lemma screated_total n : exists s0, sq_created n s0.
Proof.
  destruct (sopen_fresh n empty_table empty_disk) as (s & O1 & _); auto.
  - apply tinv_other. intros h e [].
  - exists s, empty_table. split; [intros h e []|exact O1].
Qed.

Lemma sreached_inv g n c0 es o c s : sreached g n c0 es o c s ->
  exists r gi H, SA n s gi H /\ o = map enc_reply r /\ sc_run es (c0, sq_empty) r (c, sq_of gi H).
Proof.
  intros (Hg & s0 & C & K & R). pose proof (screated_inv _ _ C) as U.
  destruct (scrun_ok g n es Hg c0 s0 _ _ U K) as (o' & r & c' & s' & gi & H & E1 & E2 & _ & E5 & E6).
  rewrite R in E1. apply some_inj in E1. injection E1 as -> -> ->. exists r, gi, H. auto.
Qed.

Lemma sreached_total g n c0 es s0 : sq_settings g -> sq_created n s0 -> calm g es (c0, s0) ->
  exists o c s, run_cevents g es (c0, s0) = Some (o, (c, s)).
Proof.
  intros Hg C K. pose proof (screated_inv _ _ C) as U.
  destruct (scrun_ok g n es Hg c0 s0 _ _ U K) as (o' & r & c' & s' & gi & H & E1 & _). eauto.
Qed.

(* without crashes the specification is a function *)
Lemma sc_run_plain es : forall st r st', sc_run (plain es) st r st' -> sq_run es st = (r, st').
Proof.
  induction es as [|e es IH]; intros st r st' R; inversion R as [|e0 es0 st0 o st1 R0|]; subst; [reflexivity|].
  apply IH in R0. cbn [sq_run]. destruct (sq_event e st) as [o1 st1]. cbn [fst snd] in *. rewrite R0. reflexivity.
Qed.

Lemma sreached_plain g n c0 es o c s : sreached g n c0 (plain es) o c s ->
  o = map enc_reply (fst (sq_run es (c0, sq_empty))) /\
  exists gi H, SA n s gi H /\ sq_run es (c0, sq_empty) = (fst (sq_run es (c0, sq_empty)), (c, sq_of gi H)).
Proof.
  intros R. destruct (sreached_inv _ _ _ _ _ _ _ R) as (r & gi & H & U & E & K).
  apply sc_run_plain in K. rewrite K. cbn [fst]. split; [exact E|]. exists gi, H. auto.
Qed.

(* what clients read *)
Lemma sread_all_spec n s m gi H k : SInv n s m gi H -> key_asked (tot gi) k ->
  read_all s k = reads_of (livem (flat 0 gi) H) k.
Proof.
  intros U Ka.
  assert (X : forall q, match q with QGet k' | QExists k' | QLength k' | QKeytime k' | QCheck k' => k' = k | _ => False end ->
    fst (run_req (mkSettings MODE_KV 0) (mkPerm false false) 0 q open_cfg s) =
    enc_reply (fst (kv_step (mkPerm false false) 0 open_cfg q (livem (flat 0 gi) H)))).
  { pose proof (seq_ex n s m gi H k U Ka) as L.
    intros q Hq. destruct q; try contradiction; subst; cbn [run_req kv_step fst argv_of].
    - unfold command_get. apply read_command_ok; [reflexivity|]. now apply (sget_single_ok n s m).
    - unfold command_exists. apply read_command_ok; [reflexivity|]. destruct (index_get s k) as [e|]; [|now rewrite L].
      destruct L as (g1 & l1 & it & l2 & g2 & A' & B & HA & w & HB & At & ->).
      rewrite (as_get _ _ _ _ _ _ _ _ _ _ _ _ _ _ At). reflexivity.
    - unfold command_check. apply read_command_ok; [reflexivity|]. destruct (index_get s k) as [e|]; [|now rewrite L].
      destruct L as (g1 & l1 & it & l2 & g2 & A' & B & HA & w & HB & At & ->).
      rewrite (as_get _ _ _ _ _ _ _ _ _ _ _ _ _ _ At).
      destruct (as_ver _ _ _ _ _ _ _ _ _ _ _ _ _ _ At) as (V1 & V2 & V3 & V4 & r & R1 & R2 & R3 & R4 & R5 & R6 & R7).
      cbn [seq_entry e_off e_dataid]. rewrite (data_check_at _ _ _ r (fst (snd w))) by auto. rewrite R4, N.eqb_refl. reflexivity.
    - unfold command_length. apply read_command_ok; [reflexivity|]. destruct (index_get s k) as [e|]; [|now rewrite L].
      destruct L as (g1 & l1 & it & l2 & g2 & A' & B & HA & w & HB & At & ->).
      rewrite (as_get _ _ _ _ _ _ _ _ _ _ _ _ _ _ At).
      destruct (as_ver _ _ _ _ _ _ _ _ _ _ _ _ _ _ At) as (_ & V2 & _).
      cbn [seq_entry e_len]. rewrite V2. now destruct w as [? [? ?]].
    - unfold command_keytime. apply read_command_ok; [reflexivity|]. destruct (index_get s k) as [e|]; [|now rewrite L].
      destruct L as (g1 & l1 & it & l2 & g2 & A' & B & HA & w & HB & At & ->).
      rewrite (as_get _ _ _ _ _ _ _ _ _ _ _ _ _ _ At).
      destruct (as_ver _ _ _ _ _ _ _ _ _ _ _ _ _ _ At) as (_ & _ & _ & V4 & _).
      cbn [seq_entry e_ts]. rewrite V4. now destruct w as [? [? ?]]. }
  unfold reads_of. cbn [map]. rewrite <- !X by reflexivity. reflexivity.
Qed.

Lemma scounters n s m gi H : SInv n s m gi H ->
  x_entries (ix s) = kcount (livem (flat 0 gi) H) mod 2 ^ 64 /\ x_datasize (ix s) = ksize (livem (flat 0 gi) H) mod 2 ^ 64.
Proof.
  intros U. rewrite (si_cnt _ _ _ _ _ U), (si_dsz _ _ _ _ _ U).
  rewrite <- (kcount_livem (flat 0 gi) H) by (eapply forall2_length; apply (si_f _ _ _ _ _ U)).
  rewrite <- (ksize_slivem (dk_d (dk s)) (flat 0 gi) H) by apply (si_f _ _ _ _ _ U). split; reflexivity.
Qed.
