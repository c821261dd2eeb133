(* Crashes of a user-key namespace. *)
From Coq Require Import List NArith ZArith Bool Strings.Byte Strings.String Lia ZifyBool ZifyN ZifyNat.
From Verif Require Import Bytes BytesFacts Crc32 Crc32Facts Layout LayoutFacts Store Text TextFacts Commands SpecKV Machine Reach
  Ghost DataFacts TableFacts CheckFacts UserInv UserSteps UserLoad CrashPre UserReq UserRun KvFacts CrashModel CrashSpec.
Import ListNotations.
Open Scope N_scope.
Ltac Zify.zify_post_hook ::= Z.div_mod_to_equations.
Local Notation length := List.length.

Lemma new_writes_eq d d' W : dk_log d' = dk_log d ++ W -> new_writes d d' = W.
Proof. intros E. unfold new_writes. now rewrite E, skipn_app, skipn_all, Nat.sub_diag. Qed.

Lemma covered_cpre W : headed W -> forall fs j n, covered fs W j n -> cpre fs W (persisted W j n).
Proof.
  induction 1 as [|w W Hw HW IH|f w W Hw HW IH]; intros fs j n C.
  - unfold persisted. rewrite firstn_nil. destruct j; constructor.
  - destruct j as [|j].
    + unfold persisted, torn. cbn [firstn nth_error app]. destruct C as [C _]. cbn [nth_error firstn apply_writes fold_left] in C.
      destruct (N.eqb_spec n 0) as [|E]; [constructor|]. destruct w; try constructor. destruct C as [C|C]; [contradiction|exact C].
    + change (persisted (w :: W) (S j) n) with (w :: persisted W j n). constructor; [exact Hw|].
      apply IH. destruct C as [C1 C2]. split; [exact C1|]. destruct j as [|j]; [exact I|].
      cbn [nth_error] in C2. exact C2.
  - destruct j as [|[|j]].
    + unfold persisted, torn. cbn [firstn nth_error app]. destruct (n =? 0); constructor.
    + destruct C as [_ C]. cbn [nth_error] in C. contradiction.
    + change (persisted (MkI f :: w :: W) (S (S j)) n) with (MkI f :: w :: persisted W j n). constructor; [exact Hw|].
      apply IH. destruct C as [C1 C2]. split; [exact C1|]. destruct j as [|j]; [exact I|].
      cbn [nth_error] in C2. exact C2.
Qed.

Lemma crash_ok g n s gi H p now q c j k : UInv n s gi H -> g_ok g -> req_wf q -> files_lt s ->
  covered (dk_i (dk s), dk_d (dk s)) (new_writes (dk s) (dk (snd (run_req g p now q c s)))) j k ->
  exists s' gi' H', crash_req g p now q j k c s = Some s' /\ UInv n s' gi' H' /\
    tframe n (tb s) (tb s') /\ dext (dk_d (dk s)) (dk_d (dk s')) /\ nlen gi' <= nlen gi + 1 /\
    kv_crash p now c q (livem (flat 0 gi) H) (livem (flat 0 gi') H').
Proof.
  intros U Hg Wq FL C. destruct (req_ok g n s gi H p now q c U Hg Wq FL) as (_ & (W & W1 & W2 & W3 & W4) & _).
  unfold crash_req. rewrite (new_writes_eq _ _ _ W1) in *.
  pose proof (W4 _ (covered_cpre W W2 _ _ _ C)) as (gi' & H' & (L1 & L2 & L3) & D & N' & M).
  rewrite (ui_ns _ _ _ _ U). destruct Hg as [Hm _].
  destruct (open_ok (g_mode g) n (table_clean (tb s) n) (crash_disk (dk s) (persisted W j k)) gi' H')
    as (s' & R1 & R2 & R3 & R4 & _); auto.
  - apply tinv_clean.
  - exists s', gi', H'. split; [exact R1|]. split; [exact R2|].
    split; [eapply tframe_trans; [apply tframe_clean|exact R3]|].
    split; [eapply dext_trans; [exact D|exact R4]|]. split; [exact N'|].
    destruct M as [M|[M|(k0 & M1 & M2 & M3)]]; [left; exact M|right; left; exact M|right; right].
    destruct q; try discriminate. injection M1 as ->. eauto 8.
Qed.

Lemma cfiles_now g es c s : cfiles_fit g es (c, s) -> files_lt s.
Proof. intros F. exact (F O [] c s eq_refl). Qed.

Lemma cfiles_step g e es st o st1 : cfiles_fit g (e :: es) st -> run_cevent g e st = Some (o, st1) ->
  cfiles_fit g es st1.
Proof.
  intros F E j o' c s R. apply (F (S j) (o ++ o') c s). cbn [firstn run_cevents]. rewrite E, R. reflexivity.
Qed.

Lemma ccov_step g e es st o st1 : crashes_covered g (e :: es) st -> run_cevent g e st = Some (o, st1) ->
  crashes_covered g es st1.
Proof.
  intros F E i p now q j n o' c s X R. apply (F (S i) p now q j n (o ++ o') c s); [exact X|].
  cbn [firstn run_cevents]. rewrite E, R. reflexivity.
Qed.

Lemma crun_ok g n es : g_ok g -> Forall cevent_wf es -> forall c s gi H, UInv n s gi H ->
  cfiles_fit g es (c, s) -> crashes_covered g es (c, s) ->
  exists o r c' s' gi' H', run_cevents g es (c, s) = Some (o, (c', s')) /\
    UInv n s' gi' H' /\ tframe n (tb s) (tb s') /\ dext (dk_d (dk s)) (dk_d (dk s')) /\
    kc_run es (c, livem (flat 0 gi) H) r (c', livem (flat 0 gi') H') /\ o = map enc_reply r.
Proof.
  intros Hg. induction es as [|e es IH]; intros Wes c s gi H U Hff Hcc.
  - exists [], [], c, s, gi, H. split; [reflexivity|]. split; [exact U|].
    split; [apply tframe_refl|]. split; [apply dext_refl|]. split; [constructor|reflexivity].
  - inversion Wes as [|e0 es0 We Wes' Eq]; subst. destruct e as [e|p now q j k].
    + destruct (event_ok g n e c s gi H Hg We U (cfiles_now _ _ _ _ Hff))
        as (o1 & c1 & s1 & gi1 & H1 & X1 & E1 & E2 & E3 & E4 & E5 & E6 & E7 & _).
      destruct (IH Wes' c1 s1 gi1 H1 E2 (cfiles_step _ (CEv e) _ _ _ _ Hff E1) (ccov_step _ (CEv e) _ _ _ _ Hcc E1))
        as (o2 & r2 & c2 & s2 & gi2 & H2 & F1 & F2 & F3 & F4 & F5 & F6).
      exists (o1 ++ o2), (fst (kv_event e (c, livem (flat 0 gi) H)) ++ r2), c2, s2, gi2, H2.
      cbn [run_cevents run_cevent]. rewrite E1, F1. split; [reflexivity|]. split; [exact F2|].
      split; [eapply tframe_trans; eauto|]. split; [eapply dext_trans; eauto|].
      split; [|subst; now rewrite map_app]. apply kc_ev. rewrite E6. exact F5.
    + destruct (crash_ok g n s gi H p now q c j k U Hg We (cfiles_now _ _ _ _ Hff)) as (s1 & gi1 & H1 & E1 & E2 & E3 & E4 & E5 & E6).
      { apply (Hcc O p now q j k [] c s); reflexivity. }
      assert (E0 : run_cevent g (CCrash p now q j k) (c, s) = Some ([], (unlocked c, s1))).
      { cbn [run_cevent fst snd]. now rewrite E1. }
      destruct (IH Wes' (unlocked c) s1 gi1 H1 E2 (cfiles_step _ _ _ _ _ _ Hff E0) (ccov_step _ _ _ _ _ _ Hcc E0))
        as (o2 & r2 & c2 & s2 & gi2 & H2 & F1 & F2 & F3 & F4 & F5 & F6).
      exists o2, r2, c2, s2, gi2, H2. cbn [run_cevents]. rewrite E0, F1. split; [reflexivity|]. split; [exact F2|].
      split; [eapply tframe_trans; eauto|]. split; [eapply dext_trans; eauto|]. split; [|exact F6].
      eapply kc_crash; eauto.
Qed.

(* each event adds at most one file *)
Lemma cfiles_short g n es : g_ok g -> Forall cevent_wf es -> forall c s gi H, UInv n s gi H ->
  crashes_covered g es (c, s) -> nlen gi + nlen es < 4294967296 -> cfiles_fit g es (c, s).
Proof.
  intros Hg. induction es as [|e es IH]; intros Wes c s gi H U Hcc Hlt j o c' s' R.
  - rewrite firstn_nil in R. cbn [run_cevents] in R. injection R as <- <- <-.
    rewrite (nlen_files _ _ _ _ U). cbn [nlen] in Hlt. change (2 ^ 32) with 4294967296. lia.
  - cbn [nlen] in Hlt. assert (FL : files_lt s) by (unfold files_lt; rewrite (nlen_files _ _ _ _ U); lia).
    destruct j as [|j]; cbn [firstn run_cevents] in R.
    + injection R as <- <- <-. exact FL.
    + inversion Wes as [|e0 es0 We Wes' Eq]; subst.
      assert (ST : exists o1 c1 s1 gi1 H1, run_cevent g e (c, s) = Some (o1, (c1, s1)) /\ UInv n s1 gi1 H1 /\ nlen gi1 <= nlen gi + 1).
      { destruct e as [e|p now q i k].
        - destruct (event_ok g n e c s gi H Hg We U FL) as (o1 & c1 & s1 & gi1 & H1 & X1 & E1 & E2 & _ & _ & _ & _ & _ & E8).
          exists o1, c1, s1, gi1, H1. auto.
        - destruct (crash_ok g n s gi H p now q c i k U Hg We FL) as (s1 & gi1 & H1 & E1 & E2 & E3 & E4 & E5 & E6).
          { apply (Hcc O p now q i k [] c s); reflexivity. }
          exists [], (unlocked c), s1, gi1, H1. cbn [run_cevent fst snd]. rewrite E1. auto. }
      destruct ST as (o1 & c1 & s1 & gi1 & H1 & E1 & E2 & E8). rewrite E1 in R.
      destruct (run_cevents g (firstn j es) (c1, s1)) as [[o2 [c2 s2]]|] eqn:R2; [|discriminate].
      injection R as <- <- <-.
      assert (LT : nlen gi1 + nlen es < 4294967296) by lia.
      exact (IH Wes' c1 s1 gi1 H1 E2 (ccov_step _ _ _ _ _ _ Hcc E1) LT j o2 c2 s2 R2).
Qed.

Lemma created_uinv g n s0 : settings_ok g -> created g n s0 -> UInv n s0 [[]] [].
Proof.
  intros Hg (t & Ht & O).
  assert (T : TInv t n []).
  { constructor.
    - intros h e Hin He. exfalso. eapply Ht; eauto.
    - intros e [].
    - intros h. replace (filter (mine n) (t h)) with (@nil entry); [constructor|].
      specialize (Ht h). induction (t h) as [|e l IH]; auto. cbn [filter]. unfold mine at 1.
      destruct (N.eqb_spec (e_ns e) n) as [E|E]; [exfalso; apply (Ht e); auto; now left|].
      apply IH. intros e' Hin. apply Ht. now right.
    - constructor. }
  destruct (open_fresh (g_mode g) n t empty_disk) as (s & O1 & O2 & _); auto; [apply Hg|].
  rewrite O in O1. apply some_inj in O1. now subst.
Qed.

Lemma cfiles_created g n s0 c es : settings_ok g -> Forall cevent_wf es -> created g n s0 ->
  crashes_covered g es (c, s0) -> nlen es < 2 ^ 32 - 1 -> cfiles_fit g es (c, s0).
Proof.
  intros Hg W C CC L. pose proof (created_uinv _ _ _ Hg C) as U.
  eapply cfiles_short; eauto. cbn [nlen]. change (2 ^ 32 - 1) with 4294967295 in L. lia.
Qed.

Lemma creached_inv g n c0 es o c s : creached g n c0 es o c s ->
  exists r gi H, UInv n s gi H /\ o = map enc_reply r /\ kc_run es (c0, []) r (c, livem (flat 0 gi) H).
Proof.
  intros (Hg & W & s0 & C & FF & CC & R). pose proof (created_uinv _ _ _ Hg C) as U.
  destruct (crun_ok g n es Hg W c0 s0 _ _ U FF CC) as (o' & r & c' & s' & gi & H & E1 & E2 & _ & _ & E5 & E6).
  rewrite R in E1. apply some_inj in E1. injection E1 as -> -> ->. exists r, gi, H. auto.
Qed.

Lemma creached_total g n c0 es s0 : settings_ok g -> Forall cevent_wf es -> created g n s0 ->
  cfiles_fit g es (c0, s0) -> crashes_covered g es (c0, s0) -> exists o c s, run_cevents g es (c0, s0) = Some (o, (c, s)).
Proof.
  intros Hg W C FF CC. pose proof (created_uinv _ _ _ Hg C) as U.
  destruct (crun_ok g n es Hg W c0 s0 _ _ U FF CC) as (o' & r & c' & s' & gi & H & E1 & _). eauto.
Qed.

Lemma crash_refines g n c0 es o c s : creached g n c0 es o c s ->
  exists r m, o = map enc_reply r /\ kc_run es (c0, []) r (c, m) /\ forall k, read_all s k = reads_of m k.
Proof.
  intros R. destruct (creached_inv _ _ _ _ _ _ _ R) as (r & gi & H & U & E & K).
  exists r, (livem (flat 0 gi) H). split; [exact E|]. split; [exact K|]. intros k. now apply (read_all_spec n).
Qed.

(* reads of one key depend on this key only *)
Lemma reads_kget m m' k : kget k m = kget k m' -> reads_of m k = reads_of m' k.
Proof. intros E. unfold reads_of. cbn [map kv_step]. unfold kv_read. rewrite E. reflexivity. Qed.

Lemma kget_put_other k k' v ts m : k <> k' -> kget k (kput k' v ts m) = kget k m.
Proof. intros N. rewrite kget_kput. destruct (bseqb_spec k' k); congruence. Qed.

Lemma kget_del_other k k' m : k <> k' -> kget k (kdel k' m) = kget k m.
Proof. intros N. rewrite kget_kdel. destruct (bseqb_spec k' k); congruence. Qed.

Lemma kv_step_other p now c q m k : target q <> Some k -> kget k (snd (kv_step p now c q m)) = kget k m.
Proof.
  intros T. destruct q as [k' v ts|k' ts| | | | | | | |]; cbn [kv_step target] in *; try reflexivity.
  - assert (N : k <> k') by congruence. unfold kv_set.
    repeat match goal with |- context [if ?b then _ else _] => destruct b end;
    repeat match goal with |- context [match ?b with Some _ => _ | None => _ end] => destruct b end;
      cbn [snd]; auto using kget_put_other.
    all: repeat match goal with |- context [if ?b then _ else _] => destruct b end; cbn [snd]; auto using kget_put_other.
  - assert (N : k <> k') by congruence. unfold kv_del. set (n := blen k'). destruct ts; destruct (p_admin p); destruct n eqn:?;
    repeat match goal with |- context [if ?b then _ else _] => destruct b end;
    repeat match goal with |- context [match ?b with Some _ => _ | None => _ end] => destruct b end;
    repeat match goal with |- context [if ?b then _ else _] => destruct b end;
      cbn [snd]; auto using kget_del_other.
Qed.

Lemma kv_crash_other p now c q m m' k : kv_crash p now c q m m' -> target q <> Some k -> kget k m' = kget k m.
Proof.
  intros [->|[->|(k' & v & ts & -> & _ & ->)]] T; [reflexivity|now apply kv_step_other|].
  cbn [target] in T. apply kget_del_other. congruence.
Qed.

Lemma kget_valid n s gi H k v : UInv n s gi H -> kget k (livem (flat 0 gi) H) = Some v -> 0 < blen k /\ blen k <= 255.
Proof.
  intros U E. pose proof (ui_f _ _ _ _ U) as F.
  assert (I : In k (map fst (livem (flat 0 gi) H))).
  { destruct (in_dec (list_eq_dec Byte.byte_eq_dec) k (map fst (livem (flat 0 gi) H))) as [I|I]; [exact I|].
    apply kget_none in I. congruence. }
  rewrite livem_keys in I by (eapply ver_same; apply F). apply in_map_iff in I. destruct I as (x & <- & I).
  apply filter_In in I. destruct I as [I _]. destruct (loc_wf_in _ _ _ _ _ F I) as (W1 & W2 & _). split; [exact W2|].
  unfold l_id. destruct W1 as (W1 & W1' & _). unfold l_it in *. lia.
Qed.

Lemma exists_yes n s gi H k v : UInv n s gi H -> kget k (livem (flat 0 gi) H) = Some v ->
  command_exists [str "EXISTS"; k] open_cfg s = intreply 1.
Proof.
  intros U E. destruct (kget_valid _ _ _ _ _ _ U E) as [K1 K2].
  pose proof (read_all_spec _ _ _ _ k U) as R. unfold read_all in R. cbn [map] in R.
  injection R as _ R _ _ _. rewrite R. cbn [kv_step fst]. unfold kv_read.
  destruct (N.eqb_spec (blen k) 0); [lia|]. destruct (N.ltb_spec 255 (blen k)); [lia|]. rewrite E. reflexivity.
Qed.

Lemma one_crash g n c0 es o c s p now q j t : creached g n c0 es o c s -> req_wf q ->
  nlen (dk_i (dk s)) < 2 ^ 32 ->
  covered (dk_i (dk s), dk_d (dk s)) (new_writes (dk s) (dk (snd (run_req g p now q c s)))) j t ->
  exists s', crash_req g p now q j t c s = Some s' /\
    (forall k, target q <> Some k -> read_all s' k = read_all s k) /\
    ((forall k v ts, q = QSet k v ts -> command_exists [str "EXISTS"; k] open_cfg s <> intreply 1) ->
      same_reads s s' \/ same_reads (snd (run_req g p now q c s)) s') /\
    (forall k v ts, q = QSet k v ts -> read_all s' k = read_all s k \/
      read_all s' k = read_all (snd (run_req g p now q c s)) k \/ read_all s' k = reads_of [] k).
Proof.
  intros R Wq FL C. destruct (creached_inv _ _ _ _ _ _ _ R) as (r & gi & H & U & _).
  destruct R as (Hg & _). destruct (crash_ok g n s gi H p now q c j t U Hg Wq FL C) as (s' & gi' & H' & E & U' & _ & _ & _ & K).
  destruct (req_ok g n s gi H p now q c U Hg Wq FL) as (_ & _ & gi2 & H2 & X & U2 & _ & M2 & _).
  exists s'. split; [exact E|]. split; [|split].
  - intros k T. rewrite (read_all_spec _ _ _ _ k U), (read_all_spec _ _ _ _ k U').
    apply reads_kget. eapply kv_crash_other; eauto.
  - intros A. destruct K as [K|[K|(k & v & ts & -> & N & K)]].
    + left. eapply same_reads_inv; eauto.
    + right. eapply same_reads_inv; eauto. congruence.
    + exfalso. destruct (kget k (livem (flat 0 gi) H)) as [w|] eqn:G; [|congruence].
      apply (A k v ts eq_refl). eapply exists_yes; eauto.
  - intros k v ts ->. rewrite (read_all_spec _ _ _ _ k U), (read_all_spec _ _ _ _ k U'), (read_all_spec _ _ _ _ k U2).
    destruct K as [K|[K|(k' & v' & ts' & Q & N & K)]].
    + left. now rewrite K.
    + right. left. now rewrite K, M2.
    + right. right. injection Q as <- <- <-. rewrite K. apply reads_kget. rewrite kget_kdel, bseqb_refl. reflexivity.
Qed.
