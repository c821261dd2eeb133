(* What the events of a history do to the records of the index files. *)
From Coq Require Import List NArith ZArith Bool Strings.Byte Lia ZifyBool ZifyN ZifyNat.
From Verif Require Import Bytes BytesFacts Crc32 Layout LayoutFacts Store Text Commands SpecKV Machine Reach
  Ghost DataFacts TableFacts CheckFacts UserInv UserSteps UserLoad CrashPre UserReq UserRun.
Import ListNotations.
Open Scope N_scope.
Local Notation length := List.length.

Definition ekey (e : event) : option bytes :=
  match e with EReq _ _ (QSet k _ _) | EReq _ _ (QDel k _) => Some k | _ => None end.

Lemma event_moved g n e c s gi H : g_ok g -> event_wf e -> UInv n s gi H -> files_lt s ->
  exists o c' s' gi' H', run_event g e (c, s) = Some (o, (c', s')) /\ UInv n s' gi' H' /\
    gmoved (ekey e) (flat 0 gi) H (flat 0 gi') H' /\
    snd (kv_event e (c, livem (flat 0 gi) H)) = (c', livem (flat 0 gi') H').
Proof.
  intros Hg We U Hfl. destruct e as [p now q|c1|]; cbn [run_event kv_event event_wf] in *.
  - pose proof (req_ok g n s gi H p now q c U Hg We Hfl) as (R1 & _ & gi' & H' & X & R2 & R3 & R4 & R5 & R6 & R7 & R8).
    destruct (run_req g p now q c s) as [r s']. destruct (kv_step p now c q (livem (flat 0 gi) H)) as [r' m'].
    cbn [fst snd] in *. exists [r], c, s', gi', H'. split; [reflexivity|]. split; [exact R2|].
    split; [destruct q; exact R7|]. now rewrite R4.
  - exists [], c1, s, gi, H. split; [reflexivity|]. split; [exact U|]. split; [left; auto|]. reflexivity.
  - destruct (reopen_ok g n s gi H Hg U) as (s' & R1 & R2 & R3 & R4 & R5). rewrite R1.
    exists [], (unlocked c), s', gi, H. split; [reflexivity|]. split; [exact R2|]. split; [left; auto|]. reflexivity.
Qed.

(* a record still in place: only its flag may have been set *)
Definition kept (x y : loc) : Prop := y = x \/ y = mflag x.

Lemma flag_flag it : flag (flag it) = flag it.
Proof. unfold flag. cbn. f_equal. rewrite <- N.lor_assoc. f_equal. Qed.

Lemma mflag_mflag x : mflag (mflag x) = mflag x.
Proof. unfold mflag. cbn [l_f l_off l_it fst snd]. now rewrite flag_flag. Qed.

Lemma kept_trans x y z : kept x y -> kept y z -> kept x z.
Proof. intros [->| ->] [->| ->]; unfold kept; rewrite ?mflag_mflag; auto. Qed.

(* the records of G are those of G', in the same places, with more after them *)
Definition grows (G G' : list loc) : Prop := exists G1 N, G' = G1 ++ N /\ Forall2 kept G G1.

Lemma kept_refl G : Forall2 kept G G.
Proof. induction G; constructor; auto. now left. Qed.

Lemma grows_refl G : grows G G.
Proof. exists G, []. rewrite app_nil_r. split; [reflexivity|apply kept_refl]. Qed.

Lemma kept_flag A x B : Forall2 kept (A ++ x :: B) (A ++ mflag x :: B).
Proof. apply Forall2_app; [apply kept_refl|]. constructor; [now right|apply kept_refl]. Qed.

Lemma forall2_trans {A} (P : A -> A -> Prop) : (forall x y z, P x y -> P y z -> P x z) ->
  forall a b c, Forall2 P a b -> Forall2 P b c -> Forall2 P a c.
Proof.
  intros T a b c F. revert c. induction F as [|x y a b X F IH]; intros c G; inversion G; subst; constructor; eauto.
Qed.

Lemma grows_trans G1 G2 G3 : grows G1 G2 -> grows G2 G3 -> grows G1 G3.
Proof.
  intros (A & N & -> & F) (B & M & -> & F'). apply Forall2_app_inv_l in F'. destruct F' as (B1 & B2 & F1 & F2 & ->).
  exists B1, (B2 ++ M). split; [now rewrite app_assoc|]. eapply forall2_trans; eauto using kept_trans.
Qed.

Lemma gmove_grows k G H G' H' : gmove k G H G' H' -> grows G G'.
Proof.
  intros [A x B|G0 H0 y v|A x B H0 y v].
  - exists (A ++ mflag x :: B), []. rewrite app_nil_r. split; [reflexivity|apply kept_flag].
  - exists G0, [y]. split; [reflexivity|apply kept_refl].
  - exists (A ++ mflag x :: B), [y]. rewrite <- app_assoc. split; [reflexivity|apply kept_flag].
Qed.

Lemma gmoved_grows w G H G' H' : gmoved w G H G' H' -> grows G G'.
Proof. intros [[-> _]|(k & _ & M)]; [apply grows_refl|eapply gmove_grows; eauto]. Qed.

(* a record of a key that is not asked for stays as it is *)
Lemma gmoved_same w G H G' H' i x : gmoved w G H G' H' -> nth_error G i = Some x -> w <> Some (l_id x) -> nth_error G' i = Some x.
Proof.
  intros [[-> _]|(k & -> & M)] E Hw; auto. assert (Hk : k <> l_id x) by congruence.
  assert (FL : forall A y B C, nth_error (A ++ y :: B) i = Some x -> l_id y = k -> nth_error (A ++ mflag y :: B ++ C) i = Some x).
  { intros A y B C E1 Ey. destruct (Nat.ltb_spec i (length A)) as [L|L].
    - rewrite nth_error_app1 in * by auto. exact E1.
    - rewrite nth_error_app2 in * by auto. destruct (i - length A)%nat as [|j]; cbn [nth_error] in *; [congruence|].
      rewrite nth_error_app1; auto. apply nth_error_Some. congruence. }
  destruct M as [A y B H0 L1 L2|G0 H0 y v L1 L2 _ _|A y B H0 z v L1 L2 L3 L4 _ L5].
  - rewrite <- (app_nil_r B). now apply FL.
  - rewrite nth_error_app1; auto. apply nth_error_Some. congruence.
  - now apply FL.
Qed.

Lemma gmoved_hist w G H G' H' : gmoved w G H G' H' -> exists X, H' = H ++ X.
Proof.
  intros [[_ ->]|(k & _ & [A x B H0|G0 H0 y v|A x B H0 y v])]; try (exists []; now rewrite app_nil_r); eexists; reflexivity.
Qed.

(* events that do not ask for the key k *)
Definition spares (k : bytes) (es : list event) : Prop := Forall (fun e => ekey e <> Some k) es.

Lemma run_moved g n es : g_ok g -> Forall event_wf es -> forall c s gi H, UInv n s gi H ->
  files_fit g es (c, s) ->
  exists o c' s' gi' H', run_events g es (c, s) = Some (o, (c', s')) /\ UInv n s' gi' H' /\ grows (flat 0 gi) (flat 0 gi') /\
    (exists X, H' = H ++ X) /\ (forall i x, nth_error (flat 0 gi) i = Some x -> spares (l_id x) es -> nth_error (flat 0 gi') i = Some x) /\
    snd (kv_run es (c, livem (flat 0 gi) H)) = (c', livem (flat 0 gi') H').
Proof.
  intros Hg. induction es as [|e es IH]; intros Wes c s gi H U Hff.
  - exists [], c, s, gi, H. split; [reflexivity|]. split; [exact U|]. split; [apply grows_refl|].
    split; [exists []; now rewrite app_nil_r|]. split; auto.
  - inversion Wes as [|e0 es0 We Wes' Eq]; subst.
    destruct (event_moved g n e c s gi H Hg We U (files_fit_now _ _ _ _ Hff)) as (o1 & c1 & s1 & gi1 & H1 & E1 & E2 & E3 & E4).
    destruct (IH Wes' c1 s1 gi1 H1 E2 (files_fit_step _ _ _ _ _ _ Hff E1)) as (o2 & c2 & s2 & gi2 & H2 & F1 & F2 & F3 & (X2 & FX) & F4 & F5).
    exists (o1 ++ o2), c2, s2, gi2, H2. cbn [run_events kv_run]. rewrite E1, F1.
    destruct (kv_event e (c, livem (flat 0 gi) H)) as [r1 [k1 m1]]. cbn [snd] in E4. injection E4 as -> ->.
    destruct (kv_run es (c1, livem (flat 0 gi1) H1)) as [r2 [k2 m2]]. cbn [snd] in F5. injection F5 as -> ->.
    split; [reflexivity|]. split; [exact F2|]. split; [eapply grows_trans; eauto using gmoved_grows|].
    split; [destruct (gmoved_hist _ _ _ _ _ E3) as (X1 & ->); exists (X1 ++ X2); rewrite FX; now rewrite app_assoc|].
    split; [|reflexivity]. intros i x E S. inversion S as [|? ? S1 S2]; subst. apply F4; auto. eapply gmoved_same; eauto.
Qed.
