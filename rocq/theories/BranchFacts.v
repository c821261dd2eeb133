(* The linked lists represent the table *)
From Coq Require Import Strings.String Strings.Byte List NArith ZArith Bool Lia ZifyBool ZifyN ZifyNat.
From Verif Require Import Bytes BytesFacts Store Branch SpecTable.
Import ListNotations.
Open Scope N_scope.
Ltac Zify.zify_post_hook ::= Z.div_mod_to_equations.
Local Notation length := List.length.

Section H.
Context (hash : bytes -> N).

Fixpoint lseg (nd : N -> option node) (p : option N) (l : list (N * entry)) (q : option N) : Prop :=
  match l with
  | [] => p = q
  | (a, e) :: r => p = Some a /\ exists nx, nd a = Some (mkNode e nx) /\ lseg nd nx r q
  end.

Lemma lseg_app nd l1 : forall p l2 q, lseg nd p (l1 ++ l2) q <-> exists r, lseg nd p l1 r /\ lseg nd r l2 q.
Proof.
  induction l1 as [|[a e] l1 IH]; intros p l2 q; cbn [app lseg].
  - split; [eauto|]. intros (r & -> & H). exact H.
  - split.
    + intros (-> & nx & N1 & H). apply IH in H. destruct H as (r & A & B). exists r. split; [|exact B]. eauto.
    + intros (r & (-> & nx & N1 & A) & B). split; [reflexivity|]. exists nx. split; [exact N1|]. apply IH. eauto.
Qed.

Lemma lseg_frame nd nd' l : (forall a, In a (map fst l) -> nd' a = nd a) -> forall p q, lseg nd p l q -> lseg nd' p l q.
Proof.
  induction l as [|[a e] l IH]; intros F p q; cbn [lseg]; auto.
  intros (-> & nx & N1 & H). split; [reflexivity|]. exists nx. split; [rewrite F; [exact N1|now left]|].
  apply IH; auto. intros b Hb. apply F. now right.
Qed.

Lemma lseg_in nd l a e : In (a, e) l -> forall p q, lseg nd p l q -> exists nx, nd a = Some (mkNode e nx).
Proof.
  induction l as [|[b eb] l IH]; intros I p q; [destruct I|]. cbn [lseg]. intros (-> & nx & N1 & H).
  destruct I as [X|I]; [injection X as <- <-; eauto|]. eapply IH; eauto.
Qed.

Lemma last_snoc l a e : last_of (l ++ [(a, e)]) = Some a.
Proof. unfold last_of. now rewrite rev_app_distr. Qed.

Lemma last_nil : last_of [] = None.
Proof. reflexivity. Qed.

Lemma snoc_case {A} (l : list A) : l = [] \/ exists l' a, l = l' ++ [a].
Proof. destruct l using rev_ind; eauto. Qed.

(* the link of the last cell of a segment *)
Lemma lseg_relink nd p l b eb q q' : lseg nd p (l ++ [(b, eb)]) q -> ~ In b (map fst l) ->
  lseg (fun x => if x =? b then Some (mkNode eb q') else nd x) p (l ++ [(b, eb)]) q'.
Proof.
  intros H Hn. apply lseg_app in H. destruct H as (r & H1 & H2). apply lseg_app. exists r. split.
  - eapply lseg_frame; [|exact H1]. intros a Ha. destruct (N.eqb_spec a b); [subst; contradiction|reflexivity].
  - cbn [lseg] in *. destruct H2 as (-> & nx & N1 & ->). split; [reflexivity|]. exists q'. rewrite N.eqb_refl. auto.
Qed.

(* ---- ownership ---- *)

Definition brok (m : mem) (h : N) (l : list (N * entry)) : Prop :=
  match m_branch m h with
  | None => l = []
  | Some b => lseg (m_node m) (br_list b) l None /\ br_last b = last_of l /\ br_len b = u64 (N.of_nat (length l))
  end.

Record Own (m : mem) (L : N -> list (N * entry)) : Prop := {
  o_br : forall h, brok m h (L h);
  o_nd : forall h, NoDup (map fst (L h));
  o_hash : forall h a e, In (a, e) (L h) -> hash (e_id e) = h;
  o_all : forall a n, m_node m a = Some n -> In (a, nd_e n) (L (hash (e_id (nd_e n))))
}.

Definition lset (L : N -> list (N * entry)) (h : N) (l : list (N * entry)) : N -> list (N * entry) :=
  fun g => if g =? h then l else L g.

Lemma lset_same L h l : lset L h l h = l.
Proof. unfold lset. now rewrite N.eqb_refl. Qed.

Lemma own_node m L h a e : Own m L -> In (a, e) (L h) -> exists nx, m_node m a = Some (mkNode e nx).
Proof.
  intros O I. pose proof (o_br _ _ O h) as B. unfold brok in B. destruct (m_branch m h) as [b|].
  - destruct B as (S & _). eapply lseg_in; eauto.
  - rewrite B in I. destruct I.
Qed.

Lemma own_once m L h h' a : Own m L -> In a (map fst (L h)) -> In a (map fst (L h')) -> h = h'.
Proof.
  intros O I I'. rewrite in_map_iff in I, I'. destruct I as ([a1 e1] & E1 & I1), I' as ([a2 e2] & E2 & I2). cbn [fst] in *. subst a1 a2.
  destruct (own_node _ _ _ _ _ O I1) as (n1 & N1), (own_node _ _ _ _ _ O I2) as (n2 & N2).
  assert (e1 = e2) by congruence. subst e2. rewrite <- (o_hash _ _ O _ _ _ I1). apply (o_hash _ _ O _ _ _ I2).
Qed.

Lemma own_init : Own buckets_init (fun _ => []).
Proof. split; cbn; try discriminate; try tauto; intros; constructor. Qed.

Lemma in_fst (a : N) (e : entry) l : In (a, e) l -> In a (map fst l).
Proof. intros H. apply (in_map fst) in H. exact H. Qed.

(* ---- append ---- *)

Lemma own_insert m L a e : Own m L -> m_node m a = None ->
  exists m', entry_insert hash a e m = Some m' /\ Own m' (lset L (hash (e_id e)) (L (hash (e_id e)) ++ [(a, e)])).
Proof.
  intros O F. set (h := hash (e_id e)). unfold entry_insert. fold h. unfold branch_append. cbn [m_branch put_node].
  assert (Fr : forall g, ~ In a (map fst (L g))).
  { intros g I. rewrite in_map_iff in I. destruct I as ([a1 e1] & E1 & I1). cbn [fst] in E1. subst a1.
    destruct (own_node _ _ _ _ _ O I1). congruence. }
  pose proof (o_br _ _ O h) as B. unfold brok in B.
  assert (FIN : forall m', m_branch m' h <> None ->
    (forall g, g <> h -> m_branch m' g = m_branch m g) ->
    (forall x n, m_node m' x = Some n -> (x = a /\ nd_e n = e) \/ exists n', m_node m x = Some n' /\ nd_e n' = nd_e n) ->
    (forall x, ~ In x (map fst (L h)) -> x <> a -> m_node m' x = m_node m x) ->
    brok m' h (L h ++ [(a, e)]) -> Own m' (lset L h (L h ++ [(a, e)]))).
  { intros m' _ F1 F2 F3 Bn. split.
    - intros g. unfold lset. destruct (N.eqb_spec g h) as [->|Hg]; [exact Bn|].
      pose proof (o_br _ _ O g) as Bg. unfold brok in *. rewrite (F1 _ Hg). destruct (m_branch m g) as [b|]; [|exact Bg].
      destruct Bg as (S & B1 & B2). split; [|auto]. eapply lseg_frame; [|exact S]. intros x Hx. apply F3.
      + intros Hx'. apply Hg. symmetry. eapply own_once; eauto.
      + intros ->. apply (Fr g Hx).
    - intros g. unfold lset. destruct (N.eqb_spec g h) as [->|Hg]; [|apply O].
      rewrite map_app. cbn [map fst].
      pose proof (o_nd _ _ O h) as X. clear -X Fr.
      specialize (Fr h). induction (map fst (L h)) as [|y l IH]; cbn [app].
      + constructor; [intros []|constructor].
      + inversion X; subst. constructor.
        * rewrite in_app_iff. cbn [In]. intros [Y|[Y|[]]]; [contradiction|]. subst. apply Fr. now left.
        * apply IH; auto. intros Y. apply Fr. now right.
    - intros g x ex. unfold lset. destruct (N.eqb_spec g h) as [->|Hg]; [|apply O].
      rewrite in_app_iff. intros [I|[I|[]]]; [now apply (o_hash _ _ O h x ex)|]. injection I as <- <-. reflexivity.
    - intros x n Hx. destruct (F2 _ _ Hx) as [(-> & E)|(n' & N' & E)].
      + rewrite E. fold h. rewrite lset_same, in_app_iff. right. now left.
      + rewrite <- E. pose proof (o_all _ _ O _ _ N') as I. unfold lset. destruct (N.eqb_spec (hash (e_id (nd_e n'))) h) as [Eh|]; [|exact I].
        rewrite Eh in I. rewrite in_app_iff. now left. }
  destruct (m_branch m h) as [b|] eqn:Eb.
  - destruct B as (S & B1 & B2). rewrite B1.
    destruct (snoc_case (L h)) as [El|(l' & [c ec] & El)].
    + rewrite El in *. cbn [lseg] in S. rewrite S. rewrite last_nil. unfold link. cbn [m_node put_branch put_node]. rewrite N.eqb_refl.
      eexists. split; [reflexivity|]. apply FIN.
      * cbn [m_branch put_branch put_node]. now rewrite N.eqb_refl.
      * intros g Hg. cbn [m_branch put_branch put_node]. destruct (N.eqb_spec g h); [contradiction|reflexivity].
      * intros x n. cbn [m_node put_branch put_node nd_e]. destruct (N.eqb_spec x a) as [->|]; [intros X; injection X as <-; left; auto|]. right. eauto.
      * intros x _ Hx. cbn [m_node put_branch put_node]. destruct (N.eqb_spec x a); [contradiction|reflexivity].
      * unfold brok. cbn [m_branch m_node put_branch put_node nd_e app]. rewrite N.eqb_refl. cbn [br_list br_last br_len].
        split; [|split; [reflexivity|]].
        -- cbn [lseg]. split; [reflexivity|]. exists None. rewrite N.eqb_refl. auto.
        -- rewrite B2. cbn [length]. unfold u64. lia.
    + rewrite El, last_snoc. assert (Ic : In (c, ec) (L h)) by (rewrite El, in_app_iff; right; now left).
      destruct (own_node _ _ _ _ _ O Ic) as (nx & Nc). assert (Hca : c <> a) by (intros ->; congruence).
      unfold link at 1. cbn [m_node put_branch put_node]. destruct (N.eqb_spec c a) as [|_]; [contradiction|]. rewrite Nc.
      unfold link. cbn [m_node put_branch put_node]. destruct (N.eqb_spec a c) as [|_]; [congruence|]. rewrite N.eqb_refl.
      eexists. split; [reflexivity|]. rewrite <- El. apply FIN.
      * cbn [m_branch put_branch put_node]. now rewrite N.eqb_refl.
      * intros g Hg. cbn [m_branch put_branch put_node]. destruct (N.eqb_spec g h); [contradiction|reflexivity].
      * intros x n. cbn [m_node put_branch put_node nd_e]. destruct (N.eqb_spec x a) as [->|]; [intros X; injection X as <-; left; auto|].
        destruct (N.eqb_spec x c) as [->|]; [intros X; injection X as <-; right; eauto|]. right. eauto.
      * intros x Hx Hxa. cbn [m_node put_branch put_node]. destruct (N.eqb_spec x a); [contradiction|].
        destruct (N.eqb_spec x c) as [->|]; [|reflexivity]. exfalso. apply Hx. now apply in_fst in Ic.
      * unfold brok. cbn [m_branch m_node put_branch put_node nd_e]. rewrite N.eqb_refl. cbn [br_list br_last br_len].
        split; [|split; [now rewrite last_snoc|]].
        -- apply lseg_app. exists (Some a). split.
           ++ assert (Hl : br_list b <> None). { rewrite El in S. destruct l' as [|[c1 e1] l']; cbn [app lseg] in S; destruct S as (-> & _); discriminate. }
              destruct (br_list b) as [bl|] eqn:Ebl; [|contradiction].
              rewrite El in *. pose proof (o_nd _ _ O h) as ND. rewrite El, map_app in ND. cbn [map fst] in ND.
              assert (Hc : ~ In c (map fst l')) by (apply NoDup_remove_2 in ND; rewrite app_nil_r in ND; exact ND).
              pose proof (lseg_relink _ _ _ _ _ _ (Some a) S Hc) as R. eapply lseg_frame; [|exact R].
              intros x Hx. cbn beta. destruct (N.eqb_spec x a) as [->|]; [|reflexivity]. exfalso. apply (Fr h). now rewrite El.
           ++ cbn [lseg]. split; [reflexivity|]. exists None. rewrite N.eqb_refl. auto.
        -- rewrite B2, app_length. cbn [length]. unfold u64. lia.
  - rewrite B in *. cbn [br_list br_last br_len]. unfold link. cbn [m_node put_branch put_node]. rewrite N.eqb_refl.
    eexists. split; [reflexivity|]. apply FIN.
    + cbn [m_branch put_branch put_node]. now rewrite N.eqb_refl.
    + intros g Hg. cbn [m_branch put_branch put_node]. destruct (N.eqb_spec g h); [contradiction|reflexivity].
    + intros x n. cbn [m_node put_branch put_node nd_e]. destruct (N.eqb_spec x a) as [->|]; [intros X; injection X as <-; left; auto|]. right. eauto.
    + intros x _ Hx. cbn [m_node put_branch put_node]. destruct (N.eqb_spec x a); [contradiction|reflexivity].
    + unfold brok. cbn [m_branch m_node put_branch put_node nd_e app]. rewrite N.eqb_refl. cbn [br_list br_last br_len].
      split; [|split; [reflexivity|]].
      * cbn [lseg]. split; [reflexivity|]. exists None. rewrite N.eqb_refl. auto.
      * cbn [length]. reflexivity.
Qed.

(* ---- removal ---- *)

Lemma last_in l z : last_of l = Some z -> In z (map fst l).
Proof.
  unfold last_of. intros H. destruct (rev l) as [|[a e] r] eqn:E; [discriminate|]. injection H as <-.
  apply (in_fst a e). apply in_rev. rewrite E. now left.
Qed.

Lemma last_app l1 x l2 : last_of (l1 ++ x :: l2) = last_of (x :: l2).
Proof.
  unfold last_of. rewrite rev_app_distr. destruct (rev (x :: l2)) as [|y r] eqn:E.
  - apply (f_equal (@length _)) in E. rewrite rev_length in E. discriminate.
  - reflexivity.
Qed.

Lemma ptr_eq_spec a b : ptr_eq a b = true <-> a = b.
Proof. destruct a, b; cbn; split; try congruence; intros H; [f_equal; lia|injection H as ->; apply N.eqb_refl]. Qed.

Lemma nodup_mid l1 (a : N) (e : entry) l2 : NoDup (map fst (l1 ++ (a, e) :: l2)) ->
  NoDup (map fst (l1 ++ l2)) /\ ~ In a (map fst l1) /\ ~ In a (map fst l2).
Proof.
  rewrite !map_app. cbn [map fst]. intros H. split; [now apply NoDup_remove_1 in H|].
  apply NoDup_remove_2 in H. rewrite in_app_iff in H. tauto.
Qed.

Lemma last_remove l1 a e l2 : NoDup (map fst (l1 ++ (a, e) :: l2)) ->
  (if ptr_eq (last_of (l1 ++ (a, e) :: l2)) (Some a) then last_of l1 else last_of (l1 ++ (a, e) :: l2)) = last_of (l1 ++ l2).
Proof.
  intros H. destruct (nodup_mid _ _ _ _ H) as (_ & _ & H2). rewrite last_app.
  destruct l2 as [|x l2].
  - cbn [last_of rev app]. rewrite (proj2 (ptr_eq_spec _ _) eq_refl), app_nil_r. reflexivity.
  - change ((a, e) :: x :: l2) with ([(a, e)] ++ x :: l2). rewrite !last_app.
    destruct (ptr_eq _ _) eqn:E; [|reflexivity]. apply ptr_eq_spec in E. apply last_in in E. contradiction.
Qed.

Definition head_of (l : list (N * entry)) (q : option N) : option N := match l with [] => q | (a, _) :: _ => Some a end.
Lemma lseg_head nd p l q : lseg nd p l q -> p = head_of l q.
Proof. destruct l as [|[a e] l]; cbn; [auto|]. now intros (-> & _). Qed.

Lemma own_ext m L L' : (forall h, L h = L' h) -> Own m L -> Own m L'.
Proof.
  intros E O. split.
  - intros h. rewrite <- E. apply O.
  - intros h. rewrite <- E. apply O.
  - intros h a e. rewrite <- E. apply O.
  - intros a n H. rewrite <- E. now apply O.
Qed.

Lemma own_remove m L h l1 a e l2 : Own m L -> L h = l1 ++ (a, e) :: l2 ->
  exists m1, branch_remove h a (last_of l1) m = Some m1 /\ Own (put_node a None m1) (lset L h (l1 ++ l2)).
Proof.
  intros O El. pose proof (o_br _ _ O h) as B. unfold brok in B. unfold branch_remove.
  destruct (m_branch m h) as [b|] eqn:Eb; [|rewrite El in B; destruct l1; discriminate].
  destruct B as (S & B1 & B2). rewrite El in S, B1, B2. pose proof (o_nd _ _ O h) as ND. rewrite El in ND.
  destruct (nodup_mid _ _ _ _ ND) as (ND' & Na1 & Na2).
  apply lseg_app in S. destruct S as (r & S1 & S2). cbn [lseg] in S2. destruct S2 as (-> & nx & Nd & S2). rewrite Nd. cbn [nd_next].
  rewrite B1, (last_remove _ _ _ _ ND).
  assert (Len : sub64 (br_len b) 1 = u64 (N.of_nat (length (l1 ++ l2)))).
  { rewrite B2, !app_length. cbn [length]. unfold sub64, u64. lia. }
  assert (FIN : forall m', 
    (forall g, g <> h -> m_branch m' g = m_branch m g) ->
    (forall x n, m_node m' x = Some n -> x <> a /\ exists n', m_node m x = Some n' /\ nd_e n' = nd_e n) ->
    (forall x, ~ In x (map fst (L h)) -> m_node m' x = m_node m x) ->
    brok m' h (l1 ++ l2) -> Own m' (lset L h (l1 ++ l2))).
  { intros m' F1 F2 F3 Bn. split.
    - intros g. unfold lset. destruct (N.eqb_spec g h) as [->|Hg]; [exact Bn|].
      pose proof (o_br _ _ O g) as Bg. unfold brok in *. rewrite (F1 _ Hg). destruct (m_branch m g) as [b'|]; [|exact Bg].
      destruct Bg as (S & B1' & B2'). split; [|auto]. eapply lseg_frame; [|exact S]. intros x Hx. apply F3.
      intros Hx'. apply Hg. symmetry. eapply own_once; eauto.
    - intros g. unfold lset. destruct (N.eqb_spec g h) as [->|Hg]; [exact ND'|apply O].
    - intros g x ex. unfold lset. destruct (N.eqb_spec g h) as [->|Hg]; [|apply O].
      intros I. apply (o_hash _ _ O h x ex). rewrite El, in_app_iff in *. cbn [In]. tauto.
    - intros x n Hx. destruct (F2 _ _ Hx) as (Hxa & n' & N' & E).
      rewrite <- E. pose proof (o_all _ _ O _ _ N') as I. unfold lset. destruct (N.eqb_spec (hash (e_id (nd_e n'))) h) as [Eh|]; [|exact I].
      rewrite Eh, El, in_app_iff in I. rewrite in_app_iff. cbn [In] in I. destruct I as [I|[I|I]]; auto. injection I as I _. congruence. }
  assert (Ia : In a (map fst (L h))) by (rewrite El, map_app, in_app_iff; right; now left).
  destruct (snoc_case l1) as [E1|(l' & [c ec] & E1)].
  - subst l1. cbn [lseg app] in *. rewrite S1, (proj2 (ptr_eq_spec _ _) eq_refl). rewrite last_nil. eexists. split; [reflexivity|]. apply FIN.
    + intros g Hg. cbn [m_branch put_branch put_node]. destruct (N.eqb_spec g h); [contradiction|reflexivity].
    + intros x n. cbn [m_node put_branch put_node]. destruct (N.eqb_spec x a); [discriminate|eauto].
    + intros x Hx. cbn [m_node put_branch put_node]. destruct (N.eqb_spec x a); [subst; contradiction|reflexivity].
    + unfold brok. cbn [m_branch m_node put_branch put_node]. rewrite N.eqb_refl. cbn [br_list br_last br_len].
      split; [|split; [reflexivity|exact Len]]. eapply lseg_frame; [|exact S2]. intros x Hx. cbn beta. destruct (N.eqb_spec x a); [subst; contradiction|reflexivity].
  - assert (Ic : In (c, ec) (L h)) by (rewrite El, E1, !in_app_iff; left; right; now left).
    destruct (own_node _ _ _ _ _ O Ic) as (cx & Nc).
    assert (Hca : c <> a). { intros ->. apply Na1. rewrite E1, map_app, in_app_iff. right. now left. }
    assert (Lc : last_of l1 = Some c) by (rewrite E1; apply last_snoc). rewrite Lc. unfold link. cbn [m_node put_branch]. rewrite Nc. cbn [nd_e].
    eexists. split; [reflexivity|]. apply FIN.
    + intros g Hg. cbn [m_branch put_branch put_node]. destruct (N.eqb_spec g h); [contradiction|reflexivity].
    + intros x n. cbn [m_node put_branch put_node]. destruct (N.eqb_spec x a); [discriminate|].
      destruct (N.eqb_spec x c) as [->|]; [|eauto]. intros X. injection X as <-. eauto.
    + intros x Hx. cbn [m_node put_branch put_node]. destruct (N.eqb_spec x a); [subst; contradiction|].
      destruct (N.eqb_spec x c) as [->|]; [|reflexivity]. apply in_fst in Ic. contradiction.
    + unfold brok. cbn [m_branch m_node put_branch put_node]. rewrite N.eqb_refl. cbn [br_list br_last br_len].
      assert (Hl : ptr_eq (br_list b) (Some a) = false).
      { destruct (ptr_eq (br_list b) (Some a)) eqn:X; [|reflexivity]. apply ptr_eq_spec in X.
        apply lseg_head in S1. rewrite X in S1. exfalso. apply Na1. rewrite E1 in S1. rewrite E1. destruct l' as [|[z ez] l'']; cbn [app head_of map fst] in *.
        - injection S1 as ->. now left.
        - injection S1 as ->. now left. }
      rewrite Hl. split; [|split; [reflexivity|exact Len]].
      rewrite E1 in S1, Na1, ND', ND. apply lseg_app. exists nx. split.
      * assert (Hc : ~ In c (map fst l')).
        { rewrite <- app_assoc in ND'. cbn [app] in ND'. apply nodup_mid in ND'. tauto. }
        rewrite E1. pose proof (lseg_relink _ _ _ _ _ _ nx S1 Hc) as R. eapply lseg_frame; [|exact R].
        intros x Hx. cbn beta. destruct (N.eqb_spec x a); [subst; contradiction|reflexivity].
      * eapply lseg_frame; [|exact S2]. intros x Hx. cbn beta. destruct (N.eqb_spec x a); [subst; contradiction|].
        destruct (N.eqb_spec x c) as [->|]; [|reflexivity]. exfalso.
        rewrite <- app_assoc in ND'. cbn [app] in ND'. apply nodup_mid in ND'. tauto.
Qed.

(* ---- loops ---- *)

Lemma previous_ok m a e l2 q : forall l1 p prev fuel, lseg (m_node m) p (l1 ++ (a, e) :: l2) q -> ~ In a (map fst l1) ->
  (length l1 < fuel)%nat -> previous_loop fuel m a prev p = Some (match last_of l1 with None => prev | s => s end).
Proof.
  induction l1 as [|[b eb] l1 IH]; intros p prev fuel S Hn F.
  - destruct fuel; [lia|]. cbn [app lseg] in S. destruct S as (-> & _). cbn [previous_loop]. now rewrite N.eqb_refl.
  - destruct fuel; [lia|]. cbn [app lseg] in S. destruct S as (-> & nx & N1 & S). cbn [previous_loop map fst In length] in *.
    destruct (N.eqb_spec b a) as [->|]; [exfalso; apply Hn; now left|]. rewrite N1. cbn [nd_next].
    rewrite (IH nx (Some b) fuel S); [|tauto|lia]. destruct l1 as [|x l1]; [reflexivity|].
    change ((b, eb) :: x :: l1) with ([(b, eb)] ++ x :: l1). rewrite last_app.
    destruct (last_of (x :: l1)) eqn:E; [reflexivity|]. unfold last_of in E. destruct (rev (x :: l1)) as [|[] ?] eqn:R; [|discriminate].
    apply (f_equal (@length _)) in R. rewrite rev_length in R. discriminate.
Qed.

Definition hit (ns : N) (id : bytes) (x : N * entry) : bool := entry_matches ns id (snd x).

Lemma split_hit ns id l : (exists l1 a e l2, l = l1 ++ (a, e) :: l2 /\ hit ns id (a, e) = true /\ forallb (fun x => negb (hit ns id x)) l1 = true)
  \/ forallb (fun x => negb (hit ns id x)) l = true.
Proof.
  induction l as [|[a e] l IH]; [now right|]. destruct (hit ns id (a, e)) eqn:E; [left; exists [], a, e, l; auto|].
  destruct IH as [(l1 & b & eb & l2 & -> & H1 & H2)|H].
  - left. exists ((a, e) :: l1), b, eb, l2. cbn [app forallb]. rewrite E, H2. auto.
  - right. cbn [forallb]. now rewrite E, H.
Qed.

Lemma get_cond (e : entry) ns id (A : Type) (x y : A) :
  (if negb (blen (e_id e) =? blen id) then x else if negb (e_ns e =? ns) then x else if bseqb (e_id e) id then y else x) =
  if entry_matches ns id e then y else x.
Proof.
  unfold entry_matches. destruct (N.eqb_spec (blen (e_id e)) (blen id)) as [L|L]; cbn [negb].
  - destruct (e_ns e =? ns); cbn [negb andb]; reflexivity.
  - destruct (e_ns e =? ns); cbn [andb]; [|reflexivity]. destruct (bseqb (e_id e) id) eqn:E; [|reflexivity].
    apply bseqb_eq in E. congruence.
Qed.

Lemma get_ok m ns id q l2 : forall l1 p fuel, lseg (m_node m) p (l1 ++ l2) q -> forallb (fun x => negb (hit ns id x)) l1 = true ->
  match l2 with (a, e) :: _ => hit ns id (a, e) = true | [] => q = None end -> (length l1 < fuel)%nat ->
  get_loop fuel m ns id p = Some (match l2 with (a, _) :: _ => Some a | [] => None end).
Proof.
  induction l1 as [|[b eb] l1 IH]; intros p fuel S Hn Hq F; (destruct fuel; [lia|]); cbn [app lseg get_loop] in *.
  - destruct l2 as [|[a e] l2]; cbn [lseg] in S; [subst; reflexivity|]. destruct S as (-> & nx & N1 & S). rewrite N1. cbn [nd_e nd_next].
    rewrite get_cond. unfold hit in Hq. cbn [snd] in Hq. now rewrite Hq.
  - destruct S as (-> & nx & N1 & S). rewrite N1. cbn [nd_e nd_next]. rewrite get_cond.
    cbn [forallb] in Hn. apply andb_prop in Hn. destruct Hn as [H1 H2]. unfold hit in H1 at 1. cbn [snd] in H1.
    destruct (entry_matches ns id eb); [discriminate|]. apply IH; auto. cbn [length] in F. lia.
Qed.

Lemma entry_get_hit m L ns id l1 a e l2 fuel : Own m L -> L (hash id) = l1 ++ (a, e) :: l2 -> hit ns id (a, e) = true ->
  forallb (fun x => negb (hit ns id x)) l1 = true -> (length (L (hash id)) < fuel)%nat -> entry_get hash fuel ns id m = Some (Some a).
Proof.
  intros O El H1 H2 F. unfold entry_get. pose proof (o_br _ _ O (hash id)) as B. unfold brok in B.
  destruct (m_branch m (hash id)) as [b|]; [|rewrite El in B; destruct l1; discriminate]. destruct B as (S & _). rewrite El in *.
  rewrite (get_ok _ _ _ _ _ _ _ fuel S H2 H1); [reflexivity|]. rewrite app_length in F. lia.
Qed.

Lemma entry_get_miss m L ns id fuel : Own m L -> forallb (fun x => negb (hit ns id x)) (L (hash id)) = true ->
  (length (L (hash id)) < fuel)%nat -> entry_get hash fuel ns id m = Some None.
Proof.
  intros O H F. unfold entry_get. pose proof (o_br _ _ O (hash id)) as B. unfold brok in B.
  destruct (m_branch m (hash id)) as [b|]; [|reflexivity]. destruct B as (S & _). rewrite <- (app_nil_r (L (hash id))) in S.
  exact (get_ok _ _ _ _ [] _ _ fuel S H eq_refl F).
Qed.

Lemma own_delete m L h l1 a e l2 fuel : Own m L -> L h = l1 ++ (a, e) :: l2 -> (length (L h) < fuel)%nat ->
  exists m', entry_delete hash fuel a m = Some m' /\ Own m' (lset L h (l1 ++ l2)).
Proof.
  intros O El F. unfold entry_delete.
  assert (Ia : In (a, e) (L h)) by (rewrite El, in_app_iff; right; now left).
  destruct (own_node _ _ _ _ _ O Ia) as (nx & Na). rewrite Na. cbn [nd_e]. rewrite (o_hash _ _ O _ _ _ Ia).
  pose proof (o_br _ _ O h) as B. unfold brok in B. destruct (m_branch m h) as [b|]; [|rewrite El in B; destruct l1; discriminate].
  destruct B as (S & _). pose proof (o_nd _ _ O h) as ND. rewrite El in S, ND. destruct (nodup_mid _ _ _ _ ND) as (_ & Na1 & _).
  rewrite (previous_ok _ _ _ _ _ _ _ None fuel S Na1); [|rewrite El, app_length in F; lia].
  assert (X : match last_of l1 with None => None | s => s end = last_of l1) by (destruct (last_of l1); reflexivity).
  rewrite X. destruct (ptr_eq (last_of l1) (Some a)) eqn:E.
  { apply ptr_eq_spec in E. apply last_in in E. contradiction. }
  destruct (own_remove m L h l1 a e l2 O El) as (m1 & -> & O1). eauto.
Qed.

Lemma own_update m L h l1 a e l2 f nx : Own m L -> L h = l1 ++ (a, e) :: l2 -> e_id (f e) = e_id e ->
  m_node m a = Some (mkNode e nx) -> Own (put_node a (Some (mkNode (f e) nx)) m) (lset L h (l1 ++ (a, f e) :: l2)).
Proof.
  intros O El Hf Na. pose proof (o_nd _ _ O h) as ND. rewrite El in ND. destruct (nodup_mid _ _ _ _ ND) as (_ & Na1 & Na2).
  assert (Ia : In (a, e) (L h)) by (rewrite El, in_app_iff; right; now left).
  assert (LL : length (l1 ++ (a, f e) :: l2) = length (L h)) by (rewrite El, !app_length; reflexivity).
  assert (LA : last_of (l1 ++ (a, f e) :: l2) = last_of (L h)).
  { rewrite El, !last_app. destruct l2 as [|x l2]; [reflexivity|].
    change ((a, f e) :: x :: l2) with ([(a, f e)] ++ x :: l2). change ((a, e) :: x :: l2) with ([(a, e)] ++ x :: l2). now rewrite !last_app. }
  split.
  - intros g. unfold lset, brok. cbn [m_branch m_node put_node]. destruct (N.eqb_spec g h) as [->|Hg].
    + pose proof (o_br _ _ O h) as B. unfold brok in B. destruct (m_branch m h) as [b|]; [|rewrite El in B; destruct l1; discriminate].
      destruct B as (S & B1 & B2). split; [|rewrite LL, LA; auto]. rewrite El in S. apply lseg_app in S. destruct S as (r & S1 & S2).
      apply lseg_app. exists r. split.
      * eapply lseg_frame; [|exact S1]. intros x Hx. cbn beta. destruct (N.eqb_spec x a); [subst; contradiction|reflexivity].
      * cbn [lseg] in *. destruct S2 as (-> & nx' & N1 & S2). split; [reflexivity|]. exists nx. rewrite N.eqb_refl. split; [reflexivity|].
        assert (nx' = nx) by congruence. subst nx'. eapply lseg_frame; [|exact S2]. intros x Hx. cbn beta. destruct (N.eqb_spec x a); [subst; contradiction|reflexivity].
    + pose proof (o_br _ _ O g) as B. unfold brok in B. destruct (m_branch m g) as [b|]; [|exact B]. destruct B as (S & B1 & B2).
      split; [|auto]. eapply lseg_frame; [|exact S]. intros x Hx. cbn beta. destruct (N.eqb_spec x a) as [->|]; [|reflexivity].
      exfalso. apply Hg. apply in_fst in Ia. eapply own_once; eauto.
  - intros g. unfold lset. destruct (N.eqb_spec g h) as [->|Hg]; [|apply O]. rewrite map_app in *. exact ND.
  - intros g x ex. unfold lset. destruct (N.eqb_spec g h) as [->|Hg]; [|apply O]. rewrite in_app_iff. cbn [In]. intros [I|[I|I]].
    + apply (o_hash _ _ O h x ex). rewrite El, in_app_iff. now left.
    + injection I as <- <-. rewrite Hf. now apply (o_hash _ _ O h a e).
    + apply (o_hash _ _ O h x ex). rewrite El, in_app_iff. right. now right.
  - intros x n. cbn [m_node put_node]. destruct (N.eqb_spec x a) as [->|Hx].
    + intros X. injection X as <-. cbn [nd_e]. rewrite Hf, (o_hash _ _ O _ _ _ Ia), lset_same, in_app_iff. right. now left.
    + intros Hn. pose proof (o_all _ _ O _ _ Hn) as I. unfold lset. destruct (N.eqb_spec (hash (e_id (nd_e n))) h) as [Eh|]; [|exact I].
      rewrite Eh, El, in_app_iff in I. rewrite in_app_iff. cbn [In] in *. destruct I as [I|[I|I]]; auto. injection I as I _. congruence.
Qed.

Definition stays (ns : N) (x : N * entry) : bool := negb (e_ns (snd x) =? ns).

Lemma clean_loop_ok h ns : forall R K m L fuel, Own m L -> L h = K ++ R -> (length R < fuel)%nat ->
  exists m', clean_loop fuel h ns (last_of K) (head_of R None) m = Some m' /\ Own m' (lset L h (K ++ filter (stays ns) R)).
Proof.
  induction R as [|[a e] R IH]; intros K m L fuel O El F; (destruct fuel; [lia|]); cbn [clean_loop head_of filter].
  - exists m. split; [reflexivity|]. eapply own_ext; [|exact O]. intros g. unfold lset. destruct (N.eqb_spec g h) as [->|]; auto.
  - assert (Ia : In (a, e) (L h)) by (rewrite El, in_app_iff; right; now left).
    pose proof (o_br _ _ O h) as B. unfold brok in B. destruct (m_branch m h) as [b|] eqn:Eb; [|rewrite El in B; destruct K; discriminate].
    destruct B as (S & _). rewrite El in S. apply lseg_app in S. destruct S as (r & _ & S2). cbn [lseg] in S2. destruct S2 as (-> & nx & Na & S2).
    rewrite Na. cbn [nd_e nd_next]. apply lseg_head in S2. subst nx. change (stays ns (a, e)) with (negb (e_ns e =? ns)). cbn [length] in *.
    destruct (negb (e_ns e =? ns)) eqn:E.
    + destruct (IH (K ++ [(a, e)]) m L fuel O) as (m' & C1 & C2); [rewrite El, <- app_assoc; reflexivity|lia|].
      rewrite last_snoc in C1. exists m'. split; [exact C1|]. rewrite <- app_assoc in C2. exact C2.
    + destruct (own_remove m L h K a e R O El) as (m1 & -> & O1).
      destruct (IH K _ _ fuel O1) as (m' & C1 & C2); [apply lset_same|lia|]. exists m'. split; [exact C1|].
      eapply own_ext; [|exact C2]. intros g. unfold lset. destruct (N.eqb_spec g h); reflexivity.
Qed.

Lemma clean_buckets_ok fuel ns : forall k b m L, Own m L -> (forall h, (length (L h) < fuel)%nat) ->
  exists m', clean_buckets fuel k b ns m = Some m' /\
    Own m' (fun h => if (b <=? h) && (h <? b + N.of_nat k) then filter (stays ns) (L h) else L h).
Proof.
  induction k as [|k IH]; intros b m L O F; cbn [clean_buckets].
  - exists m. split; [reflexivity|]. eapply own_ext; [|exact O]. intros h. destruct (N.leb_spec b h), (N.ltb_spec h (b + N.of_nat 0)); cbn [andb]; auto. lia.
  - assert (NX : forall m1 L1, Own m1 L1 -> (forall h, L1 h = if h =? b then filter (stays ns) (L h) else L h) ->
      exists m', clean_buckets fuel k (b + 1) ns m1 = Some m' /\
        Own m' (fun h => if (b <=? h) && (h <? b + N.of_nat (S k)) then filter (stays ns) (L h) else L h)).
    { intros m1 L1 O1 E1. destruct (IH (b + 1) m1 L1 O1) as (m' & C1 & C2).
      - intros h. rewrite E1. specialize (F h). destruct (h =? b); [|exact F].
        assert (length (filter (stays ns) (L h)) <= length (L h))%nat; [|lia]. clear. induction (L h) as [|x l IH]; cbn; [lia|]. destruct (stays ns x); cbn; lia.
      - exists m'. split; [exact C1|]. eapply own_ext; [|exact C2]. intros h. cbn beta. rewrite E1.
        destruct (N.eqb_spec h b), (N.leb_spec (b + 1) h), (N.leb_spec b h), (N.ltb_spec h (b + 1 + N.of_nat k)), (N.ltb_spec h (b + N.of_nat (S k)));
          cbn [andb]; try reflexivity; exfalso; lia. }
    pose proof (o_br _ _ O b) as B. unfold brok in B. destruct (m_branch m b) as [br|] eqn:Eb.
    + destruct B as (S & _). apply lseg_head in S. rewrite S.
      destruct (clean_loop_ok b ns (L b) [] m L fuel O eq_refl (F b)) as (m1 & C1 & C2). rewrite last_nil in C1. rewrite C1.
      apply (NX m1 _ C2). intros h. unfold lset. destruct (N.eqb_spec h b) as [->|]; reflexivity.
    + apply (NX m L O). intros h. destruct (N.eqb_spec h b) as [->|]; [|reflexivity]. now rewrite B.
Qed.

(* ---- more fuel changes nothing ---- *)

Lemma previous_mono m a : forall f p i r f', previous_loop f m a p i = Some r -> (f <= f')%nat -> previous_loop f' m a p i = Some r.
Proof.
  induction f as [|f IH]; intros p i r f' H Hf; [discriminate|]. destruct f' as [|f']; [lia|]. cbn [previous_loop] in *.
  destruct i as [q|]; [|exact H]. destruct (q =? a); [exact H|]. destruct (m_node m q); [|discriminate]. eapply IH; [exact H|lia].
Qed.

Lemma get_mono m ns id : forall f p r f', get_loop f m ns id p = Some r -> (f <= f')%nat -> get_loop f' m ns id p = Some r.
Proof.
  induction f as [|f IH]; intros p r f' H Hf; [discriminate|]. destruct f' as [|f']; [lia|]. cbn [get_loop] in *.
  destruct p as [q|]; [|exact H]. destruct (m_node m q); [|discriminate]. rewrite get_cond in *.
  destruct (entry_matches _ _ _); [exact H|]. eapply IH; [exact H|lia].
Qed.

Lemma clean_mono h ns : forall f prev p m r f', clean_loop f h ns prev p m = Some r -> (f <= f')%nat -> clean_loop f' h ns prev p m = Some r.
Proof.
  induction f as [|f IH]; intros prev p m r f' H Hf; [discriminate|]. destruct f' as [|f']; [lia|]. cbn [clean_loop] in *.
  destruct p as [q|]; [|exact H]. destruct (m_node m q); [|discriminate]. destruct (negb _); [eapply IH; [exact H|lia]|].
  destruct (branch_remove _ _ _ _); [|discriminate]. eapply IH; [exact H|lia].
Qed.

Lemma cleanb_mono ns f f' : (f <= f')%nat -> forall k b m r, clean_buckets f k b ns m = Some r -> clean_buckets f' k b ns m = Some r.
Proof.
  intros Hf. induction k as [|k IH]; intros b m r H; cbn [clean_buckets] in *; [exact H|].
  destruct (m_branch m b); [|auto]. destruct (clean_loop f _ _ _ _ _) eqn:E; [|discriminate]. rewrite (clean_mono _ _ _ _ _ _ _ _ E Hf). auto.
Qed.

Lemma do_mono nb f f' a m c r : (f <= f')%nat -> do_cmd hash nb f a m c = Some r -> do_cmd hash nb f' a m c = Some r.
Proof.
  intros Hf. 
  assert (G : forall ns id x, entry_get hash f ns id m = Some x -> entry_get hash f' ns id m = Some x).
  { intros ns id x. unfold entry_get. destruct (m_branch m (hash id)); [|auto]. intros H. eapply get_mono; eauto. }
  destruct c; cbn [do_cmd]; auto.
  - destruct (entry_get hash f ns id m) eqn:E; [|discriminate]. now rewrite (G _ _ _ E).
  - destruct (entry_get hash f ns id m) eqn:E; [|discriminate]. now rewrite (G _ _ _ E).
  - destruct (entry_get hash f ns id m) as [[p|]|] eqn:E; [| |discriminate]; rewrite (G _ _ _ E); auto.
    destruct (entry_delete hash f p m) as [m1|] eqn:D; [|discriminate]. intros H.
    assert (X : entry_delete hash f' p m = Some m1); [|now rewrite X].
    unfold entry_delete in *. destruct (m_node m p); [|discriminate]. destruct (m_branch m _); [|discriminate].
    destruct (previous_loop f _ _ _ _) eqn:P; [|discriminate]. rewrite (previous_mono _ _ _ _ _ _ _ P Hf). exact D.
  - destruct (clean_buckets f nb 0 ns m) eqn:E; [|discriminate]. now rewrite (cleanb_mono _ _ _ Hf _ _ _ _ E).
Qed.

(* ---- one command ---- *)

Definition g_step (t : table) (c : cmd) : option entry * table :=
  match c with
  | CGet ns id => (find (entry_matches ns id) (t (hash id)), t)
  | CInsert e => (None, tset t (hash (e_id e)) (t (hash (e_id e)) ++ [e]))
  | CUpdate ns id f => (None, tset t (hash id) (upd_first (entry_matches ns id) f (t (hash id))))
  | CDelete ns id => (None, tset t (hash id) (del_first (entry_matches ns id) (t (hash id))))
  | CClean ns => (None, table_clean t ns)
  end.

Definition rep (m : mem) (t : table) : Prop := exists L, Own m L /\ forall h, map snd (L h) = t h.

Lemma miss_find ns id l : forallb (fun x => negb (hit ns id x)) l = true -> find (entry_matches ns id) (map snd l) = None.
Proof. induction l as [|[a e] l IH]; [reflexivity|]. cbn [forallb map find hit snd]. intros H. apply andb_prop in H. destruct H as [H1 H2]. unfold hit in H1. cbn [snd] in H1. destruct (entry_matches ns id e); [discriminate|auto]. Qed.
Lemma miss_app {A} (F : list entry -> A) ns id l r : forallb (fun x => negb (hit ns id x)) l = true ->
  find (entry_matches ns id) (map snd l ++ r) = find (entry_matches ns id) r /\
  (forall f, upd_first (entry_matches ns id) f (map snd l ++ r) = map snd l ++ upd_first (entry_matches ns id) f r) /\
  del_first (entry_matches ns id) (map snd l ++ r) = map snd l ++ del_first (entry_matches ns id) r.
Proof.
  induction l as [|[a e] l IH]; [auto|]. cbn [forallb]. intros H. apply andb_prop in H. destruct H as [H1 H2]. unfold hit in H1. cbn [snd] in H1.
  destruct (IH H2) as (A1 & A2 & A3). cbn [map snd app find upd_first del_first]. destruct (entry_matches ns id e); [discriminate|].
  split; [exact A1|]. split; [intros f; now rewrite A2|now rewrite A3].
Qed.

Lemma step_ok nb m t c a n : (forall k, hash k < N.of_nat nb) -> rep m t -> (forall h, (length (t h) <= n)%nat) -> m_node m a = None ->
  (match c with CUpdate ns id f => forall e, find (entry_matches ns id) (t (hash id)) = Some e -> e_id (f e) = id | _ => True end) ->
  exists m', (forall fuel, (n < fuel)%nat -> do_cmd hash nb fuel a m c = Some (fst (g_step t c), m')) /\ rep m' (snd (g_step t c)).
Proof.
  intros Hnb (L & O & EL) Hn Ha Hk.
  assert (HL : forall h, (length (L h) <= n)%nat) by (intros h; rewrite <- (map_length snd), EL; apply Hn).
  assert (TS : forall h l t1, map snd l = t1 -> forall g, map snd (lset L h l g) = tset t h t1 g).
  { intros h l t1 <- g. unfold lset, tset. destruct (g =? h); auto. }
  destruct c as [ns id|e|ns id f|ns id|ns]; cbn [do_cmd g_step fst snd].
  - exists m. split; [|exists L; auto]. intros fuel Hf. pose proof (HL (hash id)) as Hh. rewrite <- EL.
    destruct (split_hit ns id (L (hash id))) as [(l1 & b & e & l2 & El & H1 & H2)|H].
    + rewrite (entry_get_hit m L ns id l1 b e l2 fuel O El H1 H2) by lia. assert (I : In (b, e) (L (hash id))) by (rewrite El, in_app_iff; right; now left).
      destruct (own_node _ _ _ _ _ O I) as (nx & ->). cbn [nd_e]. rewrite El, map_app.
      rewrite (proj1 (miss_app (fun x => x) _ _ _ _ H2)). cbn [map snd find]. unfold hit in H1. cbn [snd] in H1. now rewrite H1.
    + rewrite (entry_get_miss m L ns id fuel O H) by lia. now rewrite miss_find.
  - destruct (own_insert m L a e O Ha) as (m' & -> & O'). exists m'. split; [reflexivity|]. eexists. split; [exact O'|]. apply TS. rewrite map_app, EL. reflexivity.
  - pose proof (HL (hash id)) as Hh.
    destruct (split_hit ns id (L (hash id))) as [(l1 & b & e & l2 & El & H1 & H2)|H].
    + assert (I : In (b, e) (L (hash id))) by (rewrite El, in_app_iff; right; now left).
      destruct (own_node _ _ _ _ _ O I) as (nx & Nb). pose proof H1 as H1'. unfold hit in H1'. cbn [snd] in H1'.
      exists (put_node b (Some (mkNode (f e) nx)) m). split.
      * intros fuel Hf. rewrite (entry_get_hit m L ns id l1 b e l2 fuel O El H1 H2) by lia. now rewrite Nb.
      * assert (Hid : e_id (f e) = e_id e).
        { rewrite (Hk e). { unfold entry_matches in H1'. apply andb_prop in H1'. destruct H1' as [_ X]. apply bseqb_eq in X. auto. }
          rewrite <- EL, El, map_app, (proj1 (miss_app (fun x => x) _ _ _ _ H2)). cbn [map snd find]. now rewrite H1'. }
        eexists. split; [exact (own_update _ _ _ _ _ _ _ f _ O El Hid Nb)|]. apply TS. rewrite <- EL, El, !map_app. cbn [map snd].
        rewrite (proj1 (proj2 (miss_app (fun x => x) _ _ _ _ H2))). cbn [upd_first]. now rewrite H1'.
    + exists m. split.
      * intros fuel Hf. rewrite (entry_get_miss m L ns id fuel O H) by lia. reflexivity.
      * exists L. split; [exact O|]. intros g. unfold tset. destruct (N.eqb_spec g (hash id)) as [->|]; [|apply EL].
        rewrite <- EL. pose proof (proj1 (proj2 (miss_app (fun x => x) _ _ _ [] H)) f) as X. cbn [upd_first] in X. rewrite app_nil_r in X. auto.
  - pose proof (HL (hash id)) as Hh.
    destruct (split_hit ns id (L (hash id))) as [(l1 & b & e & l2 & El & H1 & H2)|H].
    + pose proof H1 as H1'. unfold hit in H1'. cbn [snd] in H1'.
      assert (D : exists m', forall fuel, (n < fuel)%nat -> entry_delete hash fuel b m = Some m' /\ Own m' (lset L (hash id) (l1 ++ l2))).
      { destruct (own_delete m L (hash id) l1 b e l2 (S n) O El) as (m' & D & O'); [lia|]. exists m'. intros fuel Hf. split; [|exact O'].
        destruct (own_delete m L (hash id) l1 b e l2 fuel O El) as (m2 & D2 & _); [lia|].
        pose proof (fun X => do_mono nb (S n) fuel a m (CDelete ns id) (None, m') Hf X) as M. cbn [do_cmd] in M.
        rewrite (entry_get_hit m L ns id l1 b e l2 (S n) O El H1 H2), (entry_get_hit m L ns id l1 b e l2 fuel O El H1 H2), D, D2 in M; [|lia..].
        specialize (M eq_refl). congruence. }
      destruct D as (m' & D). exists m'. split.
      * intros fuel Hf. rewrite (entry_get_hit m L ns id l1 b e l2 fuel O El H1 H2) by lia. now rewrite (proj1 (D fuel Hf)).
      * eexists. split; [exact (proj2 (D (S n) (Nat.lt_succ_diag_r n)))|]. apply TS. rewrite <- EL, El, !map_app. cbn [map snd].
        rewrite (proj2 (proj2 (miss_app (fun x => x) _ _ _ _ H2))). cbn [del_first]. now rewrite H1'.
    + exists m. split.
      * intros fuel Hf. rewrite (entry_get_miss m L ns id fuel O H) by lia. reflexivity.
      * exists L. split; [exact O|]. intros g. unfold tset. destruct (N.eqb_spec g (hash id)) as [->|]; [|apply EL].
        rewrite <- EL. pose proof (proj2 (proj2 (miss_app (fun x => x) _ _ _ [] H))) as X. cbn [del_first] in X. rewrite !app_nil_r in X. auto.
  - destruct (clean_buckets_ok (S n) ns nb 0 m L O) as (m' & C1 & C2); [intros h; specialize (HL h); lia|].
    exists m'. split.
    + intros fuel Hf. now rewrite (cleanb_mono ns (S n) fuel Hf _ _ _ _ C1).
    + eexists. split; [exact C2|]. intros h. cbn beta. unfold table_clean. rewrite <- EL.
      assert (FM : forall l, map snd (filter (stays ns) l) = filter (fun e => negb (e_ns e =? ns)) (map snd l)).
      { clear. induction l as [|[a e] l IH]; [reflexivity|]. cbn [filter map snd]. change (stays ns (a, e)) with (negb (e_ns e =? ns)).
        destruct (negb (e_ns e =? ns)); cbn [map snd]; now rewrite IH. }
      destruct ((0 <=? h) && (h <? 0 + N.of_nat nb)) eqn:E; [apply FM|].
      destruct (L h) as [|[b e] l] eqn:El; [reflexivity|].
      assert (X : hash (e_id e) = h) by (apply (o_hash _ _ O h b e); rewrite El; now left). specialize (Hnb (e_id e)). lia.
Qed.

Lemma g_len t c n : (forall h, (length (t h) <= n)%nat) -> forall h, (length (snd (g_step t c) h) <= S n)%nat.
Proof.
  intros H h. destruct c as [ns id|e|ns id f|ns id|ns]; cbn [g_step snd]; unfold tset, table_clean.
  - specialize (H h). lia.
  - destruct (h =? hash (e_id e)); [rewrite app_length; cbn [length]; specialize (H (hash (e_id e))); lia|specialize (H h); lia].
  - destruct (h =? hash id); [|specialize (H h); lia].
    assert (X : forall g l, length (upd_first g f l) = length l) by (intros g l; induction l as [|x l IH]; cbn; [reflexivity|destruct (g x); cbn; lia]).
    rewrite X. specialize (H (hash id)). lia.
  - destruct (h =? hash id); [|specialize (H h); lia].
    assert (X : forall g l, (length (del_first g l) <= length l)%nat) by (intros g l; induction l as [|x l IH]; cbn; [lia|destruct (g x); cbn; lia]).
    specialize (H (hash id)). specialize (X (entry_matches ns id) (t (hash id))). lia.
  - assert (X : forall g (l : list entry), (length (filter g l) <= length l)%nat) by (intros g l; induction l as [|x l IH]; cbn; [lia|destruct (g x); cbn; lia]).
    specialize (H h). specialize (X (fun e => negb (e_ns e =? ns)) (t h)). lia.
Qed.

(* ---- runs ---- *)

Fixpoint g_run (t : table) (cs : list cmd) : list (option entry) * table :=
  match cs with
  | [] => ([], t)
  | c :: r => let '(o, t1) := g_step t c in let '(os, t2) := g_run t1 r in (o :: os, t2)
  end.
Definition g_keeps (t : table) (c : cmd) : Prop :=
  match c with CUpdate ns id f => forall e, find (entry_matches ns id) (t (hash id)) = Some e -> e_id (f e) = id | _ => True end.
Fixpoint g_proper (t : table) (cs : list cmd) : Prop :=
  match cs with [] => True | c :: r => g_keeps t c /\ g_proper (snd (g_step t c)) r end.

Lemma g_run_cons t c r : g_run t (c :: r) = (fst (g_step t c) :: fst (g_run (snd (g_step t c)) r), snd (g_run (snd (g_step t c)) r)).
Proof. cbn [g_run]. destruct (g_step t c) as [o t1]. cbn [fst snd]. now destruct (g_run t1 r). Qed.

Lemma step_any nb m t c a fuel o m' n : (forall k, hash k < N.of_nat nb) -> rep m t -> (forall h, (length (t h) <= n)%nat) -> m_node m a = None ->
  g_keeps t c -> do_cmd hash nb fuel a m c = Some (o, m') -> o = fst (g_step t c) /\ rep m' (snd (g_step t c)).
Proof.
  intros Hnb R Hn Ha Hk D. destruct (step_ok nb m t c a n Hnb R Hn Ha Hk) as (m2 & D2 & R2).
  specialize (D2 (S n + fuel)%nat). rewrite (do_mono nb fuel (S n + fuel) a m c _ ltac:(lia) D) in D2.
  specialize (D2 ltac:(lia)). injection D2 as -> ->. auto.
Qed.

Lemma runs_ok nb cs : forall m t n os m', (forall k, hash k < N.of_nat nb) -> rep m t -> (forall h, (length (t h) <= n)%nat) ->
  g_proper t cs -> runs hash nb m cs os m' -> 
  os = fst (g_run t cs) /\ rep m' (snd (g_run t cs)) /\ exists n', forall h, (length (snd (g_run t cs) h) <= n')%nat.
Proof.
  induction cs as [|c cs IH]; intros m t n os m' Hnb R Hn Hp RR; inversion RR; subst.
  - cbn [g_run fst snd]. eauto.
  - destruct Hp as [Hk Hp]. destruct (step_any nb m t c a fuel o m1 n Hnb R Hn) as [-> R1]; auto.
    destruct (IH m1 (snd (g_step t c)) (S n) os0 m' Hnb R1 (g_len t c n Hn) Hp) as (E1 & E2 & E3); [assumption|].
    rewrite g_run_cons. cbn [fst snd]. split; [now rewrite <- E1|auto].
Qed.

Lemma rep_init : rep buckets_init empty_table.
Proof. exists (fun _ => []). split; [apply own_init|reflexivity]. Qed.

(* ---- the map ---- *)

Definition uniq (t : table) : Prop :=
  forall h, NoDup (map (fun e => (e_ns e, e_id e)) (t h)) /\ forall e, In e (t h) -> hash (e_id e) = h.
Definition stands (t : table) (M : emap) : Prop := uniq t /\ forall ns id, M ns id = find (entry_matches ns id) (t (hash id)).

Lemma match_key ns id e : entry_matches ns id e = true <-> e_ns e = ns /\ e_id e = id.
Proof. unfold entry_matches. rewrite andb_true_iff, bseqb_eq, N.eqb_eq. tauto. Qed.

Lemma find_key ns id l e : NoDup (map (fun e => (e_ns e, e_id e)) l) ->
  (find (entry_matches ns id) l = Some e <-> In e l /\ e_ns e = ns /\ e_id e = id).
Proof.
  induction l as [|x l IH]; cbn [map find In]; intros ND; [split; [discriminate|tauto]|]. inversion ND; subst.
  destruct (entry_matches ns id x) eqn:E.
  - apply match_key in E. split; [intros X; injection X as ->; auto|]. intros ([->|I] & K); [reflexivity|].
    exfalso. apply H1. apply in_map_iff. exists e. destruct E, K. split; [congruence|auto].
  - rewrite IH; auto. split; [tauto|]. intros ([->|I] & K); [|tauto]. apply match_key in K. congruence.
Qed.
Lemma find_none ns id l : (find (entry_matches ns id) l = None <-> ~ In (ns, id) (map (fun e => (e_ns e, e_id e)) l)).
Proof.
  induction l as [|x l IH]; cbn [map find In]; [tauto|]. destruct (entry_matches ns id x) eqn:E.
  - apply match_key in E. destruct E as [<- <-]. split; [discriminate|]. intros X. exfalso. apply X. now left.
  - rewrite IH. split; [|tauto]. intros N [X|X]; [|auto]. injection X as X1 X2. assert (entry_matches ns id x = true) by (apply match_key; auto). congruence.
Qed.

Lemma NoDup_rev_1 {A} (l : list A) : NoDup (rev l) -> NoDup l.
Proof. intros H. apply NoDup_rev in H. now rewrite rev_involutive in H. Qed.

Lemma find_app' (g : entry -> bool) l r : find g (l ++ r) = match find g l with Some x => Some x | None => find g r end.
Proof. induction l as [|x l IH]; [reflexivity|]. cbn [app find]. destruct (g x); auto. Qed.

Lemma upd_keys ns id f l : (forall e, find (entry_matches ns id) l = Some e -> e_ns (f e) = ns /\ e_id (f e) = id) ->
  map (fun e => (e_ns e, e_id e)) (upd_first (entry_matches ns id) f l) = map (fun e => (e_ns e, e_id e)) l.
Proof.
  induction l as [|x l IH]; [reflexivity|]. cbn [find upd_first]. destruct (entry_matches ns id x) eqn:E; intros H; cbn [map].
  - destruct (H x eq_refl) as [-> ->]. apply match_key in E. destruct E as [-> ->]. reflexivity.
  - now rewrite IH.
Qed.

Lemma upd_find ns id f l n k : (forall e, find (entry_matches ns id) l = Some e -> e_ns (f e) = ns /\ e_id (f e) = id) ->
  find (entry_matches n k) (upd_first (entry_matches ns id) f l) =
  if (n =? ns) && bseqb k id then match find (entry_matches ns id) l with Some e => Some (f e) | None => None end else find (entry_matches n k) l.
Proof.
  induction l as [|x l IH]; cbn [find upd_first]; intros H; [now destruct ((n =? ns) && bseqb k id)|].
  destruct (entry_matches ns id x) eqn:E; cbn [find].
  - destruct (H x eq_refl) as [K1 K2]. apply match_key in E. destruct E as [E1 E2]. unfold entry_matches. rewrite K1, K2, E1, E2.
    rewrite (N.eqb_sym ns n). destruct (N.eqb_spec n ns) as [->|]; cbn [andb]; [|reflexivity].
    destruct (bseqb k id) eqn:B.
    + apply bseqb_eq in B. subst. now rewrite bseqb_refl.
    + destruct (bseqb id k) eqn:B2; [|reflexivity]. apply bseqb_eq in B2. subst. rewrite bseqb_refl in B. discriminate.
  - rewrite (IH H). destruct ((n =? ns) && bseqb k id) eqn:C; [|reflexivity].
    apply andb_prop in C. destruct C as [C1 C2]. apply bseqb_eq in C2. apply N.eqb_eq in C1. subst. now rewrite E.
Qed.

Lemma del_find ns id l n k : NoDup (map (fun e => (e_ns e, e_id e)) l) ->
  NoDup (map (fun e => (e_ns e, e_id e)) (del_first (entry_matches ns id) l)) /\
  (forall e, In e (del_first (entry_matches ns id) l) -> In e l) /\
  find (entry_matches n k) (del_first (entry_matches ns id) l) = if (n =? ns) && bseqb k id then None else find (entry_matches n k) l.
Proof.
  induction l as [|x l IH]; cbn [map del_first]; intros ND; [repeat split; auto; now destruct ((n =? ns) && bseqb k id)|].
  inversion ND; subst. destruct (entry_matches ns id x) eqn:E.
  - apply match_key in E. destruct E as [E1 E2]. split; [auto|]. split; [intros e I; now right|].
    destruct ((n =? ns) && bseqb k id) eqn:C.
    + apply andb_prop in C. destruct C as [C1 C2]. apply bseqb_eq in C2. apply N.eqb_eq in C1. subst. now apply find_none.
    + cbn [find]. destruct (entry_matches n k x) eqn:F; [|reflexivity]. apply match_key in F. destruct F. subst.
      rewrite N.eqb_refl, bseqb_refl in C. discriminate.
  - destruct (IH H2) as (A & B & C). split; [|split].
    + cbn [map]. constructor; [|exact A]. intros I. apply H1. apply in_map_iff in I. destruct I as (e & Ee & I). apply in_map_iff. exists e. auto.
    + intros e [->|I]; [now left|]. right. auto.
    + cbn [find]. destruct (entry_matches n k x) eqn:F; [|exact C]. destruct ((n =? ns) && bseqb k id) eqn:C'; [|reflexivity].
      apply andb_prop in C'. destruct C' as [C1 C2]. apply bseqb_eq in C2. apply N.eqb_eq in C1. subst. congruence.
Qed.

Lemma filter_find ns l n k : find (entry_matches n k) (filter (fun e => negb (e_ns e =? ns)) l) = if n =? ns then None else find (entry_matches n k) l.
Proof.
  induction l as [|x l IH]; cbn [filter find]; [now destruct (n =? ns)|].
  destruct (e_ns x =? ns) eqn:E; cbn [negb find].
  - rewrite IH. destruct (N.eqb_spec n ns); [reflexivity|]. unfold entry_matches at 2. destruct (N.eqb_spec (e_ns x) n); [lia|reflexivity].
  - rewrite IH. unfold entry_matches at 1 3. destruct (N.eqb_spec n ns).
    + destruct (N.eqb_spec (e_ns x) n); [lia|reflexivity].
    + reflexivity.
Qed.

Lemma stands_step t M c : stands t M -> proper1 M c -> fst (g_step t c) = fst (m_step M c) /\ stands (snd (g_step t c)) (snd (m_step M c)) /\ g_keeps t c.
Proof.
  intros [U S] P. destruct c as [ns id|e|ns id f|ns id|ns]; cbn [g_step m_step proper1 g_keeps fst snd] in *.
  - rewrite S. repeat split; auto; apply U.
  - split; [reflexivity|]. split; [|exact I]. rewrite S in P. split.
    + intros h. unfold tset. destruct (N.eqb_spec h (hash (e_id e))) as [->|]; [|apply U]. destruct (U (hash (e_id e))) as [U1 U2]. split.
      * rewrite map_app. cbn [map]. apply find_none in P. apply NoDup_rev_1. rewrite rev_app_distr. cbn [rev app]. constructor; [now rewrite <- in_rev|now apply NoDup_rev].
      * intros x I. apply in_app_iff in I. destruct I as [I|[->|[]]]; auto.
    + intros ns id. unfold with_key, tset. destruct (N.eqb_spec (hash id) (hash (e_id e))) as [Hh|Hh].
      * destruct ((ns =? e_ns e) && bseqb id (e_id e)) eqn:C.
        -- apply andb_prop in C. destruct C as [C1 C2]. apply bseqb_eq in C2. apply N.eqb_eq in C1. subst.
           rewrite find_app', P. cbn [find]. rewrite (proj2 (match_key _ _ _)); auto.
        -- rewrite S, Hh. rewrite find_app'. destruct (find (entry_matches ns id) (t (hash (e_id e)))) eqn:F; [reflexivity|]. cbn [find].
           destruct (entry_matches ns id e) eqn:G; [|reflexivity]. apply match_key in G. destruct G. subst. rewrite N.eqb_refl, bseqb_refl in C. discriminate.
      * destruct ((ns =? e_ns e) && bseqb id (e_id e)) eqn:C; [|apply S].
        apply andb_prop in C. destruct C as [_ C2]. apply bseqb_eq in C2. congruence.
  - split; [reflexivity|]. rewrite S in P.
    assert (K : forall e, find (entry_matches ns id) (t (hash id)) = Some e -> e_ns (f e) = ns /\ e_id (f e) = id).
    { intros e He. apply P. exact He. }
    split; [|intros e He; now apply K]. split.
    + intros h. unfold tset. destruct (N.eqb_spec h (hash id)) as [->|]; [|apply U]. destruct (U (hash id)) as [U1 U2]. split; [now rewrite upd_keys|].
      intros x I. assert (I' : In (e_ns x, e_id x) (map (fun e => (e_ns e, e_id e)) (upd_first (entry_matches ns id) f (t (hash id))))) by (apply in_map_iff; eauto).
      rewrite upd_keys in I' by auto. apply in_map_iff in I'. destruct I' as (y & Ey & Iy). injection Ey as _ Ey. rewrite <- Ey. auto.
    + intros n k. assert (X : tset t (hash id) (upd_first (entry_matches ns id) f (t (hash id))) (hash k) =
         if hash k =? hash id then upd_first (entry_matches ns id) f (t (hash id)) else t (hash k)) by reflexivity. rewrite X. clear X.
      rewrite S. destruct (find (entry_matches ns id) (t (hash id))) as [e|] eqn:F.
      * unfold with_key. destruct (N.eqb_spec (hash k) (hash id)) as [Hh|Hh].
        -- rewrite upd_find by (intros e0 H0; apply K; congruence). rewrite F, S, Hh. reflexivity.
        -- destruct ((n =? ns) && bseqb k id) eqn:C; [|apply S]. apply andb_prop in C. destruct C as [_ C]. apply bseqb_eq in C. congruence.
      * rewrite S. destruct (N.eqb_spec (hash k) (hash id)) as [Hh|Hh]; [|reflexivity]. rewrite upd_find by (intros e He; congruence). rewrite F, Hh.
        destruct ((n =? ns) && bseqb k id) eqn:C; [|reflexivity]. apply andb_prop in C. destruct C as [C1 C]. apply bseqb_eq in C. apply N.eqb_eq in C1. subst. exact F.
  - split; [reflexivity|]. split; [|exact I]. split.
    + intros h. unfold tset. destruct (N.eqb_spec h (hash id)) as [->|]; [|apply U]. destruct (U (hash id)) as [U1 U2].
      destruct (del_find ns id _ 0 [] U1) as (A & B & _). split; auto.
    + intros n k. unfold with_key, tset. destruct (U (hash id)) as [U1 U2]. destruct (N.eqb_spec (hash k) (hash id)) as [Hh|Hh].
      * rewrite (proj2 (proj2 (del_find ns id _ n k U1))), S, Hh. reflexivity.
      * destruct ((n =? ns) && bseqb k id) eqn:C; [|apply S]. apply andb_prop in C. destruct C as [_ C]. apply bseqb_eq in C. congruence.
  - split; [reflexivity|]. split; [|exact I]. split.
    + intros h. destruct (U h) as [U1 U2]. unfold table_clean. split.
      * clear -U1. induction (t h) as [|x l IH]; cbn [filter map] in *; [constructor|]. inversion U1; subst. destruct (negb _); [|auto].
        cbn [map]. constructor; [|auto]. intros I. apply H1. apply in_map_iff in I. destruct I as (e & Ee & I). apply filter_In in I. apply in_map_iff. exists e. tauto.
      * intros x I. apply filter_In in I. apply U2. tauto.
    + intros n k. unfold table_clean. rewrite filter_find, S. reflexivity.
Qed.

Lemma stands_init : stands empty_table none.
Proof. split; [|reflexivity]. intros h. split; [constructor|intros e []]. Qed.

Lemma m_run_cons M c r : m_run M (c :: r) = (fst (m_step M c) :: fst (m_run (snd (m_step M c)) r), snd (m_run (snd (m_step M c)) r)).
Proof. cbn [m_run]. destruct (m_step M c) as [o t1]. cbn [fst snd]. now destruct (m_run t1 r). Qed.

Lemma stands_run cs : forall t M, stands t M -> proper M cs -> fst (g_run t cs) = fst (m_run M cs) /\ stands (snd (g_run t cs)) (snd (m_run M cs)) /\ g_proper t cs.
Proof.
  induction cs as [|c cs IH]; intros t M S P; [cbn; auto|]. destruct P as [P1 P]. destruct (stands_step t M c S P1) as (E & S1 & K).
  destruct (IH _ _ S1 P) as (A & B & C). rewrite g_run_cons, m_run_cons. cbn [fst snd g_proper]. rewrite E, A. auto.
Qed.

(* ---- the shape ---- *)

Lemma walk_lseg m l : forall p, lseg (m_node m) p l None -> walk m p l.
Proof.
  induction l as [|[a e] l IH]; intros p H; cbn [lseg] in H; [subst; constructor|]. destruct H as (-> & nx & N1 & H). econstructor; eauto.
Qed.

Lemma rep_linked m t : rep m t -> well_linked hash m.
Proof.
  intros (L & O & _). split.
  - intros h b Hb. pose proof (o_br _ _ O h) as B. unfold brok in B. rewrite Hb in B. destruct B as (S & B1 & B2). exists (L h).
    split; [now apply walk_lseg|]. split; [exact B1|]. split; [exact B2|]. split; [apply O|]. intros a e. apply O.
  - intros a n Hn. pose proof (o_all _ _ O _ _ Hn) as I. pose proof (o_br _ _ O (hash (e_id (nd_e n)))) as B. unfold brok in B.
    destruct (m_branch m _) as [b|]; [|rewrite B in I; destruct I]. destruct B as (S & _). exists b, (L (hash (e_id (nd_e n)))).
    split; [reflexivity|]. split; [now apply walk_lseg|exact I].
Qed.

Lemma rep_holds m t : rep m t -> holds m t.
Proof.
  intros (L & O & E) h. pose proof (o_br _ _ O h) as B. unfold brok in B. destruct (m_branch m h) as [b|].
  - destruct B as (S & _). exists (L h). split; [now apply walk_lseg|apply E].
  - rewrite <- E, B. reflexivity.
Qed.

Theorem map_runs nb cs os m : (forall k, hash k < N.of_nat nb) -> proper none cs -> runs hash nb buckets_init cs os m ->
  os = fst (m_run none cs) /\ well_linked hash m.
Proof.
  intros Hnb P R. destruct (stands_run cs empty_table none stands_init P) as (E & _ & K).
  destruct (runs_ok nb cs _ _ 0%nat os m Hnb rep_init (fun h => le_n 0) K R) as (E1 & R1 & _). split; [congruence|]. eapply rep_linked; eauto.
Qed.

Theorem map_goes nb cs os m c a : (forall k, hash k < N.of_nat nb) -> proper none (cs ++ [c]) -> runs hash nb buckets_init cs os m -> m_node m a = None ->
  exists n o m', forall fuel, (n < fuel)%nat -> do_cmd hash nb fuel a m c = Some (o, m').
Proof.
  intros Hnb P R Ha.
  assert (P1 : proper none cs /\ proper1 (snd (m_run none cs)) c).
  { clear R. revert P. generalize none as M. induction cs as [|x cs IH]; intros M P; [cbn in *; tauto|]. rewrite m_run_cons. cbn [snd]. cbn [proper app] in *.
    destruct P as [P1 P]. apply IH in P. tauto. }
  destruct P1 as [P1 P2]. destruct (stands_run cs empty_table none stands_init P1) as (E & S & K).
  destruct (runs_ok nb cs _ _ 0%nat os m Hnb rep_init (fun h => le_n 0) K R) as (E1 & R1 & n & Hn).
  destruct (stands_step _ _ c S P2) as (_ & _ & K2). destruct (step_ok nb m _ c a n Hnb R1 Hn Ha K2) as (m' & D & _). eauto.
Qed.
End H.

Lemma store_step t c : g_step index_key_hash t c = t_step t c.
Proof. destruct c; reflexivity. Qed.
Lemma store_run cs : forall t, g_run index_key_hash t cs = t_run t cs.
Proof.
  induction cs as [|c cs IH]; intros t; [reflexivity|]. cbn [g_run t_run]. rewrite store_step. destruct (t_step t c) as [o t1]. now rewrite IH.
Qed.

Theorem table_runs cs os m nb : N.of_nat nb = 2 ^ 24 -> Forall keeps_key cs -> runs index_key_hash nb buckets_init cs os m ->
  os = fst (t_run empty_table cs) /\ holds m (snd (t_run empty_table cs)) /\ well_linked index_key_hash m.
Proof.
  intros Hnb K R.
  assert (HH : forall k, index_key_hash k < N.of_nat nb).
  { intros k. rewrite Hnb. unfold index_key_hash. change buckets_mask with (N.ones 24). rewrite N.land_ones. apply N.mod_upper_bound. discriminate. }
  assert (P : g_proper index_key_hash empty_table cs).
  { clear R. generalize empty_table as t. induction K as [|c cs K1 K IH]; intros t; [exact I|]. split; [|apply IH].
    destruct c; cbn [g_keeps keeps_key] in *; auto. intros e He. apply find_some in He. destruct He as [_ He].
    unfold entry_matches in He. apply andb_prop in He. destruct He as [H1 H2]. apply bseqb_eq in H2. apply N.eqb_eq in H1. auto. }
  destruct (runs_ok index_key_hash nb cs _ _ 0%nat os m HH (rep_init _) (fun h => le_n 0) P R) as (E1 & R1 & _). rewrite store_run in *.
  split; [exact E1|]. split; [now apply (rep_holds index_key_hash)|]. eapply rep_linked; eauto.
Qed.
