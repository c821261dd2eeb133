(* PROOFS about the locks on directories. *)
From Coq Require Import List NArith Bool Lia ZifyBool ZifyN.
From Verif Require Import Lock SpecLock.
Import ListNotations.
Open Scope N_scope.

(* the lock files open are those of the directories used *)
Definition agrees (l : locks) (us : list user) : Prop :=
  forall d p, In (d, p) l <-> exists u, In u us /\ u_pid u = p /\ uses d u = true.

Lemma taken l us d : agrees l us -> existsb (fun x => fst x =? d) l = existsb (uses d) us.
Proof.
  intros A. apply eq_true_iff_eq. rewrite !existsb_exists. split.
  - intros ([d' p] & I & E). cbn in E. assert (d' = d) as -> by lia. apply A in I. destruct I as (u & U & _ & V). exists u. auto.
  - intros (u & U & V). exists (d, u_pid u). split; [apply A; exists u; auto|cbn; lia].
Qed.

Lemma step_agrees e l us b l' : agrees l us -> flock_works e -> plock_step e l = (b, l') ->
  agrees l' (next_users e b us) /\
  (forall pid i d f1 f2, e = PStart pid i d f1 f2 -> b = true -> existsb (uses i) us = false /\ existsb (uses d) us = false /\ i <> d).
Proof.
  intros A F S. destruct e as [pid i d f1 f2|pid child|pid]; cbn [plock_step] in S.
  - cbn in F. destruct F as [F1 F2]. unfold zdb_open in S. destruct (i =? d) eqn:E.
    { injection S as <- <-. split; [exact A|discriminate]. }
    unfold zdb_lock in S. destruct f1; [|injection S as <- <-; split; [exact A|discriminate]|congruence].
    rewrite (taken _ _ i A) in S. destruct (existsb (uses i) us) eqn:Ti.
    { injection S as <- <-. split; [exact A|discriminate]. }
    destruct f2; [|injection S as <- <-; split; [exact A|discriminate]|congruence].
    cbn [existsb fst] in S. rewrite E in S. cbn [orb] in S. rewrite (taken _ _ d A) in S.
    destruct (existsb (uses d) us) eqn:Td; injection S as <- <-.
    { split; [exact A|discriminate]. }
    split.
    + intros d' p. cbn [next_users In]. rewrite (A d' p). split.
      * intros [X|[X|(u & U & V)]].
        -- injection X as <- <-. exists (mkUser pid i d true). split; [left; reflexivity|]. cbn. unfold uses. cbn. split; [reflexivity|lia].
        -- injection X as <- <-. exists (mkUser pid i d true). split; [left; reflexivity|]. unfold uses. cbn. split; [reflexivity|lia].
        -- exists u. split; [right; exact U|exact V].
      * intros (u & [U|U] & P & V).
        -- subst u p. unfold uses in V. cbn in *. destruct (d' =? d) eqn:Ed; [left; f_equal; lia|right; left; f_equal; lia].
        -- right. right. exists u. auto.
    + intros pid' i' d' f1' f2' Q _. injection Q as -> -> -> _ _. repeat split; try assumption; lia.
  - injection S as <- <-. split; [|discriminate]. cbn [next_users]. intros d p. rewrite in_app_iff, in_map_iff, (A d p). split.
    + intros [((d' & p') & Q & I)|(u & U & V)].
      * cbn in Q. injection Q as -> <-. apply filter_In in I. destruct I as [I J]. cbn in J. apply A in I. destruct I as (u & U & P & V).
        exists (mkUser child (u_index u) (u_data u) false). split; [|split; [reflexivity|exact V]].
        apply in_app_iff. left. apply in_map_iff. exists u. split; [reflexivity|]. apply filter_In. split; [exact U|lia].
      * exists u. split; [apply in_app_iff; right; exact U|exact V].
    + intros (u & U & P & V). apply in_app_iff in U. destruct U as [U|U].
      * apply in_map_iff in U. destruct U as (v & <- & I). apply filter_In in I. destruct I as [I J].
        left. exists (d, u_pid v). cbn in *. subst p. split; [reflexivity|]. apply filter_In. split; [|exact J].
        apply A. exists v. auto.
      * right. exists u. auto.
  - injection S as <- <-. split; [|discriminate]. cbn [next_users]. intros d p. rewrite filter_In, (A d p). cbn [snd]. split.
    + intros [(u & U & P & V) N]. exists u. split; [apply filter_In; split; [exact U|lia]|auto].
    + intros (u & U & P & V). apply filter_In in U. destruct U as [U N]. split; [exists u; auto|lia].
Qed.

Lemma existsb_false {A} (f : A -> bool) l : existsb f l = false -> forall x, In x l -> f x = false.
Proof. intros E x I. destruct (f x) eqn:F; [|reflexivity]. assert (existsb f l = true) by (apply existsb_exists; eauto). congruence. Qed.

Lemma pairs_filter {A} (R : A -> A -> Prop) f l : ForallOrdPairs R l -> ForallOrdPairs R (filter f l).
Proof.
  induction 1 as [|x l F H IH]; cbn [filter]; [constructor|]. destruct (f x); [|exact IH].
  constructor; [|exact IH]. rewrite Forall_forall in *. intros y I. apply filter_In in I. apply F, I.
Qed.

Lemma filter_comm {A} (f g : A -> bool) l : filter f (filter g l) = filter g (filter f l).
Proof.
  induction l as [|x l IH]; [reflexivity|]. cbn [filter].
  destruct (g x) eqn:G, (f x) eqn:F; cbn [filter]; rewrite ?G, ?F, IH; reflexivity.
Qed.

Lemma step_exclusive e l us b l' : agrees l us -> exclusive us -> flock_works e -> plock_step e l = (b, l') -> exclusive (next_users e b us).
Proof.
  intros A X F S. destruct (step_agrees e l us b l' A F S) as [_ N]. unfold exclusive in *.
  destruct e as [pid i d f1 f2|pid child|pid]; cbn [next_users].
  - destruct b; [|exact X]. destruct (N pid i d f1 f2 eq_refl eq_refl) as (Ti & Td & Ne).
    cbn [filter u_server]. constructor; [|exact X]. rewrite Forall_forall. intros u U. apply filter_In in U. destruct U as [U _].
    intros d' V. unfold uses in V. cbn in V.
    destruct (d' =? i) eqn:E; [assert (d' = i) as -> by lia; exact (existsb_false _ _ Ti u U)|].
    assert (d' = d) as -> by lia. exact (existsb_false _ _ Td u U).
  - rewrite filter_app.
    assert (filter u_server (map (fun u => mkUser child (u_index u) (u_data u) false) (filter (fun u => u_pid u =? pid) us)) = []) as ->; [|exact X].
    induction (filter (fun u => u_pid u =? pid) us) as [|x m IH]; [reflexivity|exact IH].
  - rewrite filter_comm. apply pairs_filter, X.
Qed.

Lemma run_agrees : forall es l us bs l', agrees l us -> exclusive us -> Forall flock_works es -> plock_run es l = (bs, l') ->
  agrees l' (users es bs us) /\ exclusive (users es bs us).
Proof.
  induction es as [|e es IH]; intros l us bs l' A X F R; cbn [plock_run] in R.
  - injection R as <- <-. split; assumption.
  - destruct (plock_step e l) as [b l1] eqn:S. destruct (plock_run es l1) as [bs1 l2] eqn:R1. injection R as <- <-.
    apply Forall_cons_iff in F. destruct F as [F1 F2]. cbn [users].
    apply (IH l1 (next_users e b us) bs1 l2); auto.
    + apply (step_agrees e l us b l1 A F1 S).
    + exact (step_exclusive e l us b l1 A X F1 S).
Qed.

Lemma agrees_nil : agrees [] [].
Proof. intros d p. split; [intros []|intros (u & [] & _)]. Qed.

Theorem exclusive_ok : forall es bs l, Forall flock_works es -> plock_run es [] = (bs, l) -> exclusive (users es bs []).
Proof. intros es bs l F R. apply (run_agrees es [] [] bs l agrees_nil); auto. constructor. Qed.

Theorem start_ok : forall es bs l pid i d f1 f2, Forall flock_works es -> plock_run es [] = (bs, l) ->
  flock_works (PStart pid i d f1 f2) ->
  (fst (plock_step (PStart pid i d f1 f2) l) = true <->
   f1 = NoFault /\ f2 = NoFault /\ i <> d /\ forall u, In u (users es bs []) -> uses i u = false /\ uses d u = false).
Proof.
  intros es bs l pid i d f1 f2 F R [W1 W2].
  assert (A : agrees l (users es bs [])) by (apply (run_agrees es [] [] bs l agrees_nil); auto; constructor).
  assert (Q : forall d', (forall u, In u (users es bs []) -> uses d' u = false) <-> existsb (fun x => fst x =? d') l = false).
  { intro d'. rewrite (taken _ _ d' A). split.
    - intro H. destruct (existsb (uses d') (users es bs [])) eqn:E; [|reflexivity].
      apply existsb_exists in E. destruct E as (u & U & V). rewrite (H u U) in V. discriminate.
    - apply existsb_false. }
  cbn [plock_step]. unfold zdb_open, zdb_lock. destruct (i =? d) eqn:E; [cbn; split; [discriminate|lia]|].
  destruct f1; [|cbn; split; [discriminate|intros (H & _); discriminate]|congruence].
  destruct (existsb (fun x => fst x =? i) l) eqn:Ti.
  { cbn. split; [discriminate|]. intros (_ & _ & _ & H). enough (true = false) by discriminate. rewrite <- Ti. apply Q. intros u U. apply H, U. }
  destruct f2; [|cbn; split; [discriminate|intros (_ & H & _); discriminate]|congruence].
  cbn [existsb fst]. rewrite E. cbn [orb]. destruct (existsb (fun x => fst x =? d) l) eqn:Td; cbn [fst].
  { split; [discriminate|]. intros (_ & _ & _ & H). enough (true = false) by discriminate. rewrite <- Td. apply Q. intros u U. apply H, U. }
  split; [|reflexivity]. intros _. repeat split; try lia.
  - apply (proj2 (Q i) Ti). assumption.
  - apply (proj2 (Q d) Td). assumption.
Qed.
