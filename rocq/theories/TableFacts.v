(* The bucket table seen from one namespace *)
From Coq Require Import List NArith ZArith Bool Strings.Byte Lia ZifyBool ZifyN ZifyNat.
From Verif Require Import Bytes BytesFacts Crc32 Layout Store.
Import ListNotations.
Open Scope N_scope.

Definition mine (n : N) (e : entry) : bool := e_ns e =? n.

(* the entries of namespace n in table t are exactly those of L, one per key, each
   in the bucket of its key *)
Record TInv (t : table) (n : N) (L : list entry) : Prop := {
  ti_in : forall h e, In e (t h) -> e_ns e = n -> h = index_key_hash (e_id e) /\ In e L;
  ti_has : forall e, In e L -> e_ns e = n /\ In e (t (index_key_hash (e_id e)));
  ti_nodup : forall h, NoDup (map e_id (filter (mine n) (t h)));
  ti_uniq : NoDup (map e_id L)
}.

(* t and t' hold the same entries of the other namespaces *)
Definition tframe (n : N) (t t' : table) : Prop :=
  forall h, filter (fun e => negb (mine n e)) (t' h) = filter (fun e => negb (mine n e)) (t h).

Lemma tframe_refl n t : tframe n t t.
Proof. intros h. reflexivity. Qed.
Lemma tframe_trans n a b c : tframe n a b -> tframe n b c -> tframe n a c.
Proof. intros H1 H2 h. now rewrite H2, H1. Qed.

Lemma filter_filter_imp {A} (p q : A -> bool) l : (forall x, q x = true -> p x = true) ->
  filter q (filter p l) = filter q l.
Proof.
  intros H. induction l as [|x l IH]; cbn [filter]; auto.
  destruct (p x) eqn:P; cbn [filter]; destruct (q x) eqn:Q; rewrite ?IH; auto.
  rewrite H in P by auto. discriminate.
Qed.

Lemma tframe_mine n n' t t' h : n' <> n -> tframe n t t' -> filter (mine n') (t' h) = filter (mine n') (t h).
Proof.
  intros Hn F. rewrite <- (filter_filter_imp (fun e => negb (mine n e)) (mine n') (t' h)).
  - rewrite F. apply filter_filter_imp. unfold mine. lia.
  - unfold mine. lia.
Qed.

Lemma find_filter {A} (p q : A -> bool) l : (forall x, q x = true -> p x = true) ->
  find q (filter p l) = find q l.
Proof.
  intros H. induction l as [|x l IH]; cbn [filter find]; auto.
  destruct (p x) eqn:P; cbn [find]; destruct (q x) eqn:Q; auto.
  rewrite H in P by auto. discriminate.
Qed.

(* lookups of one namespace do not see the entries of another *)
Lemma tframe_get n n' t t' k : n' <> n -> tframe n t t' ->
  index_entry_get t' n' k = index_entry_get t n' k.
Proof.
  intros Hn F. unfold index_entry_get.
  rewrite <- (find_filter (mine n')) by (unfold entry_matches, mine; lia).
  rewrite (tframe_mine n n' t t') by auto.
  apply find_filter. unfold entry_matches, mine. lia.
Qed.

Lemma tframe_inv n n' t t' L : n' <> n -> tframe n t t' -> TInv t n' L -> TInv t' n' L.
Proof.
  intros Hn F [H1 H2 H3 H4].
  assert (M : forall h e, e_ns e = n' -> (In e (t' h) <-> In e (t h))).
  { intros h e He. assert (E : In e (filter (mine n') (t' h)) <-> In e (filter (mine n') (t h)))
      by now rewrite (tframe_mine n n' t t').
    rewrite !filter_In in E. unfold mine in E. rewrite He, N.eqb_refl in E. intuition. }
  constructor.
  - intros h e Hi He. apply M in Hi; auto.
  - intros e Hi. destruct (H2 e Hi). split; auto. now apply M.
  - intros h. now rewrite (tframe_mine n n' t t').
  - auto.
Qed.

Lemma find_unique (k : bytes) (L : list entry) e : NoDup (map e_id L) -> In e L -> e_id e = k ->
  find (fun x => bseqb (e_id x) k) L = Some e.
Proof.
  intros ND Hi Hk. induction L as [|x L IH]; [contradiction|]. cbn [find map] in *.
  inversion ND; subst. destruct (bseqb_spec (e_id x) (e_id e)) as [E|E].
  - destruct Hi as [->|Hi]; auto. exfalso. apply H1. rewrite E. now apply in_map.
  - destruct Hi as [->|Hi]; [congruence|]. auto.
Qed.

Lemma entry_get_spec t n L k : TInv t n L ->
  index_entry_get t n k = find (fun e => bseqb (e_id e) k) L.
Proof.
  intros [H1 H2 H3 H4]. unfold index_entry_get.
  destruct (find (fun e => bseqb (e_id e) k) L) as [e|] eqn:F.
  - apply find_some in F. destruct F as [Hi Hk]. apply bseqb_eq in Hk.
    destruct (H2 e Hi) as [Hn Ht]. rewrite <- (find_filter (mine n)) by (unfold entry_matches, mine; lia).
    rewrite Hk in Ht.
    assert (He : In e (filter (mine n) (t (index_key_hash k)))).
    { apply filter_In. split; auto. unfold mine. lia. }
    specialize (H3 (index_key_hash k)).
    rewrite <- (find_unique k _ e H3 He Hk).
    clear - n. induction (t (index_key_hash k)) as [|x l IH]; cbn [filter]; auto.
    destruct (mine n x) eqn:M; cbn [find]; auto.
    unfold entry_matches. unfold mine in M. rewrite M. cbn [andb].
    now destruct (bseqb (e_id x) k).
  - destruct (find (entry_matches n k) (t (index_key_hash k))) as [e|] eqn:G; auto.
    apply find_some in G. destruct G as [Hi Hm]. unfold entry_matches in Hm.
    apply andb_true_iff in Hm. destruct Hm as [Hn Hk].
    destruct (H1 _ e Hi) as [_ HL]; [lia|].
    apply (find_none _ _ F) in HL. congruence.
Qed.

Lemma entry_get_in t n L k e : TInv t n L -> index_entry_get t n k = Some e -> In e L /\ e_id e = k.
Proof.
  intros T H. rewrite (entry_get_spec _ _ _ _ T) in H. apply find_some in H.
  destruct H. split; auto. now apply bseqb_eq.
Qed.

Lemma entry_get_none t n L k : TInv t n L -> index_entry_get t n k = None -> ~ In k (map e_id L).
Proof.
  intros T H Hi. rewrite (entry_get_spec _ _ _ _ T) in H. apply in_map_iff in Hi.
  destruct Hi as (e & He & Hi). apply (find_none _ _ H) in Hi. apply bseqb_neq in Hi. auto.
Qed.

Lemma tinv_perm t n L L' : (forall e, In e L <-> In e L') -> NoDup (map e_id L') -> TInv t n L -> TInv t n L'.
Proof.
  intros E ND [H1 H2 H3 H4]. constructor; auto.
  - intros h e Hi He. destruct (H1 h e Hi He). split; auto. now apply E.
  - intros e Hi. apply H2, E, Hi.
Qed.

Lemma NoDup_snoc {A} (l : list A) x : NoDup l -> ~ In x l -> NoDup (l ++ [x]).
Proof.
  intros H Hx. induction l as [|y l IH]; cbn [app].
  - repeat constructor; auto.
  - inversion H; subst. constructor.
    + rewrite in_app_iff. intros [Hi|[->|[]]]; auto. apply Hx. now left.
    + apply IH; auto. intros Hi. apply Hx. now right.
Qed.

Lemma tset_same t h l : tset t h l h = l.
Proof. unfold tset. now rewrite N.eqb_refl. Qed.
Lemma tset_other t h l h' : h' <> h -> tset t h l h' = t h'.
Proof. intros. unfold tset. destruct (N.eqb_spec h' h); congruence. Qed.

Lemma tinv_append t n L e : TInv t n L -> e_ns e = n -> ~ In (e_id e) (map e_id L) ->
  TInv (table_append t e) n (L ++ [e]).
Proof.
  intros T He Hk. destruct T as [H1 H2 H3 H4]. unfold table_append.
  set (h0 := index_key_hash (e_id e)).
  constructor.
  - intros h x Hi Hx. destruct (N.eq_dec h h0) as [->|Hne].
    + rewrite tset_same in Hi. apply in_app_iff in Hi. destruct Hi as [Hi|[<-|[]]].
      * destruct (H1 _ _ Hi Hx). split; auto. apply in_app_iff; auto.
      * split; auto. apply in_app_iff. right. now left.
    + rewrite tset_other in Hi by auto. destruct (H1 _ _ Hi Hx). split; auto. apply in_app_iff; auto.
  - intros x Hi. apply in_app_iff in Hi. destruct Hi as [Hi|[<-|[]]].
    + destruct (H2 x Hi) as [Hn Ht]. split; auto.
      destruct (N.eq_dec (index_key_hash (e_id x)) h0) as [E|Hne].
      * rewrite E, tset_same. apply in_app_iff. left. now rewrite <- E.
      * now rewrite tset_other.
    + split; auto. fold h0. rewrite tset_same. apply in_app_iff. right. now left.
  - intros h. destruct (N.eq_dec h h0) as [->|Hne].
    + rewrite tset_same, filter_app, map_app. cbn [filter]. unfold mine at 2.
      rewrite He, N.eqb_refl. cbn [map]. apply NoDup_snoc; auto.
      intros Hi. apply in_map_iff in Hi. destruct Hi as (x & Hx & Hi).
      apply filter_In in Hi. destruct Hi as [Hi Hm]. apply Hk. rewrite <- Hx.
      apply in_map. apply (H1 h0); auto. unfold mine in Hm. lia.
    + rewrite tset_other; auto.
  - rewrite map_app. cbn [map]. now apply NoDup_snoc.
Qed.

Lemma tframe_append t e : tframe (e_ns e) t (table_append t e).
Proof.
  intros h. unfold table_append. destruct (N.eq_dec h (index_key_hash (e_id e))) as [->|Hne].
  - rewrite tset_same, filter_app. cbn [filter]. unfold mine at 2. rewrite N.eqb_refl. cbn. apply app_nil_r.
  - now rewrite tset_other.
Qed.

(* removal *)
Lemma del_first_filter n k l : NoDup (map e_id (filter (mine n) l)) ->
  del_first (entry_matches n k) l = filter (fun e => negb (entry_matches n k e)) l.
Proof.
  induction l as [|x l IH]; intros ND; cbn [del_first filter]; auto.
  cbn [filter] in ND. destruct (entry_matches n k x) eqn:M; cbn [negb].
  - unfold entry_matches in M. apply andb_true_iff in M. destruct M as [M1 M2]. unfold mine in ND at 1.
    rewrite M1 in ND. cbn [map] in ND. inversion ND; subst.
    symmetry. clear - H1 M2. induction l as [|y l IH]; cbn [filter]; auto.
    cbn [filter] in H1. destruct (entry_matches n k y) eqn:E; cbn [negb].
    + exfalso. apply H1. unfold entry_matches in E. apply andb_true_iff in E. destruct E as [E1 E2].
      unfold mine at 1. rewrite E1. cbn [map]. left. apply bseqb_eq in M2, E2. congruence.
    + f_equal. apply IH. intros Hi. apply H1. destruct (mine n y); [now right|auto].
  - f_equal. apply IH. destruct (mine n x); [now inversion ND|auto].
Qed.

Lemma NoDup_map_filter {A B} (f : A -> B) p l : NoDup (map f l) -> NoDup (map f (filter p l)).
Proof.
  induction l as [|x l IH]; cbn [map filter]; intros H; [constructor|].
  inversion H; subst. destruct (p x); cbn [map]; auto. constructor; auto.
  intros Hi. apply H2. apply in_map_iff in Hi. destruct Hi as (y & Hy & Hi).
  apply filter_In in Hi. rewrite <- Hy. now apply in_map.
Qed.

Lemma filter_comm {A} (p q : A -> bool) l : filter p (filter q l) = filter q (filter p l).
Proof.
  induction l as [|x l IH]; cbn [filter]; auto.
  destruct (p x) eqn:P, (q x) eqn:Q; cbn [filter]; rewrite ?P, ?Q, IH; auto.
Qed.

Lemma tinv_remove t n L k : TInv t n L ->
  TInv (table_remove t n k) n (filter (fun e => negb (bseqb (e_id e) k)) L).
Proof.
  intros [H1 H2 H3 H4]. unfold table_remove. set (h0 := index_key_hash k).
  rewrite del_first_filter by auto.
  constructor.
  - intros h x Hi Hx. destruct (N.eq_dec h h0) as [->|Hne].
    + rewrite tset_same in Hi. apply filter_In in Hi. destruct Hi as [Hi Hm].
      destruct (H1 _ _ Hi Hx). split; auto. apply filter_In. split; auto.
      unfold entry_matches in Hm. rewrite Hx, N.eqb_refl in Hm. exact Hm.
    + rewrite tset_other in Hi by auto. destruct (H1 _ _ Hi Hx) as [E HL]. split; auto.
      apply filter_In. split; auto. apply negb_true_iff, bseqb_neq. intros Ek.
      apply Hne. rewrite E, Ek. reflexivity.
  - intros x Hi. apply filter_In in Hi. destruct Hi as [Hi Hm].
    destruct (H2 x Hi) as [Hn Ht]. split; auto.
    destruct (N.eq_dec (index_key_hash (e_id x)) h0) as [E|Hne].
    + rewrite E, tset_same. apply filter_In. rewrite <- E. split; auto.
      unfold entry_matches. rewrite Hn, N.eqb_refl. exact Hm.
    + now rewrite tset_other.
  - intros h. destruct (N.eq_dec h h0) as [->|Hne].
    + rewrite tset_same, filter_comm. now apply NoDup_map_filter.
    + now rewrite tset_other.
  - now apply NoDup_map_filter.
Qed.

Lemma tframe_remove t n k : tframe n t (table_remove t n k).
Proof.
  intros h. unfold table_remove. destruct (N.eq_dec h (index_key_hash k)) as [->|Hne].
  - rewrite tset_same. generalize (t (index_key_hash k)) as l.
    induction l as [|x l IH]; cbn [del_first filter]; auto.
    destruct (entry_matches n k x) eqn:M; cbn [filter].
    + unfold entry_matches in M. apply andb_true_iff in M. unfold mine. destruct M as [M _].
      rewrite M. reflexivity.
    + destruct (mine n x); cbn [negb]; rewrite IH; reflexivity.
  - now rewrite tset_other.
Qed.

(* update of the matching entry *)
Lemma map_id_upd n k e' l : e_ns e' = n -> e_id e' = k ->
  map e_id (filter (mine n) (upd_first (entry_matches n k) (fun _ => e') l)) = map e_id (filter (mine n) l).
Proof.
  intros Hn Hk. induction l as [|x l IH]; cbn [upd_first filter]; auto.
  destruct (entry_matches n k x) eqn:M; cbn [filter].
  - unfold entry_matches in M. apply andb_true_iff in M. destruct M as [M1 M2]. apply bseqb_eq in M2.
    assert (Mx : mine n x = true) by exact M1. assert (Me : mine n e' = true) by (unfold mine; lia).
    rewrite Mx, Me. cbn [map]. f_equal. congruence.
  - destruct (mine n x); cbn [map]; rewrite ?IH; auto.
Qed.

Lemma in_upd n k e' l x : NoDup (map e_id (filter (mine n) l)) -> e_ns e' = n -> e_id e' = k ->
  In x (upd_first (entry_matches n k) (fun _ => e') l) ->
  (x = e' /\ exists y, In y l /\ entry_matches n k y = true) \/ (In x l /\ entry_matches n k x = false).
Proof.
  intros ND Hn Hk. induction l as [|y l IH]; cbn [upd_first]; [contradiction|].
  cbn [filter] in ND. destruct (entry_matches n k y) eqn:M.
  - intros [<-|Hi].
    + left. split; auto. exists y. split; auto. now left.
    + right. split; [now right|]. unfold entry_matches in M. apply andb_true_iff in M. destruct M as [M1 M2].
      unfold mine in ND at 1. rewrite M1 in ND. cbn [map] in ND. inversion ND; subst.
      destruct (entry_matches (e_ns e') (e_id e') x) eqn:E; auto. exfalso. apply H1.
      unfold entry_matches in E. apply andb_true_iff in E. destruct E as [E1 E2].
      apply bseqb_eq in M2, E2. rewrite M2, <- E2. apply in_map. apply filter_In. split; auto.
  - intros [<-|Hi].
    + right. split; auto. now left.
    + destruct IH as [[-> (z & Hz & Hm)]|[Hx Hm]]; auto.
      * destruct (mine n y); auto. now inversion ND.
      * left. split; auto. exists z. split; auto. now right.
      * right. split; auto. now right.
Qed.

Lemma in_upd_keep n k g l x : entry_matches n k x = false -> In x l -> In x (upd_first (entry_matches n k) g l).
Proof.
  intros Hm. induction l as [|y l IH]; cbn [upd_first]; [contradiction|].
  intros [->|Hi].
  - rewrite Hm. now left.
  - destruct (entry_matches n k y); [now right|]. right. auto.
Qed.

Lemma in_upd_new n k e' l y : In y l -> entry_matches n k y = true ->
  In e' (upd_first (entry_matches n k) (fun _ => e') l).
Proof.
  induction l as [|z l IH]; cbn [upd_first]; [contradiction|]. intros [->|Hi] Hm.
  - rewrite Hm. now left.
  - destruct (entry_matches n k z); [now left|right; auto].
Qed.

Lemma tinv_update t n L k e' : TInv t n L -> In k (map e_id L) -> e_ns e' = n -> e_id e' = k ->
  TInv (table_update t n k (fun _ => e')) n (filter (fun e => negb (bseqb (e_id e) k)) L ++ [e']).
Proof.
  intros [H1 H2 H3 H4] Hk Hn He. unfold table_update. set (h0 := index_key_hash k).
  assert (NF : NoDup (map e_id (filter (fun e => negb (bseqb (e_id e) k)) L ++ [e']))).
  { rewrite map_app. cbn [map]. apply NoDup_snoc; [now apply NoDup_map_filter|].
    intros Hi. apply in_map_iff in Hi. destruct Hi as (y & Hy & Hi). apply filter_In in Hi.
    destruct Hi as [_ Hb]. apply negb_true_iff, bseqb_neq in Hb. congruence. }
  constructor; auto.
  - intros h x Hi Hx. destruct (N.eq_dec h h0) as [->|Hne].
    + rewrite tset_same in Hi. apply in_upd in Hi; auto.
      destruct Hi as [[-> _]|[Hi Hm]].
      * split; [unfold h0; congruence|]. apply in_app_iff. right. now left.
      * destruct (H1 _ _ Hi Hx) as [E HL]. split; auto. apply in_app_iff. left.
        apply filter_In. split; auto. unfold entry_matches in Hm. rewrite Hx, N.eqb_refl in Hm.
        cbn [andb] in Hm. now rewrite Hm.
    + rewrite tset_other in Hi by auto. destruct (H1 _ _ Hi Hx) as [E HL]. split; auto.
      apply in_app_iff. left. apply filter_In. split; auto. apply negb_true_iff, bseqb_neq.
      intros Ek. apply Hne. rewrite E, Ek. reflexivity.
  - intros x Hi. apply in_app_iff in Hi. destruct Hi as [Hi|[<-|[]]].
    + apply filter_In in Hi. destruct Hi as [Hi Hb]. destruct (H2 x Hi) as [Hxn Ht]. split; auto.
      destruct (N.eq_dec (index_key_hash (e_id x)) h0) as [E|Hne].
      * rewrite E, tset_same. apply in_upd_keep; [|now rewrite <- E].
        unfold entry_matches. apply negb_true_iff in Hb. rewrite Hb. apply andb_false_r.
      * now rewrite tset_other.
    + split; auto. rewrite He. fold h0. rewrite tset_same.
      apply in_map_iff in Hk. destruct Hk as (y & Hy & Hi). destruct (H2 y Hi) as [Hyn Ht].
      apply (in_upd_new _ _ _ _ y).
      * unfold h0. now rewrite <- Hy.
      * unfold entry_matches. rewrite Hyn, N.eqb_refl. now apply bseqb_eq.
  - intros h. destruct (N.eq_dec h h0) as [->|Hne].
    + rewrite tset_same, map_id_upd; auto.
    + now rewrite tset_other.
Qed.

Lemma tframe_update t n k e' : e_ns e' = n -> tframe n t (table_update t n k (fun _ => e')).
Proof.
  intros Hn h. unfold table_update. destruct (N.eq_dec h (index_key_hash k)) as [->|Hne].
  - rewrite tset_same. generalize (t (index_key_hash k)) as l.
    induction l as [|x l IH]; cbn [upd_first filter]; auto.
    destruct (entry_matches n k x) eqn:M; cbn [filter].
    + unfold entry_matches in M. apply andb_true_iff in M. unfold mine. destruct M as [M _].
      rewrite M, Hn, N.eqb_refl. reflexivity.
    + destruct (mine n x); cbn [negb]; rewrite IH; reflexivity.
  - now rewrite tset_other.
Qed.

(* cleaning *)
Lemma tinv_clean t n : TInv (table_clean t n) n [].
Proof.
  constructor.
  - intros h e Hi He. unfold table_clean in Hi. apply filter_In in Hi. lia.
  - intros e [].
  - intros h. unfold table_clean. induction (t h) as [|x l IH]; cbn [filter]; [constructor|].
    destruct (N.eqb_spec (e_ns x) n) as [E|E]; cbn [negb filter]; auto.
    assert (M : mine n x = false) by (unfold mine; lia). rewrite M. auto.
  - constructor.
Qed.

Lemma tframe_clean t n : tframe n t (table_clean t n).
Proof.
  intros h. unfold table_clean. apply filter_filter_imp. auto.
Qed.
