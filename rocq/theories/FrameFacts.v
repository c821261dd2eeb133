(* PROOFS.  What one namespace does to the table shared by all of them: an operation
   on namespace n leaves the entries of the others alone (frame), and depends on
   the entries of n only, up to the number of its slot (sim).  For every state, mode
   and write outcome. *)
From Coq Require Import Strings.String Strings.Byte List NArith ZArith Bool Lia ZifyBool ZifyN ZifyNat.
From Verif Require Import Bytes BytesFacts Crc32 Layout Store Text Commands SpecKV Machine TableFacts.
Import ListNotations.
Open Scope N_scope.

(* ---- the same entries of namespace n ---- *)

Definition veq (n : N) (t t' : table) : Prop := forall h, filter (mine n) (t h) = filter (mine n) (t' h).

Lemma veq_refl n t : veq n t t.
Proof. intro h. reflexivity. Qed.
Lemma veq_sym n t t' : veq n t t' -> veq n t' t.
Proof. intros H h. symmetry. apply H. Qed.
Lemma veq_trans n a b c : veq n a b -> veq n b c -> veq n a c.
Proof. intros H1 H2 h. rewrite (H1 h). apply H2. Qed.

Lemma tframe_veq n n' t t' : n' <> n -> tframe n t t' -> veq n' t t'.
Proof. intros Hn F h. symmetry. apply (tframe_mine n n' t t' h Hn F). Qed.

Lemma matches_mine n k x : entry_matches n k x = true -> mine n x = true.
Proof. unfold entry_matches, mine. intro H. apply andb_true_iff in H. apply H. Qed.

Lemma veq_get n t t' k : veq n t t' -> index_entry_get t n k = index_entry_get t' n k.
Proof.
  intros V. unfold index_entry_get. rewrite <- (find_filter (mine n)) by (intro; apply matches_mine).
  rewrite V. apply find_filter. intro. apply matches_mine.
Qed.

Lemma entry_get_ns t n k e : index_entry_get t n k = Some e -> e_ns e = n /\ e_id e = k.
Proof.
  unfold index_entry_get. intro H. apply find_some in H. destruct H as (_ & M). unfold entry_matches in M.
  apply andb_true_iff in M. destruct M as (M1 & M2). apply bseqb_eq in M2. split; [lia|exact M2].
Qed.

Lemma veq_append n t t' e : veq n t t' -> veq n (table_append t e) (table_append t' e).
Proof.
  intros V h. unfold table_append, tset. destruct (h =? index_key_hash (e_id e)); [|apply V].
  rewrite !filter_app, V. reflexivity.
Qed.

Lemma filter_del_first n k l : filter (mine n) (del_first (entry_matches n k) l)
  = del_first (entry_matches n k) (filter (mine n) l).
Proof.
  induction l as [|x l IH]; [reflexivity|]. cbn [del_first filter].
  destruct (entry_matches n k x) eqn:M.
  - rewrite (matches_mine _ _ _ M). cbn [del_first]. rewrite M. reflexivity.
  - cbn [filter]. destruct (mine n x); cbn [del_first]; rewrite ?M, IH; reflexivity.
Qed.

Lemma veq_remove n t t' k : veq n t t' -> veq n (table_remove t n k) (table_remove t' n k).
Proof.
  intros V h. unfold table_remove, tset. destruct (h =? index_key_hash k); [|apply V].
  rewrite !filter_del_first, V. reflexivity.
Qed.

Lemma filter_upd_first n k g l : (forall x, e_ns x = n -> e_ns (g x) = n) ->
  filter (mine n) (upd_first (entry_matches n k) g l) = upd_first (entry_matches n k) g (filter (mine n) l).
Proof.
  intro G. induction l as [|x l IH]; [reflexivity|]. cbn [upd_first filter].
  destruct (entry_matches n k x) eqn:M.
  - pose proof (matches_mine _ _ _ M) as Mx. rewrite Mx. cbn [upd_first filter]. rewrite M.
    replace (mine n (g x)) with true; [reflexivity|]. unfold mine in *. rewrite G by lia. lia.
  - cbn [filter]. destruct (mine n x); cbn [upd_first]; rewrite ?M, IH; reflexivity.
Qed.

Lemma veq_update n t t' k g : (forall x, e_ns x = n -> e_ns (g x) = n) -> veq n t t' ->
  veq n (table_update t n k g) (table_update t' n k g).
Proof.
  intros G V h. unfold table_update, tset. destruct (h =? index_key_hash k); [|apply V].
  rewrite !filter_upd_first by exact G. rewrite V. reflexivity.
Qed.

Lemma tframe_update_gen t n k g : (forall x, e_ns x = n -> e_ns (g x) = n) -> tframe n t (table_update t n k g).
Proof.
  intros G h. unfold table_update, tset. destruct (N.eqb_spec h (index_key_hash k)) as [->|]; [|reflexivity].
  generalize (t (index_key_hash k)) as l. induction l as [|x l IH]; [reflexivity|]. cbn [upd_first filter].
  destruct (entry_matches n k x) eqn:M; cbn [filter].
  - pose proof (matches_mine _ _ _ M) as Mx. rewrite Mx. replace (mine n (g x)) with true; [reflexivity|].
    unfold mine in *. rewrite G by lia. lia.
  - rewrite IH. reflexivity.
Qed.

Lemma veq_clean n m t t' : veq n t t' -> veq n (table_clean t m) (table_clean t' m).
Proof.
  intros V h. unfold table_clean.
  rewrite (filter_comm (mine n)), V. apply filter_comm.
Qed.

Lemma clean_mine n t h : filter (mine n) (table_clean t n h) = [].
Proof.
  unfold table_clean. induction (t h) as [|x l IH]; [reflexivity|]. cbn [filter].
  destruct (N.eqb_spec (e_ns x) n) as [E|E]; cbn [negb filter]; [exact IH|].
  replace (mine n x) with false by (unfold mine; lia). exact IH.
Qed.

(* ---- the same entries under another slot number ---- *)

Definition ren (b : N) (e : entry) : entry :=
  mkEntry b (e_id e) (e_off e) (e_idxoff e) (e_len e) (e_flags e) (e_dataid e) (e_indexid e)
    (e_crc e) (e_pid e) (e_poff e) (e_ts e).
Definition xren (b : N) (x : index) : index :=
  mkIndex b (x_mode x) (x_indexid x) (x_nextentry x) (x_nextid x) (x_prev x) (x_updated x) (x_seq x)
    (x_entries x) (x_datasize x) (x_size x) (x_dmax x) (x_dmap x).

Lemma ren_same e : ren (e_ns e) e = e.
Proof. destruct e; reflexivity. Qed.
Lemma xren_same x : xren (x_ns x) x = x.
Proof. destruct x; reflexivity. Qed.

Definition rview (a b : N) (t t' : table) : Prop :=
  forall h, filter (mine b) (t' h) = map (ren b) (filter (mine a) (t h)).

Lemma ren_mine n l : map (ren n) (filter (mine n) l) = filter (mine n) l.
Proof.
  induction l as [|x l IH]; [reflexivity|]. cbn [filter]. destruct (mine n x) eqn:M; [|exact IH].
  cbn [map]. rewrite IH. f_equal. unfold mine in M. replace n with (e_ns x) by lia. apply ren_same.
Qed.

Lemma veq_rview n t t' : veq n t t' <-> rview n n t t'.
Proof. split; intros H h; [rewrite ren_mine; symmetry; apply H|]. rewrite H, ren_mine. reflexivity. Qed.

Lemma rview_veq a b t t1 t' t1' : rview a b t t' -> veq a t t1 -> veq b t' t1' -> rview a b t1 t1'.
Proof. intros R V V' h. rewrite <- V, <- V'. apply R. Qed.

Lemma rview_empty a b t t' : (forall h, filter (mine a) (t h) = []) -> (forall h, filter (mine b) (t' h) = []) -> rview a b t t'.
Proof. intros H H' h. rewrite H, H'. reflexivity. Qed.

Lemma matches_ren a b k x : e_ns x = a -> entry_matches b k (ren b x) = entry_matches a k x.
Proof. intros E. unfold entry_matches. cbn. rewrite !N.eqb_refl, E, N.eqb_refl. reflexivity. Qed.

Lemma find_ren a b k l : find (entry_matches b k) (map (ren b) (filter (mine a) l))
  = option_map (ren b) (find (entry_matches a k) (filter (mine a) l)).
Proof.
  induction l as [|x l IH]; [reflexivity|]. cbn [filter]. destruct (mine a x) eqn:M; [|exact IH].
  cbn [map find]. rewrite (matches_ren a) by (unfold mine in M; lia).
  destruct (entry_matches a k x); [reflexivity|exact IH].
Qed.

Lemma rview_get a b t t' k : rview a b t t' -> index_entry_get t' b k = option_map (ren b) (index_entry_get t a k).
Proof.
  intro R. unfold index_entry_get. rewrite <- (find_filter (mine b)) by (intro; apply matches_mine).
  rewrite R, find_ren. f_equal. apply find_filter. intro; apply matches_mine.
Qed.

Lemma rview_append a b t t' e : e_ns e = a -> rview a b t t' -> rview a b (table_append t e) (table_append t' (ren b e)).
Proof.
  intros E R h. unfold table_append, tset. cbn [e_id ren]. destruct (h =? index_key_hash (e_id e)); [|apply R].
  rewrite !filter_app, R, map_app. f_equal. cbn [filter]. unfold mine. cbn [e_ns ren]. rewrite N.eqb_refl, E, N.eqb_refl. reflexivity.
Qed.

Lemma rview_remove a b t t' k : rview a b t t' -> rview a b (table_remove t a k) (table_remove t' b k).
Proof.
  intros R h. unfold table_remove, tset. destruct (h =? index_key_hash k); [|apply R].
  rewrite !filter_del_first, R. generalize (t (index_key_hash k)) as l. induction l as [|x l IH]; [reflexivity|].
  cbn [filter]. destruct (mine a x) eqn:M; [|exact IH]. cbn [map del_first].
  rewrite (matches_ren a) by (unfold mine in M; lia). destruct (entry_matches a k x); [reflexivity|].
  cbn [map]. rewrite IH. reflexivity.
Qed.

Lemma rview_update a b t t' k g g' :
  (forall x, e_ns x = a -> e_ns (g x) = a /\ g' (ren b x) = ren b (g x)) ->
  (forall x, e_ns x = b -> e_ns (g' x) = b) ->
  rview a b t t' -> rview a b (table_update t a k g) (table_update t' b k g').
Proof.
  intros G G' R h. unfold table_update, tset. destruct (h =? index_key_hash k); [|apply R].
  rewrite !filter_upd_first; [|intros x Hx; apply (G x Hx)|exact G']. rewrite R.
  generalize (t (index_key_hash k)) as l. induction l as [|x l IH]; [reflexivity|].
  cbn [filter]. destruct (mine a x) eqn:M; [|exact IH]. cbn [map upd_first].
  assert (E : e_ns x = a) by (unfold mine in M; lia).
  rewrite (matches_ren a) by exact E. destruct (entry_matches a k x); cbn [map].
  - f_equal. apply (G x E).
  - rewrite IH. reflexivity.
Qed.

Lemma rview_clean a b t t' : rview a b (table_clean t a) (table_clean t' b).
Proof. apply rview_empty; intro h; apply clean_mine. Qed.

(* ---- states seen from a namespace ---- *)

Record sim (a b : N) (s s' : est) : Prop := {
  sim_ns : x_ns (ix s) = a; sim_ix : ix s' = xren b (ix s); sim_dt : dt s' = dt s; sim_dk : dk s' = dk s;
  sim_tb : rview a b (tb s) (tb s')
}.

Definition frame (n : N) (s s1 : est) : Prop := x_ns (ix s1) = x_ns (ix s) /\ tframe n (tb s) (tb s1).

Lemma frame_refl n s : frame n s s.
Proof. split; [reflexivity|apply tframe_refl]. Qed.
Lemma frame_trans n a b c : frame n a b -> frame n b c -> frame n a c.
Proof. intros (H1 & H2) (H3 & H4). split; [congruence|]. eapply tframe_trans; eassumption. Qed.

Lemma dirty_set_ren b f x : index_dirty_set f (xren b x) = xren b (index_dirty_set f x).
Proof. unfold index_dirty_set. cbn [x_dmap xren]. destruct (nget _ _); reflexivity. Qed.
Lemma dirty_resize_ren b f x : index_dirty_resize f (xren b x) = xren b (index_dirty_resize f x).
Proof. unfold index_dirty_resize. cbn [x_dmap x_dmax xren]. destruct (_ <=? _); [reflexivity|]. destruct (_ <=? _); reflexivity. Qed.
Lemma set_id_ren b f x : index_set_id f (xren b x) = xren b (index_set_id f x).
Proof. unfold index_set_id. apply (dirty_resize_ren b _ (x_set_indexid f x)). Qed.
Lemma seqid_push_ren b i f x : index_seqid_push i f (xren b x) = xren b (index_seqid_push i f x).
Proof. unfold index_seqid_push. cbn [x_seq xren]. destruct (x_seq x); reflexivity. Qed.
Lemma rehash_ren b x : index_rehash (xren b x) = xren b (index_rehash x).
Proof.
  unfold index_rehash. cbn [x_mode x_seq xren]. destruct (_ =? _).
  - destruct (x_seq x) as [[|? ?]|] eqn:E; unfold index_seqid_push; cbn; rewrite ?E; reflexivity.
  - destruct (x_seq x) as [[|? ?]|] eqn:E; unfold index_seqid_push; cbn; rewrite ?E; reflexivity.
Qed.

Lemma ren_ns (f : index -> index) x : (forall b y, f (xren b y) = xren b (f y)) -> x_ns (f x) = x_ns x.
Proof. intro H. rewrite <- (xren_same x) at 1. rewrite H. reflexivity. Qed.
Lemma dirty_set_ns f x : x_ns (index_dirty_set f x) = x_ns x.
Proof. apply ren_ns. intros; apply dirty_set_ren. Qed.
Lemma dirty_resize_ns f x : x_ns (index_dirty_resize f x) = x_ns x.
Proof. apply ren_ns. intros; apply dirty_resize_ren. Qed.
Lemma set_id_ns f x : x_ns (index_set_id f x) = x_ns x.
Proof. apply ren_ns. intros; apply set_id_ren. Qed.
Lemma seqid_push_ns i f x : x_ns (index_seqid_push i f x) = x_ns x.
Proof. apply ren_ns. intros; apply seqid_push_ren. Qed.
Lemma rehash_ns x : x_ns (index_rehash x) = x_ns x.
Proof. apply ren_ns. intros; apply rehash_ren. Qed.

(* data layer: the table and the index are not involved *)
Lemma data_insert_tb s q : tb (snd (data_insert s q)) = tb s /\ ix (snd (data_insert s q)) = ix s.
Proof.
  unfold data_insert. destruct (try_write _ _) as [[] d1]; [|split; reflexivity].
  destruct (try_write _ d1) as [[] d2]; split; reflexivity.
Qed.

Lemma data_insert_frame n s q : frame n s (snd (data_insert s q)).
Proof. destruct (data_insert_tb s q) as (E1 & E2). split; rewrite ?E1, ?E2; [reflexivity|apply tframe_refl]. Qed.

Lemma data_insert_sim a b s s' q : sim a b s s' ->
  fst (data_insert s' q) = fst (data_insert s q) /\ sim a b (snd (data_insert s q)) (snd (data_insert s' q)).
Proof.
  intros [Z A B C D]. unfold data_insert. rewrite B, C.
  destruct (try_write _ _) as [[] d1].
  - destruct (try_write _ d1) as [[] d2]; (split; [reflexivity|]); constructor; cbn; try reflexivity; assumption.
  - split; [reflexivity|]. constructor; cbn; try reflexivity; assumption.
Qed.

Lemma jump_frame n s : frame n s (jump_next s).
Proof.
  unfold jump_next, index_jump_next, data_jump_next. split; [|apply tframe_refl]. cbn.
  rewrite seqid_push_ns. cbn. rewrite set_id_ns. reflexivity.
Qed.

Lemma jump_sim a b s s' : sim a b s s' -> sim a b (jump_next s) (jump_next s').
Proof.
  intros [Z A B C D].
  assert (J : ix (index_jump_next s') = xren b (ix (index_jump_next s)) /\ dk (index_jump_next s') = dk (index_jump_next s)).
  { unfold index_jump_next. rewrite A, C. cbn [ix dk set_dk set_ix]. cbn [x_nextentry x_indexid xren].
    change (x_set_next (x_nextentry (ix s)) 0 (xren b (ix s))) with (xren b (x_set_next (x_nextentry (ix s)) 0 (ix s))).
    rewrite set_id_ren. set (y := index_set_id _ _). split; [|reflexivity].
    exact (seqid_push_ren b _ _ (x_set_updated false y)). }
  destruct J as (J1 & J2). pose proof (jump_frame a s) as (F & _).
  unfold jump_next, data_jump_next in *. rewrite J1, J2.
  constructor; cbn [ix dt dk tb set_dt set_dk].
  - exact (eq_trans F Z).
  - exact J1.
  - cbn [x_indexid xren]. unfold index_jump_next. cbn [dt set_dk set_ix]. rewrite B. reflexivity.
  - reflexivity.
  - exact D.
Qed.

(* index layer *)
Lemma append_frame n s id e : frame n s (snd (index_append s id e)).
Proof. unfold index_append. destruct (try_write _ _) as [[] d1]; (split; [reflexivity|apply tframe_refl]). Qed.

Lemma append_entry s id e : e_ns (snd (fst (index_append s id e))) = e_ns e.
Proof. unfold index_append. destruct (try_write _ _) as [[] d1]; reflexivity. Qed.

(* the number of the namespace of an entry is not written *)
Lemma append_sim a b s s' id e : sim a b s s' ->
  fst (fst (index_append s' id e)) = fst (fst (index_append s id e)) /\
  snd (fst (index_append s' id e)) = snd (fst (index_append s id e)) /\
  sim a b (snd (index_append s id e)) (snd (index_append s' id e)).
Proof.
  intros [Z A B C D]. unfold index_append. rewrite A, C. cbn [x_indexid xren].
  change (index_item_from_set (xren b (ix s)) id) with (index_item_from_set (ix s) id).
  destruct (try_write _ _) as [[] d1]; (split; [reflexivity|split;[reflexivity|]]); constructor; cbn; try reflexivity; assumption.
Qed.

Lemma append_ren c s id e : index_append s id (ren c e)
  = (fst (fst (index_append s id e)), ren c (snd (fst (index_append s id e))), snd (index_append s id e)).
Proof.
  unfold index_append. change (index_item_from_set (ix s) id (e_set_loc ?i ?o (ren c e))) with (index_item_from_set (ix s) id (e_set_loc i o e)).
  destruct (try_write _ _) as [[] d1]; reflexivity.
Qed.

Lemma delete_disk_frame n s e : frame n s (snd (index_entry_delete_disk s e)).
Proof.
  unfold index_entry_delete_disk. destruct (ifile _ _); [|apply frame_refl].
  destruct (_ =? _); [|apply frame_refl].
  destruct (try_write _ _) as [[] d1]; (split; [cbn; rewrite ?dirty_set_ns; reflexivity|apply tframe_refl]).
Qed.

Lemma delete_disk_ren c s e : index_entry_delete_disk s (ren c e) = index_entry_delete_disk s e.
Proof. reflexivity. Qed.

Lemma delete_disk_sim a b s s' e : sim a b s s' ->
  fst (index_entry_delete_disk s' e) = fst (index_entry_delete_disk s e) /\
  sim a b (snd (index_entry_delete_disk s e)) (snd (index_entry_delete_disk s' e)).
Proof.
  intros [Z A B C D]. unfold index_entry_delete_disk. rewrite A, C, dirty_set_ren.
  destruct (ifile _ _); [|split; [reflexivity|constructor; assumption]].
  destruct (_ =? _); [|split; [reflexivity|constructor; assumption]].
  destruct (try_write _ _) as [[] d1]; (split; [reflexivity|]); constructor; cbn; rewrite ?dirty_set_ns; try reflexivity; assumption.
Qed.

Lemma delete_frame n s e : x_ns (ix s) = n -> frame n s (snd (index_entry_delete s e)).
Proof.
  intro Hn. unfold index_entry_delete. pose proof (delete_disk_frame n s e) as F.
  destruct (index_entry_delete_disk s e) as [ok s1]. cbn [snd] in F. destruct ok.
  - unfold index_entry_delete_memory. destruct (_ =? _); cbn [snd].
    + eapply frame_trans; [exact F|]. split; [reflexivity|]. cbn. destruct F as (F & _). rewrite F, Hn. apply tframe_remove.
    + eapply frame_trans; [exact F|]. split; [reflexivity|apply tframe_refl].
  - destruct (_ =? _); [|exact F]. cbn [snd]. eapply frame_trans; [exact F|]. split; [reflexivity|].
    cbn. destruct F as (F & _). rewrite F, Hn. apply tframe_update_gen. intros x Hx. exact Hx.
Qed.

Lemma delete_sim a b s s' e : sim a b s s' ->
  fst (index_entry_delete s' (ren b e)) = fst (index_entry_delete s e) /\
  sim a b (snd (index_entry_delete s e)) (snd (index_entry_delete s' (ren b e))).
Proof.
  intros S. unfold index_entry_delete. rewrite delete_disk_ren.
  pose proof (delete_disk_sim a b s s' e S) as (F1 & F2). rewrite (sim_ix _ _ _ _ S). cbn [x_mode xren].
  destruct (index_entry_delete_disk s e) as [ok s1], (index_entry_delete_disk s' e) as [ok' s1'].
  cbn [fst snd] in *. subst ok'. destruct F2 as [Z A B C D]. destruct ok.
  - unfold index_entry_delete_memory. rewrite A. cbn [x_mode x_ns xren].
    destruct (_ =? _); (split; [reflexivity|]); constructor; cbn; try assumption; try reflexivity.
    rewrite Z. apply rview_remove. exact D.
  - destruct (_ =? _); (split; [reflexivity|]); constructor; cbn; try assumption.
    rewrite A, Z. cbn [x_ns xren]. apply rview_update; [|intros x Hx; exact Hx|exact D].
    intros x Hx. split; [exact Hx|reflexivity].
Qed.

Lemma overwrite_frame n s id e : frame n s (snd (index_seq_overwrite s id e)).
Proof.
  unfold index_seq_overwrite. destruct (x_seq _); [|apply frame_refl].
  destruct (index_seqmap_from_seq _ _) as [[? ?]|]; [|apply frame_refl].
  destruct (ifile _ _); [|apply frame_refl]. destruct (_ =? _); [|apply frame_refl].
  destruct (try_write _ _) as [[] d1]; (split; [cbn; rewrite ?dirty_set_ns; reflexivity|apply tframe_refl]).
Qed.

Lemma overwrite_sim a b s s' id e : sim a b s s' ->
  fst (index_seq_overwrite s' id e) = fst (index_seq_overwrite s id e) /\
  sim a b (snd (index_seq_overwrite s id e)) (snd (index_seq_overwrite s' id e)).
Proof.
  intros [Z A B C D]. unfold index_seq_overwrite. rewrite A, C. cbn [x_seq xren].
  change (index_item_from_set (xren b (ix s)) id) with (index_item_from_set (ix s) id).
  destruct (x_seq _); [|split; [reflexivity|constructor; assumption]].
  destruct (index_seqmap_from_seq _ _) as [[? ?]|]; [|split; [reflexivity|constructor; assumption]].
  destruct (ifile _ _); [|split; [reflexivity|constructor; assumption]].
  destruct (_ =? _); [|split; [reflexivity|constructor; assumption]]. rewrite dirty_set_ren.
  destruct (try_write _ _) as [[] d1]; (split; [reflexivity|]); constructor; cbn; rewrite ?dirty_set_ns; try reflexivity; assumption.
Qed.

Definition is_some {A} (o : option A) : bool := match o with Some _ => true | None => false end.

Lemma set_frame n s id e ex : x_ns (ix s) = n -> (forall x, ex = Some x -> x_mode (ix s) = MODE_KV -> e_ns x = n) ->
  frame n s (snd (index_set s id e ex)).
Proof.
  intros Hn Hx. unfold index_set. destruct ex as [prev|].
  - destruct (N.eqb_spec (x_mode (ix s)) MODE_KV) as [M|M].
    + unfold index_update_entry_memkey. pose proof (delete_disk_frame n s prev) as F.
      destruct (index_entry_delete_disk s prev) as [ok s1]. cbn [snd] in F.
      unfold update_memory_memkey. set (e1 := update_memory_entry _ _ _).
      assert (E1 : e_ns e1 = n) by (apply (Hx prev eq_refl M)).
      set (s2 := set_ix _ _).
      assert (F2 : frame n s1 s2).
      { split; [reflexivity|]. cbn. destruct F as (F & _). rewrite F, Hn. apply tframe_update. exact E1. }
      pose proof (append_frame n s2 id e1) as F3. pose proof (append_entry s2 id e1) as E3.
      destruct (index_append s2 id e1) as [[ok2 e2] s3]. cbn [fst snd] in *.
      assert (F4 : frame n s s3) by (eapply frame_trans; [exact F|]; eapply frame_trans; eassumption).
      eapply frame_trans; [exact F4|]. split; [reflexivity|]. cbn. destruct F4 as (F4 & _). rewrite F4, Hn.
      apply tframe_update. congruence.
    + unfold index_update_entry_sequential. pose proof (append_frame n s id (e_set_flags (N.lor (e_flags prev) INDEX_ENTRY_DELETED) prev)) as F.
      destruct (index_append _ _ _) as [[ok e2] s1]. cbn [snd] in F. destruct ok; [|exact F].
      pose proof (overwrite_frame n s1 id (e_set_parent (x_indexid (ix s1)) (e_idxoff e2) e)) as F2.
      destruct (index_seq_overwrite _ _ _) as [ok2 s2]. cbn [snd] in *.
      eapply frame_trans; [exact F|]. eapply frame_trans; [exact F2|]. split; [reflexivity|apply tframe_refl].
  - destruct (N.eqb_spec (x_mode (ix s)) MODE_KV) as [M|M].
    + unfold index_insert_entry_memkey. pose proof (append_frame n s id (e_set_flags 0 e)) as F.
      destruct (index_append _ _ _) as [[ok e2] s1]. cbn [snd] in F. destruct ok; [|exact F].
      cbn [insert_memory_memkey snd]. eapply frame_trans; [exact F|]. split; [reflexivity|].
      cbn [tb set_ix set_tb]. destruct F as (F & _). rewrite F, Hn.
      match goal with |- tframe n _ (table_append _ ?x) => change n with (e_ns x) at 1 end. apply tframe_append.
    + unfold index_insert_entry_sequential. pose proof (append_frame n s id (e_set_flags 0 e)) as F.
      destruct (index_append _ _ _) as [[ok e2] s1]. cbn [snd] in F. destruct ok; [|exact F].
      cbn [snd]. eapply frame_trans; [exact F|]. split; [reflexivity|apply tframe_refl].
Qed.

Lemma set_sim a b s s' id e ex : (forall x, ex = Some x -> x_mode (ix s) = MODE_KV -> e_ns x = a) ->
  sim a b s s' ->
  is_some (fst (index_set s' id e (option_map (ren b) ex))) = is_some (fst (index_set s id e ex)) /\
  sim a b (snd (index_set s id e ex)) (snd (index_set s' id e (option_map (ren b) ex))).
Proof.
  intros Hx S. unfold index_set. rewrite (sim_ix _ _ _ _ S). cbn [x_mode xren]. destruct ex as [prev|]; cbn [option_map].
  - destruct (N.eqb_spec (x_mode (ix s)) MODE_KV) as [M|M].
    + unfold index_update_entry_memkey. rewrite delete_disk_ren. pose proof (delete_disk_sim a b s s' prev S) as (_ & D).
      destruct (index_entry_delete_disk s prev) as [ok s1], (index_entry_delete_disk s' prev) as [ok' s1']. cbn [snd] in *.
      unfold update_memory_memkey. rewrite (sim_ix _ _ _ _ D).
      change (update_memory_entry (xren b (ix s1)) e (ren b prev)) with (ren b (update_memory_entry (ix s1) e prev)).
      set (e1 := update_memory_entry _ _ _).
      assert (E1 : e_ns e1 = a) by (apply (Hx prev eq_refl M)).
      set (s2 := set_ix _ (set_tb _ s1)). set (s2' := set_ix _ (set_tb _ s1')).
      assert (S2 : sim a b s2 s2').
      { destruct D as [Z A B C D]. constructor; cbn; try assumption; try reflexivity. rewrite Z.
        apply rview_update; [intros; split; [exact E1|reflexivity]|intros; reflexivity|exact D]. }
      rewrite append_ren.
      pose proof (append_sim a b s2 s2' id e1 S2) as (P1 & P2 & P3). pose proof (append_entry s2 id e1) as P4.
      destruct (index_append s2 id e1) as [[ok2 e2] s3], (index_append s2' id e1) as [[ok2' e2'] s3']. cbn [fst snd] in *.
      subst ok2' e2'. split; [destruct ok2; reflexivity|]. destruct P3 as [Z A B C D2]. constructor; cbn; try assumption.
      rewrite A, Z. cbn [x_ns xren].
      apply rview_update; [intros; split; [congruence|reflexivity]|intros; reflexivity|exact D2].
    + unfold index_update_entry_sequential.
      change (e_set_flags (N.lor (e_flags (ren b prev)) INDEX_ENTRY_DELETED) (ren b prev))
        with (ren b (e_set_flags (N.lor (e_flags prev) INDEX_ENTRY_DELETED) prev)).
      set (e1 := e_set_flags _ prev). rewrite append_ren.
      pose proof (append_sim a b s s' id e1 S) as (P1 & P2 & P3).
      destruct (index_append s _ _) as [[ok e2] s1], (index_append s' _ _) as [[ok' e2'] s1']. cbn [fst snd] in *.
      subst ok' e2'. destruct ok; [|split; [reflexivity|exact P3]].
      rewrite (sim_ix _ _ _ _ P3). cbn [x_indexid xren e_idxoff ren].
      pose proof (overwrite_sim a b s1 s1' id (e_set_parent (x_indexid (ix s1)) (e_idxoff e2) e) P3) as (_ & Q).
      destruct (index_seq_overwrite s1 _ _) as [ok2 s2], (index_seq_overwrite s1' _ _) as [ok2' s2']. cbn [snd fst] in *.
      split; [reflexivity|]. destruct Q as [Z A B C D]. constructor; cbn; try assumption. rewrite A. reflexivity.
  - destruct (N.eqb_spec (x_mode (ix s)) MODE_KV) as [M|M].
    + unfold index_insert_entry_memkey. pose proof (append_sim a b s s' id (e_set_flags 0 e) S) as (P1 & P2 & P3).
      destruct (index_append s _ _) as [[ok e2] s1], (index_append s' _ _) as [[ok' e2'] s1']. cbn [fst snd] in *.
      subst ok' e2'. destruct ok; [|split; [reflexivity|exact P3]].
      destruct P3 as [Z A B C D]. cbn [insert_memory_memkey fst snd]. rewrite A. split; [reflexivity|].
      constructor; cbn; try assumption; try reflexivity.
      match goal with |- rview a b _ (table_append _ ?y) => change y with (ren b (mkEntry (x_ns (ix s1)) id (e_off e2) (e_idxoff e2) (e_len e2) (e_flags e2) (x_indexid (ix s1))
             (e_indexid e2) (e_crc e2) (e_pid e2) (e_poff e2) (e_ts e2))) end.
      apply rview_append; [exact Z|exact D].
    + unfold index_insert_entry_sequential. pose proof (append_sim a b s s' id (e_set_flags 0 e) S) as (P1 & P2 & P3).
      destruct (index_append s _ _) as [[ok e2] s1], (index_append s' _ _) as [[ok' e2'] s1']. cbn [fst snd] in *.
      subst ok' e2'. destruct ok; [|split; [reflexivity|exact P3]].
      destruct P3 as [Z A B C D]. cbn [fst snd]. split; [reflexivity|]. constructor; cbn; try assumption. rewrite A. reflexivity.
Qed.

Lemma get_sequential_ren b x d k : index_get_sequential (xren b x) d k = option_map (ren b) (index_get_sequential x d k).
Proof.
  unfold index_get_sequential. cbn [x_seq x_ns xren]. destruct (negb _); [reflexivity|]. destruct (x_seq x); [|reflexivity].
  destruct (index_seqmap_from_seq _ _) as [[? ?]|]; [|reflexivity]. destruct (index_item_get_disk _ _ _ _); reflexivity.
Qed.

Lemma get_sim a b s s' k : sim a b s s' -> index_get s' k = option_map (ren b) (index_get s k).
Proof.
  intros [Z A B C D]. unfold index_get. rewrite A, C, get_sequential_ren. cbn [x_mode x_ns xren].
  rewrite Z, (rview_get a b _ _ k D). destruct (_ =? _).
  - destruct (index_entry_get _ _ _) as [e|]; [|reflexivity]. cbn [option_map e_flags ren]. destruct (is_deleted _); reflexivity.
  - destruct (index_get_sequential _ _ _) as [e|]; [|reflexivity]. cbn [option_map e_flags ren]. destruct (is_deleted _); reflexivity.
Qed.

Lemma get_ns s k e : index_get s k = Some e -> x_mode (ix s) = MODE_KV -> e_ns e = x_ns (ix s).
Proof.
  unfold index_get. intros H M. rewrite M in H. change (MODE_KV =? MODE_KV) with true in H. cbv iota in H.
  destruct (index_entry_get _ _ _) as [x|] eqn:G; [|discriminate].
  destruct (is_deleted _); [discriminate|]. injection H as <-. apply entry_get_ns in G. apply G.
Qed.

(* ---- commands ---- *)

Lemma unchanged_ren b d ex v : unchanged d (option_map (ren b) ex) v = unchanged d ex v.
Proof. destruct ex; reflexivity. Qed.

Lemma jump_mode s : x_mode (ix (jump_next s)) = x_mode (ix s).
Proof.
  unfold jump_next, index_jump_next, data_jump_next. cbn. unfold index_seqid_push, index_set_id, index_dirty_resize. cbn.
  destruct (_ <=? _); cbn; [destruct (x_seq (ix s)); reflexivity|].
  destruct (_ <=? _); cbn; destruct (x_seq (ix s)); reflexivity.
Qed.

(* what both handlers do once the request was accepted *)
Lemma put_frame n s q id e ex : x_ns (ix s) = n -> (forall x, ex = Some x -> x_mode (ix s) = MODE_KV -> e_ns x = n) ->
  frame n s (snd (let '(off, s1) := data_insert s q in
      if off =? 0 then (hardsend "-Cannot write data right now", s1)
      else match index_set s1 id (e off s1) ex with
           | (None, s2) => (hardsend "-Cannot write index right now", s2)
           | (Some _, s2) => (bulk id, s2) end)).
Proof.
  intros Hn Hx. pose proof (data_insert_frame n s q) as F. pose proof (data_insert_tb s q) as (_ & E).
  destruct (data_insert s q) as [off s1]. cbn [snd] in *. destruct (off =? 0); [exact F|].
  pose proof (set_frame n s1 id (e off s1) ex) as G. rewrite E in G. specialize (G Hn Hx).
  destruct (index_set _ _ _ _) as [[?|] s2]; cbn [snd] in *; eapply frame_trans; eassumption.
Qed.

Lemma put_sim a b s s' q id e ex : sim a b s s' -> (forall x, ex = Some x -> x_mode (ix s) = MODE_KV -> e_ns x = a) ->
  (forall off s1 s1', sim a b s1 s1' -> e off s1' = e off s1) ->
  let f s ex := let '(off, s1) := data_insert s q in
      if off =? 0 then (hardsend "-Cannot write data right now", s1)
      else match index_set s1 id (e off s1) ex with
           | (None, s2) => (hardsend "-Cannot write index right now", s2)
           | (Some _, s2) => (bulk id, s2) end in
  fst (f s' (option_map (ren b) ex)) = fst (f s ex) /\ sim a b (snd (f s ex)) (snd (f s' (option_map (ren b) ex))).
Proof.
  intros S Hx He f. unfold f. pose proof (data_insert_sim a b s s' q S) as (F1 & F2). pose proof (data_insert_tb s q) as (_ & E).
  destruct (data_insert s q) as [off s1], (data_insert s' q) as [off' s1']. cbn [fst snd] in *. subst off'.
  destruct (off =? 0); [split; [reflexivity|exact F2]|].
  rewrite (He off s1 s1' F2). pose proof (set_sim a b s1 s1' id (e off s1) ex) as G. rewrite E in G. specialize (G Hx F2).
  destruct G as (G1 & G2).
  destruct (index_set s1 _ _ _) as [[?|] s2], (index_set s1' _ _ _) as [[?|] s2']; cbn [fst snd is_some] in *; try discriminate;
    (split; [reflexivity|exact G2]).
Qed.

Lemma command_set_frame n g p now argv c s : x_ns (ix s) = n -> frame n s (snd (command_set g p now argv c s)).
Proof.
  intro Hn. unfold command_set. destruct (if argc argv =? 4 then _ else _); [apply frame_refl|].
  destruct (_ <? _); [apply frame_refl|]. destruct (negb _); [apply frame_refl|].
  destruct (is_frozen c); [apply frame_refl|]. destruct (is_locked c); [apply frame_refl|].
  set (ex := if blen (arg 1 argv) =? 0 then None else index_get s (arg 1 argv)).
  assert (Hx : forall x, ex = Some x -> x_mode (ix s) = MODE_KV -> e_ns x = n).
  { intros x E M. unfold ex in E. destruct (_ =? _); [discriminate|]. rewrite (get_ns _ _ _ E M). exact Hn. }
  clearbody ex. cbv zeta. destruct (match ex with Some _ => n_worm c | None => false end); [apply frame_refl|].
  destruct (_ && _); [apply frame_refl|].
  set (s1 := if _ <? _ then jump_next s else s).
  assert (F : frame n s s1) by (unfold s1; destruct (_ <? _); [apply jump_frame|apply frame_refl]).
  assert (M1 : x_mode (ix s1) = x_mode (ix s)) by (unfold s1; destruct (_ <? _); [apply jump_mode|reflexivity]).
  assert (Hn1 : x_ns (ix s1) = n) by (destruct F; congruence).
  rewrite <- M1 in Hx. clearbody s1. eapply frame_trans; [exact F|]. clear F M1 Hn.
  destruct (_ =? _).
  - unfold set_handler_userkey. destruct (_ =? _); [apply frame_refl|]. destruct (unchanged _ _ _); [apply frame_refl|].
    exact (put_frame n s1 _ _ (fun off _ => idxreq off _ _ _ _) ex Hn1 Hx).
  - unfold set_handler_sequential. destruct ex as [x|].
    + destruct (unchanged _ _ _); [apply frame_refl|].
      exact (put_frame n s1 _ _ (fun off s1 => idxreq off _ _ (d_dataid (dt s1)) _) (Some x) Hn1 Hx).
    + destruct (negb _); [apply frame_refl|].
      exact (put_frame n s1 _ _ (fun off s1 => idxreq off _ _ (d_dataid (dt s1)) _) None Hn1 Hx).
Qed.

Lemma command_set_sim a b g p now argv c s s' : sim a b s s' ->
  fst (command_set g p now argv c s') = fst (command_set g p now argv c s) /\
  sim a b (snd (command_set g p now argv c s)) (snd (command_set g p now argv c s')).
Proof.
  intro S. unfold command_set. destruct (if argc argv =? 4 then _ else _); [split; [reflexivity|exact S]|].
  destruct (_ <? _); [split; [reflexivity|exact S]|]. destruct (negb _); [split; [reflexivity|exact S]|].
  destruct (is_frozen c); [split; [reflexivity|exact S]|]. destruct (is_locked c); [split; [reflexivity|exact S]|].
  rewrite (get_sim a b s s' (arg 1 argv) S).
  set (ex := if blen (arg 1 argv) =? 0 then None else index_get s (arg 1 argv)).
  replace (if blen (arg 1 argv) =? 0 then None else option_map (ren b) (index_get s (arg 1 argv))) with (option_map (ren b) ex)
    by (unfold ex; destruct (_ =? _); reflexivity).
  assert (Hx : forall x, ex = Some x -> x_mode (ix s) = MODE_KV -> e_ns x = a).
  { intros x E M. unfold ex in E. destruct (_ =? _); [discriminate|]. rewrite (get_ns _ _ _ E M). apply (sim_ns _ _ _ _ S). }
  clearbody ex. cbv zeta. rewrite (sim_ix _ _ _ _ S), (sim_dt _ _ _ _ S), (sim_dk _ _ _ _ S). cbn [x_datasize x_mode xren].
  replace (match option_map (ren b) ex with Some _ => n_worm c | None => false end)
    with (match ex with Some _ => n_worm c | None => false end) by (destruct ex; reflexivity).
  replace (match option_map (ren b) ex with Some e => e_len e | None => 0 end)
    with (match ex with Some e => e_len e | None => 0 end) by (destruct ex; reflexivity).
  destruct (match ex with Some _ => n_worm c | None => false end); [split; [reflexivity|exact S]|].
  destruct (_ && _); [split; [reflexivity|exact S]|].
  set (s1 := if _ <? _ then jump_next s else s). set (s1' := if _ <? _ then jump_next s' else s').
  assert (S1 : sim a b s1 s1') by (unfold s1, s1'; destruct (_ <? _); [apply jump_sim|]; exact S).
  assert (M1 : x_mode (ix s1) = x_mode (ix s)) by (unfold s1; destruct (_ <? _); [apply jump_mode|reflexivity]).
  rewrite <- M1 in Hx |- *. clearbody s1 s1'. clear M1 S.
  destruct (_ =? _).
  - unfold set_handler_userkey. destruct (_ =? _); [split; [reflexivity|exact S1]|].
    rewrite unchanged_ren, (sim_dk _ _ _ _ S1). destruct (unchanged _ _ _); [split; [reflexivity|exact S1]|].
    exact (put_sim a b s1 s1' _ _ (fun off _ => idxreq off _ _ _ _) ex S1 Hx (fun _ _ _ _ => eq_refl)).
  - unfold set_handler_sequential. rewrite (sim_ix _ _ _ _ S1), (sim_dk _ _ _ _ S1). cbn [x_nextentry xren].
    destruct ex as [x|]; cbn [option_map].
    + change (unchanged (dk s1) (Some (ren b x))) with (unchanged (dk s1) (Some x)). cbn [e_id ren].
      destruct (unchanged _ _ _); [split; [reflexivity|exact S1]|].
      refine (put_sim a b s1 s1' _ _ (fun off s1 => idxreq off _ _ (d_dataid (dt s1)) _) (Some x) S1 Hx _).
      intros off t t' T. rewrite (sim_dt _ _ _ _ T). reflexivity.
    + destruct (negb _); [split; [reflexivity|exact S1]|].
      refine (put_sim a b s1 s1' _ _ (fun off s1 => idxreq off _ _ (d_dataid (dt s1)) _) None S1 Hx _).
      intros off t t' T. rewrite (sim_dt _ _ _ _ T). reflexivity.
Qed.

Lemma command_del_frame n p now argv c s : x_ns (ix s) = n -> frame n s (snd (command_del p now argv c s)).
Proof.
  intro Hn. unfold command_del. destruct (if argc argv =? 3 then _ else _); [apply frame_refl|].
  destruct (_ <? _); [apply frame_refl|]. destruct (negb _); [apply frame_refl|].
  destruct (is_frozen c); [apply frame_refl|]. destruct (is_locked c); [apply frame_refl|].
  destruct (index_get s (arg 1 argv)) as [e|]; [|apply frame_refl]. destruct (n_worm c); [apply frame_refl|].
  unfold data_delete. pose proof (data_insert_frame n s (mkDreq [] (e_id e) DATA_ENTRY_DELETED 0 (timestamp_from_set argv 2 now))) as F.
  pose proof (data_insert_tb s (mkDreq [] (e_id e) DATA_ENTRY_DELETED 0 (timestamp_from_set argv 2 now))) as (_ & E).
  destruct (data_insert _ _) as [off s1]. cbn [snd] in *. destruct (negb _); [|exact F].
  pose proof (delete_frame n s1 e) as G. rewrite E in G. specialize (G Hn).
  destruct (index_entry_delete s1 e) as [[] s2]; cbn [snd] in *; eapply frame_trans; eassumption.
Qed.

Lemma command_del_sim a b p now argv c s s' : sim a b s s' ->
  fst (command_del p now argv c s') = fst (command_del p now argv c s) /\
  sim a b (snd (command_del p now argv c s)) (snd (command_del p now argv c s')).
Proof.
  intro S. unfold command_del. destruct (if argc argv =? 3 then _ else _); [split; [reflexivity|exact S]|].
  destruct (_ <? _); [split; [reflexivity|exact S]|]. destruct (negb _); [split; [reflexivity|exact S]|].
  destruct (is_frozen c); [split; [reflexivity|exact S]|]. destruct (is_locked c); [split; [reflexivity|exact S]|].
  rewrite (get_sim a b s s' (arg 1 argv) S). destruct (index_get s (arg 1 argv)) as [e|]; [|split; [reflexivity|exact S]].
  cbn [option_map]. destruct (n_worm c); [split; [reflexivity|exact S]|]. cbv zeta. cbn [e_id ren].
  unfold data_delete. pose proof (data_insert_sim a b s s' (mkDreq [] (e_id e) DATA_ENTRY_DELETED 0 (timestamp_from_set argv 2 now)) S) as (F1 & F2).
  destruct (data_insert s _) as [off s1], (data_insert s' _) as [off' s1']. cbn [fst snd] in *. subst off'.
  destruct (negb _); [|split; [reflexivity|exact F2]].
  pose proof (delete_sim a b s1 s1' e F2) as (G1 & G2).
  destruct (index_entry_delete s1 e) as [ok s2], (index_entry_delete s1' _) as [ok' s2']. cbn [fst snd] in *. subst ok'.
  destruct ok; (split; [reflexivity|exact G2]).
Qed.

Lemma command_nsjump_frame n p s : frame n s (snd (command_nsjump p s)).
Proof. unfold command_nsjump. destruct (admin_authorized p); [apply frame_refl|apply jump_frame]. Qed.

Lemma command_nsjump_sim a b p s s' : sim a b s s' ->
  fst (command_nsjump p s') = fst (command_nsjump p s) /\ sim a b (snd (command_nsjump p s)) (snd (command_nsjump p s')).
Proof. intro S. unfold command_nsjump. destruct (admin_authorized p); (split; [reflexivity|]); [exact S|apply jump_sim; exact S]. Qed.

(* reads *)
Lemma get_single_sim a b s s' k : sim a b s s' -> get_single s' k = get_single s k.
Proof.
  intro S. unfold get_single. rewrite (get_sim a b s s' k S), (sim_dk _ _ _ _ S). destruct (index_get s k); reflexivity.
Qed.

Lemma read_sim argv c f f' : (forall k, f' k = f k) -> read_command argv c f' = read_command argv c f.
Proof. intro H. unfold read_command. destruct (args_validate _ _); [reflexivity|]. rewrite H. reflexivity. Qed.

Lemma command_get_sim a b argv c s s' : sim a b s s' -> command_get argv c s' = command_get argv c s.
Proof. intro S. apply read_sim. intro k. apply (get_single_sim a b). exact S. Qed.

Lemma command_mget_sim a b argv c s s' : sim a b s s' -> command_mget argv c s' = command_mget argv c s.
Proof.
  intro S. unfold command_mget. rewrite (map_ext (get_single s') (get_single s)); [reflexivity|].
  intro k. apply (get_single_sim a b). exact S.
Qed.

Lemma command_exists_sim a b argv c s s' : sim a b s s' -> command_exists argv c s' = command_exists argv c s.
Proof. intro S. apply read_sim. intro k. rewrite (get_sim a b s s' k S). destruct (index_get s k); reflexivity. Qed.
Lemma command_check_sim a b argv c s s' : sim a b s s' -> command_check argv c s' = command_check argv c s.
Proof. intro S. apply read_sim. intro k. rewrite (get_sim a b s s' k S), (sim_dk _ _ _ _ S). destruct (index_get s k); reflexivity. Qed.
Lemma command_length_sim a b argv c s s' : sim a b s s' -> command_length argv c s' = command_length argv c s.
Proof. intro S. apply read_sim. intro k. rewrite (get_sim a b s s' k S). destruct (index_get s k); reflexivity. Qed.
Lemma command_keytime_sim a b argv c s s' : sim a b s s' -> command_keytime argv c s' = command_keytime argv c s.
Proof. intro S. apply read_sim. intro k. rewrite (get_sim a b s s' k S). destruct (index_get s k); reflexivity. Qed.
Lemma command_dbsize_sim a b s s' : sim a b s s' -> command_dbsize s' = command_dbsize s.
Proof. intro S. unfold command_dbsize. rewrite (sim_ix _ _ _ _ S). reflexivity. Qed.

(* a request of SpecKV *)
Lemma run_req_frame n g p now q c s : x_ns (ix s) = n -> frame n s (snd (run_req g p now q c s)).
Proof.
  intro Hn. destruct q; cbn [run_req snd]; try apply frame_refl.
  - apply command_set_frame. exact Hn.
  - apply command_del_frame. exact Hn.
  - apply command_nsjump_frame.
Qed.

Lemma run_req_sim a b g p now q c s s' : sim a b s s' ->
  fst (run_req g p now q c s') = fst (run_req g p now q c s) /\
  sim a b (snd (run_req g p now q c s)) (snd (run_req g p now q c s')).
Proof.
  intro S. destruct q; cbn [run_req fst snd].
  - apply command_set_sim. exact S.
  - apply command_del_sim. exact S.
  - split; [eapply command_get_sim|]; exact S.
  - split; [eapply command_mget_sim|]; exact S.
  - split; [eapply command_exists_sim|]; exact S.
  - split; [eapply command_check_sim|]; exact S.
  - split; [eapply command_length_sim|]; exact S.
  - split; [eapply command_keytime_sim|]; exact S.
  - apply command_nsjump_sim. exact S.
  - split; [eapply command_dbsize_sim|]; exact S.
Qed.

(* ---- loading ---- *)

Definition tx_frame (n : N) (t : table) (x : index) (t1 : table) (x1 : index) : Prop := x_ns x1 = x_ns x /\ tframe n t t1.

Lemma delete_memory_frame n t x e : x_ns x = n ->
  tx_frame n t x (fst (index_entry_delete_memory t x e)) (snd (index_entry_delete_memory t x e)).
Proof.
  intro H. unfold index_entry_delete_memory. destruct (_ =? _); (split; [reflexivity|]); [rewrite H; apply tframe_remove|apply tframe_refl].
Qed.

Lemma set_memory_frame n t x id e : x_ns x = n -> e_ns e = n ->
  let r := index_set_memory t x id e in
  tx_frame n t x (fst (fst r)) (snd (fst r)) /\ e_ns (snd r) = n.
Proof.
  intros H He. unfold index_set_memory. destruct (_ =? _); [split; [split; [reflexivity|apply tframe_refl]|exact He]|].
  assert (A : forall y, y = insert_memory_memkey t x id e -> tx_frame n t x (fst (fst y)) (snd (fst y)) /\ e_ns (snd y) = n).
  { intros y ->. cbn. split; [|exact H]. split; [reflexivity|].
    match goal with |- tframe n _ (table_append _ ?z) => replace n with (e_ns z) by exact H end. apply tframe_append. }
  destruct (index_entry_get t (x_ns x) id) as [old|] eqn:G; [|apply A; reflexivity].
  destruct (is_deleted _); [apply A; reflexivity|]. apply entry_get_ns in G. cbn.
  split; [|destruct G; congruence]. split; [reflexivity|]. rewrite H. apply tframe_update. cbn. rewrite <- H. apply G.
Qed.

Lemma load_loop_frame n fuel : forall rest off t x t1 x1, x_ns x = n ->
  index_load_loop fuel rest off t x = Some (t1, x1) -> tx_frame n t x t1 x1.
Proof.
  induction fuel as [|fuel IH]; intros rest off t x t1 x1 Hn H; destruct rest as [|b0 rest]; cbn [index_load_loop] in H; try discriminate.
  - injection H as <- <-. split; [reflexivity|apply tframe_refl].
  - injection H as <- <-. split; [reflexivity|apply tframe_refl].
  - destruct (_ <? _); [discriminate|].
    set (x0 := if off =? 29 then _ else _) in H.
    assert (E0 : x_ns x0 = n) by (unfold x0; destruct (off =? 29); rewrite ?seqid_push_ns; exact Hn).
    match type of H with context [index_set_memory t x0 ?i ?e] => pose proof (set_memory_frame n t x0 i e E0 Hn) as (F1 & F2) end.
    destruct (index_set_memory t x0 _ _) as [[t2 x2] fr]. cbn [fst snd] in *.
    assert (E2 : x_ns x2 = n) by (destruct F1; congruence).
    destruct (is_deleted (e_flags fr)).
    + pose proof (delete_memory_frame n t2 x2 fr E2) as F3. destruct (index_entry_delete_memory t2 x2 fr) as [t3 x3]. cbn [fst snd] in *.
      assert (E3 : x_ns x3 = n) by (destruct F3; congruence).
      apply IH in H; [|exact E3]. destruct H as (H1 & H2). split; [cbn in H1; congruence|].
      eapply tframe_trans; [apply F1|]. eapply tframe_trans; [apply F3|exact H2].
    + apply IH in H; [|exact E2]. destruct H as (H1 & H2). split; [cbn in H1; congruence|].
      eapply tframe_trans; [apply F1|exact H2].
Qed.

Lemma set_memory_sim a b t t' x id e : x_ns x = a -> e_ns e = a -> rview a b t t' ->
  let r := index_set_memory t x id e in let r' := index_set_memory t' (xren b x) id (ren b e) in
  snd (fst r') = xren b (snd (fst r)) /\ snd r' = ren b (snd r) /\ rview a b (fst (fst r)) (fst (fst r')).
Proof.
  intros H He R. unfold index_set_memory. cbn [x_mode x_ns xren]. destruct (_ =? _); [repeat split; exact R|].
  assert (A : let y := insert_memory_memkey t x id e in let y' := insert_memory_memkey t' (xren b x) id (ren b e) in
    snd (fst y') = xren b (snd (fst y)) /\ snd y' = ren b (snd y) /\ rview a b (fst (fst y)) (fst (fst y'))).
  { cbn. split; [reflexivity|]. split; [reflexivity|].
    match goal with |- rview a b (table_append _ ?z) (table_append _ ?z') => change z' with (ren b z) end.
    apply rview_append; [exact H|exact R]. }
  rewrite (rview_get a b t t' id R), H. destruct (index_entry_get t a id) as [old|] eqn:G; [|exact A]. cbn [option_map e_flags ren].
  destruct (is_deleted _); [exact A|]. apply entry_get_ns in G. cbn. split; [reflexivity|]. split; [reflexivity|].
  rewrite H. apply rview_update; [intros; split; [apply G|reflexivity]|intros; reflexivity|exact R].
Qed.

Definition tx_sim (a b : N) (r r' : option (table * index)) : Prop :=
  match r, r' with
  | Some (t, x), Some (t', x') => x_ns x = a /\ x' = xren b x /\ rview a b t t'
  | None, None => True
  | _, _ => False
  end.

Lemma load_loop_sim a b fuel : forall rest off t t' x, x_ns x = a -> rview a b t t' ->
  tx_sim a b (index_load_loop fuel rest off t x) (index_load_loop fuel rest off t' (xren b x)).
Proof.
  induction fuel as [|fuel IH]; intros rest off t t' x Hn R; destruct rest as [|b0 rest]; cbn [index_load_loop tx_sim];
    try (split; [exact Hn|split; [reflexivity|exact R]]); [exact I|].
  destruct (_ <? _); [exact I|]. cbn [x_nextentry x_indexid x_ns xren]. rewrite seqid_push_ren.
  replace (if off =? 29 then xren b (index_seqid_push (x_nextentry x) (x_indexid x) x) else xren b x)
    with (xren b (if off =? 29 then index_seqid_push (x_nextentry x) (x_indexid x) x else x)) by (destruct (off =? 29); reflexivity).
  set (x0 := if off =? 29 then _ else _).
  assert (E0 : x_ns x0 = a) by (unfold x0; destruct (off =? 29); rewrite ?seqid_push_ns; exact Hn).
  clearbody x0.
  match goal with |- tx_sim _ _ (let '(_, _) := index_set_memory t x0 ?i ?e in _) (let '(_, _) := index_set_memory t' (xren b x0) ?i ?e' in _) =>
    change e' with (ren b e);
    pose proof (set_memory_sim a b t t' x0 i e E0 Hn R) as (F1 & F2 & F3);
    pose proof (set_memory_frame a t x0 i e E0 Hn) as ((F4 & _) & _);
    destruct (index_set_memory t x0 i e) as [[t2 x2] fr], (index_set_memory t' (xren b x0) i (ren b e)) as [[t2' x2'] fr']
  end.
  cbn [fst snd] in *. subst x2' fr'. cbn [e_flags ren]. assert (E2 : x_ns x2 = a) by congruence.
  destruct (is_deleted (e_flags fr)).
  - unfold index_entry_delete_memory. cbn [x_mode x_ns xren e_id ren]. destruct (_ =? _).
    + match goal with |- tx_sim _ _ (index_load_loop _ _ _ _ ?y) (index_load_loop _ _ _ _ ?y') => change y' with (xren b y) end.
      apply IH; [exact E2|]. rewrite E2. apply rview_remove. exact F3.
    + match goal with |- tx_sim _ _ (index_load_loop _ _ _ _ ?y) (index_load_loop _ _ _ _ ?y') => change y' with (xren b y) end.
      apply IH; [exact E2|exact F3].
  - match goal with |- tx_sim _ _ (index_load_loop _ _ _ _ ?y) (index_load_loop _ _ _ _ ?y') => change y' with (xren b y) end.
    apply IH; [exact E2|exact F3].
Qed.

(* outcomes of loading *)
Definition lsim (a b : N) (r r' : lres) : Prop :=
  match r, r' with
  | LExit, LExit | LUb, LUb => True
  | LDiscard s, LDiscard s' | LNew s, LNew s' | LOk s, LOk s' => sim a b s s'
  | _, _ => False
  end.

Definition lframe (n : N) (s : est) (r : lres) : Prop :=
  match r with LExit | LUb => True | LDiscard s1 | LNew s1 | LOk s1 => frame n s s1 end.

Definition load_x2 (hdr : ihdr) (x : index) : index :=
  index_rehash (if (ih_mode hdr =? MODE_SEQ) || (ih_mode hdr =? MODE_KV) then x_set_mode (ih_mode hdr) x else x).

Lemma load_x2_ren b hdr x : load_x2 hdr (xren b x) = xren b (load_x2 hdr x).
Proof. unfold load_x2. destruct (_ || _); [exact (rehash_ren b (x_set_mode (ih_mode hdr) x))|apply rehash_ren]. Qed.
Lemma load_x2_ns hdr x : x_ns (load_x2 hdr x) = x_ns x.
Proof. apply ren_ns. intros; apply load_x2_ren. Qed.

Lemma load_body_frame n smode s hdr cr : x_ns (ix s) = n -> lframe n s (index_load_body smode s hdr cr).
Proof.
  intro Hn. unfold index_load_body. destruct (negb _); [exact I|]. destruct (negb _); [exact I|].
  cbv zeta. fold (load_x2 hdr (ix s)). destruct (_ && _); [exact I|]. destruct (ifile _ _) as [f|]; [|exact I].
  destruct (index_load_loop _ _ _ _ _) as [[t3 x3]|] eqn:L; [|exact I].
  apply (load_loop_frame n) in L; [|cbn; rewrite load_x2_ns; exact Hn].
  destruct L as (L1 & L2). cbn in L1. rewrite load_x2_ns in L1.
  destruct cr; (split; [exact L1|exact L2]).
Qed.

Lemma load_body_sim a b smode s s' hdr cr : sim a b s s' ->
  lsim a b (index_load_body smode s hdr cr) (index_load_body smode s' hdr cr).
Proof.
  intros [Z A B C D]. unfold index_load_body. destruct (negb _); [exact I|]. destruct (negb _); [exact I|].
  cbv zeta. fold (load_x2 hdr (ix s)) (load_x2 hdr (ix s')). rewrite A, C, load_x2_ren. cbn [x_indexid xren].
  destruct (_ && _); [exact I|]. destruct (ifile _ _) as [f|]; [|exact I].
  set (y := load_x2 hdr (ix s)).
  change (x_set_next (x_nextentry (xren b y)) 0 (xren b y)) with (xren b (x_set_next (x_nextentry y) 0 y)).
  pose proof (load_loop_sim a b (length (nskip 29 f)) (nskip 29 f) 29 (tb s) (tb s') (x_set_next (x_nextentry y) 0 y)) as L.
  specialize (L (eq_trans (load_x2_ns hdr (ix s)) Z) D). unfold tx_sim in L.
  destruct (index_load_loop _ _ _ (tb s) _) as [[t3 x3]|], (index_load_loop _ _ _ (tb s') _) as [[t3' x3']|]; try contradiction; [|exact I].
  destruct L as (L1 & L2 & L3). destruct cr; constructor; cbn; try assumption; reflexivity.
Qed.

Lemma load_file_frame n smode s : x_ns (ix s) = n -> lframe n s (index_load_file smode s).
Proof.
  intro Hn. unfold index_load_file. cbv zeta. destruct (ifile _ _) as [f|]; [|exact I].
  destruct (_ =? _); [exact (load_body_frame n smode (set_dk _ s) _ _ Hn)|].
  destruct (_ <? _); [exact I|]. destruct (_ <? _); [split; [reflexivity|apply tframe_refl]|].
  exact (load_body_frame n smode (set_dk _ (set_dk _ s)) _ _ Hn).
Qed.

Lemma sim_set_dk a b d s s' : sim a b s s' -> sim a b (set_dk d s) (set_dk d s').
Proof. intros [Z A B C D]. constructor; cbn; try assumption; reflexivity. Qed.
Lemma sim_set_ix a b f s s' : (forall y, f (xren b y) = xren b (f y)) -> (forall y, x_ns (f y) = x_ns y) ->
  sim a b s s' -> sim a b (set_ix (f (ix s)) s) (set_ix (f (ix s')) s').
Proof. intros H H0 [Z A B C D]. constructor; cbn; try assumption; [rewrite H0; exact Z|rewrite A; apply H]. Qed.

Lemma load_file_sim a b smode s s' : sim a b s s' -> lsim a b (index_load_file smode s) (index_load_file smode s').
Proof.
  intros S. unfold index_load_file. cbv zeta. rewrite (sim_ix _ _ _ _ S), (sim_dk _ _ _ _ S). cbn [x_indexid x_mode xren].
  destruct (ifile _ _) as [f|]; [|exact I].
  destruct (_ =? _); [apply load_body_sim, sim_set_dk, S|].
  destruct (_ <? _); [exact I|]. destruct (_ <? _); [apply sim_set_dk, S|].
  apply load_body_sim, sim_set_dk, sim_set_dk, S.
Qed.

Lemma lframe_trans n s s0 r : frame n s s0 -> lframe n s0 r -> lframe n s r.
Proof. intros F G. destruct r; cbn in *; try exact I; eapply frame_trans; eassumption. Qed.

Lemma load_files_frame n smode k : forall fid s, x_ns (ix s) = n -> lframe n s (index_load_files smode k fid s).
Proof.
  induction k as [|k IH]; intros fid s Hn; cbn [index_load_files]; [apply frame_refl|].
  set (s0 := set_ix _ s). assert (E0 : x_ns (ix s0) = n) by (unfold s0; cbn; rewrite set_id_ns; exact Hn).
  apply (lframe_trans n s s0); [split; [congruence|apply tframe_refl]|].
  pose proof (load_file_frame n smode s0 E0) as F. destruct (index_load_file smode s0) as [| |s1|s1|s1]; try exact F.
  apply (lframe_trans n s0 s1); [exact F|]. apply IH. destruct F; congruence.
Qed.

Lemma load_files_sim a b smode k : forall fid s s', sim a b s s' -> lsim a b (index_load_files smode k fid s) (index_load_files smode k fid s').
Proof.
  induction k as [|k IH]; intros fid s s' S; cbn [index_load_files]; [exact S|].
  assert (S0 : sim a b (set_ix (index_set_id fid (ix s)) s) (set_ix (index_set_id fid (ix s')) s'))
    by (apply sim_set_ix; [intro; apply set_id_ren|intro; apply set_id_ns|exact S]).
  pose proof (load_file_sim a b smode _ _ S0) as F. unfold lsim in F.
  destruct (index_load_file smode (set_ix (index_set_id fid (ix s)) s)), (index_load_file smode (set_ix (index_set_id fid (ix s')) s')); try contradiction; try exact F.
  apply IH. exact F.
Qed.

Lemma internal_load_frame n smode s : x_ns (ix s) = n -> lframe n s (index_internal_load smode s).
Proof.
  intro Hn. unfold index_internal_load. cbv zeta. destruct (_ <? _).
  - set (s0 := set_ix _ s). assert (E0 : x_ns (ix s0) = n) by (unfold s0; cbn; rewrite dirty_resize_ns; exact Hn).
    apply (lframe_trans n s s0); [split; [congruence|apply tframe_refl]|]. apply load_files_frame. exact E0.
  - set (s0 := set_ix (index_set_id 0 _) _). assert (E0 : x_ns (ix s0) = n) by (unfold s0; cbn; rewrite set_id_ns, dirty_resize_ns; exact Hn).
    apply (lframe_trans n s s0); [split; [congruence|apply tframe_refl]|]. apply load_file_frame. exact E0.
Qed.

Lemma internal_load_sim a b smode s s' : sim a b s s' -> lsim a b (index_internal_load smode s) (index_internal_load smode s').
Proof.
  intro S. unfold index_internal_load. cbv zeta. rewrite (sim_dk _ _ _ _ S).
  assert (S0 : sim a b (set_ix (index_dirty_resize (nlen (dk_i (dk s))) (ix s)) s) (set_ix (index_dirty_resize (nlen (dk_i (dk s))) (ix s')) s'))
    by (apply (sim_set_ix a b (index_dirty_resize _)); [intro; apply dirty_resize_ren|intro; apply dirty_resize_ns|exact S]).
  destruct (_ <? _); [apply load_files_sim; exact S0|]. apply load_file_sim.
  apply (sim_set_ix a b (index_set_id 0)); [intro; apply set_id_ren|intro; apply set_id_ns|exact S0].
Qed.

Lemma store_open_frame n smode t d s : store_open smode n t d = Some s -> x_ns (ix s) = n /\ tframe n t (tb s).
Proof.
  unfold store_open. set (s0 := mkEst _ _ _ _).
  assert (E0 : x_ns (ix s0) = n).
  { unfold s0. cbn [ix]. rewrite rehash_ns. unfold index_init_lazy. rewrite dirty_resize_ns. reflexivity. }
  pose proof (internal_load_frame n smode s0 E0) as F. destruct (index_internal_load smode s0) as [| |s1|s1|s1]; try discriminate;
    cbv zeta; intro H; injection H as <-; cbn in F |- *; destruct F as (F1 & F2); cbn in F2; (split; [congruence|exact F2]).
Qed.

Definition osim (a b : N) (r r' : option est) : Prop :=
  match r, r' with Some s, Some s' => sim a b s s' | None, None => True | _, _ => False end.

Lemma store_open_sim a b smode t t' d : rview a b t t' -> osim a b (store_open smode a t d) (store_open smode b t' d).
Proof.
  intro R. unfold store_open. set (s0 := mkEst t _ _ _). set (s0' := mkEst t' _ _ _).
  assert (S0 : sim a b s0 s0').
  { constructor; try reflexivity; [|unfold s0, s0'; cbn [ix]|exact R].
    - unfold s0. cbn [ix]. rewrite rehash_ns. unfold index_init_lazy. rewrite dirty_resize_ns. reflexivity.
    - rewrite <- rehash_ren. reflexivity. }
  pose proof (internal_load_sim a b smode s0 s0' S0) as L. unfold lsim in L.
  destruct (index_internal_load smode s0) as [| |s1|s1|s1], (index_internal_load smode s0') as [| |s1'|s1'|s1']; try contradiction; try exact I;
    destruct L as [Z A B C D]; cbn [osim]; rewrite A, C; constructor; cbn; try assumption; reflexivity.
Qed.
