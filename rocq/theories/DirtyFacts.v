(* The dirty bitmap *)
From Coq Require Import Strings.String Strings.Byte List Sorted NArith ZArith Bool Lia ZifyBool ZifyN ZifyNat.
From Verif Require Import Bytes BytesFacts Layout LayoutFacts Store DataFacts Text Commands System SpecKV Machine CrashModel SpecDirty.
Import ListNotations.
Open Scope N_scope.
Ltac Zify.zify_post_hook ::= Z.div_mod_to_equations.
Local Notation length := List.length.

Definition fs (s : est) : list bytes * list bytes := (dk_i (dk s), dk_d (dk s)).

Lemma overwrites_app V : forall a W, overwrites a (V ++ W) = overwrites a V ++ overwrites (apply_writes V a) W.
Proof.
  induction V as [|w V IH]; intros a W; [reflexivity|]. cbn [app overwrites]. rewrite IH, app_assoc. reflexivity.
Qed.

Lemma applies_app V W a : apply_writes (V ++ W) a = apply_writes W (apply_writes V a).
Proof. unfold apply_writes. apply fold_left_app. Qed.

(* ---- the map ---- *)

Lemma div8 a b : a / 8 = b / 8 -> a mod 8 = b mod 8 -> a = b.
Proof. lia. Qed.

Lemma dirty_set_get id x f : id < 8 * nlen (x_dmap x) ->
  index_dirty_get f (index_dirty_set id x) = (index_dirty_get f x || (f =? id))%bool.
Proof.
  intros H. unfold index_dirty_set. destruct (nget_Some (id / 8) (x_dmap x)) as (b & E); [lia|]. rewrite E.
  unfold index_dirty_get. cbn [x_dmap x_set_dirty]. rewrite nget_nset.
  destruct (N.eqb_spec (f / 8) (id / 8)) as [D|D].
  - destruct (N.ltb_spec (id / 8) (nlen (x_dmap x))); [|lia]. rewrite D, E, N.lor_spec, N.shiftl_1_l.
    f_equal. rewrite N.pow2_bits_eqb. destruct (N.eqb_spec (id mod 8) (f mod 8)), (N.eqb_spec f id); auto; subst; try congruence.
    exfalso. apply n. now apply div8.
  - destruct (N.eqb_spec f id) as [->|]; [congruence|]. now rewrite orb_false_r.
Qed.

Lemma dmap_set id x : nlen (x_dmap (index_dirty_set id x)) = nlen (x_dmap x) /\ x_dmax (index_dirty_set id x) = x_dmax x /\
  x_indexid (index_dirty_set id x) = x_indexid x.
Proof. unfold index_dirty_set. destruct (nget _ _); cbn [x_dmap x_dmax x_indexid x_set_dirty]; auto using nlen_nset. Qed.

Definition covers (x : index) (n : N) : Prop := x_dmax x < 8 * nlen (x_dmap x) /\ n <= 8 * nlen (x_dmap x).

Lemma nlen_repeat {A} (a : A) n : nlen (repeat a n) = N.of_nat n.
Proof. rewrite nlen_length. rewrite repeat_length. reflexivity. Qed.

Lemma nget_repeat {A} (a : A) n k : forall b, nget k (repeat a n) = Some b -> b = a.
Proof.
  intros b H. rewrite nget_nth in H. apply nth_error_In in H. now apply repeat_spec in H.
Qed.

Lemma resize_get m x f : index_dirty_get f (index_dirty_resize m x) = index_dirty_get f x.
Proof.
  unfold index_dirty_resize. destruct (_ <=? _); [reflexivity|]. destruct (_ <=? _); [reflexivity|].
  unfold index_dirty_get. cbn [x_dmap x_set_dirty].
  destruct (nget (f / 8) (x_dmap x)) as [b|] eqn:E.
  - rewrite nget_app1; [now rewrite E|]. now apply nget_lt in E.
  - destruct (nget (f / 8) (x_dmap x ++ _)) as [b|] eqn:E2; [|reflexivity].
    destruct (N.lt_ge_cases (f / 8) (nlen (x_dmap x))) as [L|L].
    + destruct (nget_Some _ _ L); congruence.
    + rewrite nget_app2 in E2 by auto. apply nget_repeat in E2. subst b. apply N.bits_0.
Qed.

Lemma resize_covers m x n : covers x n -> covers (index_dirty_resize m x) (N.max n (m + 1)) /\
  x_indexid (index_dirty_resize m x) = x_indexid x.
Proof.
  intros (A & B). unfold index_dirty_resize, covers. destruct (N.leb_spec m (x_dmax x)).
  - split; [lia|reflexivity].
  - destruct (N.leb_spec ((m + 8) / 8) (nlen (x_dmap x))); cbn [x_dmap x_dmax x_indexid x_set_dirty].
    + split; [lia|reflexivity].
    + rewrite nlen_app, nlen_repeat. split; [lia|reflexivity].
Qed.

(* ---- steps ---- *)

Definition cov (s : est) : Prop := covers (ix s) (nlen (dk_i (dk s))) /\ x_indexid (ix s) < nlen (dk_i (dk s)) /\ dk_io (dk s) = [].

Definition quiet (s s' : est) (W : list dwrite) : Prop :=
  forall f b, f < x_indexid (ix s) -> nget f (dk_i (dk s)) = Some b -> ~ In (N.to_nat f) (overwrites (fs s) W) ->
    nget f (dk_i (dk s')) = Some b.

Definition step (s s' : est) : Prop := cov s ->
  cov s' /\ nlen (dk_i (dk s)) <= nlen (dk_i (dk s')) /\
  exists W, dk_log (dk s') = dk_log (dk s) ++ W /\ apply_writes W (fs s) = fs s' /\
    (forall f, index_dirty_get f (ix s') = true <-> index_dirty_get f (ix s) = true \/ In (N.to_nat f) (overwrites (fs s) W)) /\
    (nlen (dk_i (dk s')) < 2 ^ 32 -> x_indexid (ix s) <= x_indexid (ix s') /\ quiet s s' W).

Lemma step_refl s : step s s.
Proof.
  intros C. split; [exact C|]. split; [lia|]. exists []. rewrite app_nil_r. split; [reflexivity|]. split; [reflexivity|].
  split; [intros f; cbn [overwrites In]; tauto|]. intros _. split; [lia|]. intros f b _ G _. exact G.
Qed.

Lemma step_trans a b c : step a b -> step b c -> step a c.
Proof.
  intros A B C. destruct (A C) as (C1 & L1 & V & V1 & V2 & V3 & V4). destruct (B C1) as (C2 & L2 & W & W1 & W2 & W3 & W4).
  split; [exact C2|]. split; [lia|]. exists (V ++ W). split; [now rewrite W1, V1, app_assoc|]. rewrite applies_app, V2.
  split; [exact W2|]. rewrite overwrites_app, V2. split.
  - intros f. rewrite W3, V3, in_app_iff. tauto.
  - intros H. destruct (W4 H) as [W5 W6]. destruct V4 as [V5 V6]; [lia|]. split; [lia|].
    intros f x Hf G Hn. rewrite overwrites_app, V2, in_app_iff in Hn.
    apply W6; [lia| |tauto]. apply V6; auto.
Qed.

(* the dirty map and the files stay *)
Definition same (s s' : est) : Prop :=
  x_dmap (ix s') = x_dmap (ix s) /\ x_dmax (ix s') = x_dmax (ix s) /\ x_indexid (ix s') = x_indexid (ix s) /\ dk s' = dk s.

Lemma get_same x x' f : x_dmap x' = x_dmap x -> index_dirty_get f x' = index_dirty_get f x.
Proof. unfold index_dirty_get. now intros ->. Qed.

Lemma step_same s s1 s2 : step s s1 -> same s1 s2 -> step s s2.
Proof.
  intros A (E1 & E2 & E3 & E4) C. destruct (A C) as (C1 & L1 & V & V1 & V2 & V3 & V4).
  unfold step, cov, covers, fs, quiet in *. rewrite E1, E2, E3, E4. split; [exact C1|]. split; [exact L1|]. exists V.
  split; [exact V1|]. split; [exact V2|]. split; [|exact V4]. intros f. rewrite (get_same _ _ f E1). apply V3.
Qed.

Lemma same_refl s : same s s.
Proof. repeat split. Qed.

(* one write *)
Lemma try_io w d ok d' : dk_io d = [] -> try_write w d = (ok, d') -> ok = true /\ d' = do_write w d.
Proof. unfold try_write. intros ->. intros X. now injection X as <- <-. Qed.

Lemma nlen_wr f off b l : nlen (wrfile f off b l) = nlen l.
Proof. unfold wrfile. destruct (nget f l); auto using nlen_nset. Qed.

(* a write to a data file *)
Lemma step_data w s : match w with WrI _ _ _ | MkI _ => False | _ => True end -> step s (set_dk (do_write w (dk s)) s).
Proof.
  intros Hw (C1 & C2 & C3).
  assert (E : dk_i (do_write w (dk s)) = dk_i (dk s)) by (destruct w; try contradiction; reflexivity).
  assert (O : overwrites (fs s) [w] = []) by (destruct w; try contradiction; reflexivity).
  unfold cov, quiet. cbn [dk set_dk ix]. rewrite E. split; [split; [exact C1|split; [exact C2|exact C3]]|]. split; [lia|]. exists [w].
  split; [reflexivity|]. split; [destruct w; try contradiction; reflexivity|]. rewrite O. split; [cbn [In]; tauto|].
  intros _. split; [lia|]. intros f b _ G _. exact G.
Qed.

(* an append to the current index file *)
Lemma overwrites_one s f off b : overwrites (fs s) [WrI f off b] =
  match nget f (dk_i (dk s)) with Some x => if off <? blen x then [N.to_nat f] else [] | None => [] end.
Proof.
  cbn [overwrites fs fst]. rewrite app_nil_r, nget_nth. reflexivity.
Qed.

Lemma nget_wr f off b l g : nget g (wrfile f off b l) =
  match nget f l with Some x => if g =? f then Some (fwrite x off b) else nget g l | None => nget g l end.
Proof.
  unfold wrfile. destruct (nget f l) as [x|] eqn:E; [|reflexivity]. rewrite nget_nset. destruct (N.eqb_spec g f); [|reflexivity].
  apply nget_lt in E. destruct (N.ltb_spec f (nlen l)); [reflexivity|lia].
Qed.

Lemma step_append s f b : x_indexid (ix s) <= f -> step s (set_dk (do_write (WrI f (isize (dk s) f) b) (dk s)) s).
Proof.
  intros Hf (C1 & C2 & C3). set (d := do_write _ _).
  assert (E : dk_i d = wrfile f (isize (dk s) f) b (dk_i (dk s))) by reflexivity.
  assert (O : overwrites (fs s) [WrI f (isize (dk s) f) b] = []).
  { rewrite overwrites_one. unfold isize, ifile. destruct (nget f (dk_i (dk s))); [|reflexivity]. now rewrite N.ltb_irrefl. }
  unfold cov, quiet. cbn [dk set_dk ix]. rewrite E, nlen_wr. split; [split; [exact C1|split; [exact C2|exact C3]]|]. split; [lia|]. exists [WrI f (isize (dk s) f) b].
  split; [reflexivity|]. split; [reflexivity|]. rewrite O. split; [cbn [In]; tauto|]. intros _. split; [lia|].
  intros g y Hg G _. rewrite nget_wr. destruct (nget f (dk_i (dk s))); [|exact G]. destruct (N.eqb_spec g f); [lia|exact G].
Qed.

(* an existing record *)
Lemma step_over s f x off b : nget f (dk_i (dk s)) = Some x -> off < blen x ->
  step s (set_dk (do_write (WrI f off b) (dk s)) (set_ix (index_dirty_set f (ix s)) s)).
Proof.
  intros F Ho (C1 & C2 & C3). set (d := do_write _ _).
  assert (E : dk_i d = wrfile f off b (dk_i (dk s))) by reflexivity.
  assert (O : overwrites (fs s) [WrI f off b] = [N.to_nat f]).
  { rewrite overwrites_one, F. destruct (N.ltb_spec off (blen x)); [reflexivity|lia]. }
  destruct (dmap_set f (ix s)) as (D1 & D2 & D3).
  unfold cov, covers, quiet. cbn [dk set_dk ix set_ix]. rewrite E, nlen_wr, D1, D2, D3. split; [split; [exact C1|split; [exact C2|exact C3]]|]. split; [lia|].
  exists [WrI f off b]. split; [reflexivity|]. split; [reflexivity|]. rewrite O. split.
  - intros g. rewrite dirty_set_get; [|apply nget_lt in F; destruct C1; lia]. cbn [In].
    rewrite orb_true_iff, N.eqb_eq. split; intros [H|H]; auto; [right; left; congruence|]. destruct H as [H|[]]. right. lia.
  - intros _. split; [lia|]. intros g y Hg G Hn. rewrite nget_wr, F. destruct (N.eqb_spec g f) as [->|]; [|exact G].
    exfalso. apply Hn. now left.
Qed.

Lemma step_jump s : step s (index_jump_next s).
Proof.
  intros (C1 & C2 & C3). unfold index_jump_next. cbn zeta. set (f := u32 (x_indexid (ix s) + 1)).
  set (x1 := index_set_id f _). set (d1 := do_write (MkI f) (dk s)).
  set (d2 := do_write (WrI f (isize d1 f) (index_header f (x_mode x1))) d1).
  assert (Hf : f <= x_indexid (ix s) + 1) by (unfold f, u32; lia).
  assert (R : covers x1 (N.max (nlen (dk_i (dk s))) (f + 1)) /\ x_indexid x1 = f).
  { unfold x1, index_set_id. set (x0 := x_set_indexid f _).
    assert (R0 : covers x0 (nlen (dk_i (dk s)))) by exact C1. destruct (resize_covers f x0 _ R0) as [R1 R2]. split; [exact R1|].
    rewrite R2. reflexivity. }
  destruct R as [R1 R2].
  assert (X : forall y, covers (index_seqid_push (x_nextentry y) f y) = covers y /\ x_indexid (index_seqid_push (x_nextentry y) f y) = x_indexid y /\
     x_dmap (index_seqid_push (x_nextentry y) f y) = x_dmap y).
  { intros y. unfold index_seqid_push. destruct (x_seq y); auto. }
  destruct (X (x_set_updated false x1)) as (X1 & X2 & X3). cbn [x_nextentry x_set_updated] in X1, X2, X3.
  assert (E1 : dk_i d1 = mkfile f (dk_i (dk s))) by reflexivity.
  assert (L1 : nlen (dk_i d1) = N.max (nlen (dk_i (dk s))) (f + 1)).
  { rewrite E1. unfold mkfile. destruct (N.eqb_spec f (nlen (dk_i (dk s)))); [rewrite nlen_app; cbn [nlen]; lia|lia]. }
  assert (E2 : dk_i d2 = wrfile f (isize d1 f) (index_header f (x_mode x1)) (dk_i d1)) by reflexivity.
  assert (O : overwrites (fs s) [MkI f; WrI f (isize d1 f) (index_header f (x_mode x1))] = []).
  { cbn [overwrites app apply_write fst snd fs]. rewrite app_nil_r, <- E1. unfold isize, ifile.
    rewrite (nget_nth f). destruct (nth_error (dk_i d1) (N.to_nat f)); [|reflexivity]. now rewrite N.ltb_irrefl. }
  unfold cov, quiet. cbn [dk set_dk ix set_ix]. cbn [x_nextentry x_set_updated] in *. rewrite E2, nlen_wr, X1, X2.
  change (covers (x_set_updated false x1)) with (covers x1). change (x_indexid (x_set_updated false x1)) with (x_indexid x1).
  rewrite R2, L1. split; [split; [exact R1|split; [lia|exact C3]]|]. split; [lia|].
  exists [MkI f; WrI f (isize d1 f) (index_header f (x_mode x1))]. split; [cbn [d2 d1 do_write dk_log]; now rewrite <- app_assoc|].
  split; [reflexivity|]. rewrite O. split.
  - intros g. rewrite (get_same _ _ g X3). change (index_dirty_get g (x_set_updated false x1)) with (index_dirty_get g x1).
    unfold x1, index_set_id. rewrite resize_get. cbn [In]. change (index_dirty_get g (x_set_indexid f (x_set_next (x_nextentry (ix s)) 0 (ix s)))) with (index_dirty_get g (ix s)). tauto.
  - intros B. change (2 ^ 32) with 4294967296 in B. assert (F1 : f = x_indexid (ix s) + 1) by (unfold f, u32 in *; lia).
    split; [lia|]. intros g y Hg G _. rewrite nget_wr.
    assert (G1 : nget g (dk_i d1) = Some y).
    { rewrite E1. unfold mkfile. destruct (_ =? _); [|exact G]. rewrite nget_app1; [exact G|]. now apply nget_lt in G. }
    destruct (nget f (dk_i d1)); [|exact G1]. destruct (N.eqb_spec g f); [lia|exact G1].
Qed.

(* ---- operations ---- *)

Lemma fread_lt f off n : 0 < n -> blen (fread f off n) = n -> off < blen f.
Proof. intros Hn H. rewrite fread_blen in H. lia. Qed.

Lemma step_iappend s id e ok e' s' : index_append s id e = (ok, e', s') -> step s s'.
Proof.
  unfold index_append. intros X C. destruct (try_write _ _) as [k d1] eqn:E.
  apply try_io in E; [|apply C]. destruct E as [-> ->]. injection X as _ _ <-. revert C.
  set (b := enc_item _). eapply step_same; [apply (step_append s (x_indexid (ix s)) b (N.le_refl _))|]. repeat split.
Qed.

Lemma step_delete_disk s e ok s' : index_entry_delete_disk s e = (ok, s') -> step s s'.
Proof.
  unfold index_entry_delete_disk. unfold ifile. destruct (nget _ _) as [f|] eqn:F; [|intros X; injection X as _ <-; apply step_refl].
  destruct (N.eqb_spec (blen (fread f (e_idxoff e) (34 + blen (e_id e)))) (34 + blen (e_id e))) as [L|];
    [|intros X; injection X as _ <-; apply step_refl]. cbn zeta.
  intros X C. destruct (try_write _ _) as [k d1] eqn:E. apply try_io in E; [|apply C]. destruct E as [-> ->]. injection X as _ <-.
  revert C. eapply step_over; [exact F|]. eapply fread_lt; [|exact L]. lia.
Qed.

Lemma step_overwrite s id e ok s' : index_seq_overwrite s id e = (ok, s') -> step s s'.
Proof.
  unfold index_seq_overwrite, ifile. destruct (x_seq _) as [m|]; [|intros X; injection X as _ <-; apply step_refl].
  destruct (index_seqmap_from_seq _ _) as [[st fid]|]; [|intros X; injection X as _ <-; apply step_refl]. cbn zeta.
  destruct (nget fid _) as [f|] eqn:F; [|intros X; injection X as _ <-; apply step_refl].
  set (off := u32 _). destruct (N.eqb_spec (blen (fread f off 34)) 34) as [L|]; [|intros X; injection X as _ <-; apply step_refl].
  intros X C. destruct (try_write _ _) as [k d1] eqn:E. apply try_io in E; [|apply C]. destruct E as [-> ->]. injection X as _ <-.
  revert C. eapply step_over; [exact F|]. eapply fread_lt; [|exact L]. lia.
Qed.

Lemma same_set s id e x r s' : index_set s id e x = (r, s') -> step s s'.
Proof.
  unfold index_set, index_update_entry_memkey, index_update_entry_sequential, index_insert_entry_memkey,
    index_insert_entry_sequential. intros E.
  destruct x as [prev|]; destruct (_ =? _).
  - destruct (index_entry_delete_disk s prev) as [k s1] eqn:E1. apply step_delete_disk in E1.
    destruct (update_memory_memkey _ _ _ _ _) as [[t1 x1] e1] eqn:U. unfold update_memory_memkey in U. injection U as _ <- _.
    destruct (index_append _ _ _) as [[k2 e2] s3] eqn:E2. apply step_iappend in E2.
    injection E as _ <-. eapply step_trans; [exact E1|]. eapply step_same; [|repeat split].
    eapply step_trans; [|exact E2]. eapply step_same; [apply step_refl|repeat split].
  - destruct (index_append _ _ _) as [[k2 e2] s1] eqn:E2. apply step_iappend in E2.
    destruct k2; [|injection E as _ <-; exact E2].
    destruct (index_seq_overwrite _ _ _) as [k3 s2] eqn:E3. apply step_overwrite in E3.
    injection E as _ <-. eapply step_trans; [exact E2|]. eapply step_same; [exact E3|repeat split].
  - destruct (index_append _ _ _) as [[k2 e2] s1] eqn:E2. apply step_iappend in E2.
    destruct k2; [|injection E as _ <-; exact E2].
    destruct (insert_memory_memkey _ _ _ _) as [[t1 x1] e1] eqn:U. unfold insert_memory_memkey in U. injection U as _ <- _.
    injection E as _ <-. eapply step_same; [exact E2|repeat split].
  - destruct (index_append _ _ _) as [[k2 e2] s1] eqn:E2. apply step_iappend in E2.
    destruct k2; injection E as _ <-; [|exact E2]. eapply step_same; [exact E2|repeat split].
Qed.

Lemma step_delete s e ok s' : index_entry_delete s e = (ok, s') -> step s s'.
Proof.
  unfold index_entry_delete. destruct (index_entry_delete_disk s e) as [k s1] eqn:E1. apply step_delete_disk in E1.
  destruct k.
  - destruct (index_entry_delete_memory _ _ _) as [t1 x1] eqn:U. unfold index_entry_delete_memory in U.
    intros X; injection X as _ <-. eapply step_same; [exact E1|].
    destruct (_ =? _) in U; injection U as _ <-; repeat split.
  - destruct (_ =? _); intros X; injection X as _ <-; [|exact E1].
    eapply step_same; [exact E1|repeat split].
Qed.

Lemma step_insert s q off s' : data_insert s q = (off, s') -> step s s'.
Proof.
  unfold data_insert. intros X C. destruct (try_write _ _) as [k1 d1] eqn:E1.
  apply try_io in E1; [|apply C]. destruct E1 as [-> ->].
  destruct (try_write (WrD _ (dsize _ _) _) _) as [k2 d2] eqn:E2.
  apply try_io in E2; [|apply C]. destruct E2 as [-> ->]. injection X as _ <-. revert C.
  set (w1 := WrD (d_dataid (dt s)) (dsize (dk s) _) _). set (d1 := do_write w1 (dk s)). set (w2 := WrD _ _ (q_data q)).
  eapply step_trans; [apply (step_data w1 s I)|]. eapply step_same; [apply (step_data w2 (set_dk d1 s) I)|repeat split].
Qed.

Lemma step_ddelete s id ts ok s' : data_delete s id ts = (ok, s') -> step s s'.
Proof.
  unfold data_delete. destruct (data_insert _ _) as [off s1] eqn:E. intros X. injection X as _ <-.
  eapply step_insert; eauto.
Qed.

Lemma step_init fid s : step s (set_dk (data_initialize fid (dk s)) s).
Proof.
  unfold data_initialize. set (d1 := do_write (MkD fid) (dk s)).
  eapply step_trans; [apply (step_data (MkD fid) s I)|]. eapply step_same; [apply (step_data (WrD fid 0 (data_header fid)) (set_dk d1 s) I)|repeat split].
Qed.

Lemma step_jump_next s : step s (jump_next s).
Proof.
  unfold jump_next. eapply step_trans; [apply step_jump|]. unfold data_jump_next. eapply step_same; [apply step_init|repeat split].
Qed.

Lemma step_userkey argv now ex s : step s (snd (set_handler_userkey argv now ex s)).
Proof.
  unfold set_handler_userkey. destruct (_ =? 0); [apply step_refl|].
  destruct (unchanged _ _ _); [apply step_refl|].
  destruct (data_insert _ _) as [off s1] eqn:E. apply step_insert in E.
  destruct (off =? 0); [exact E|]. destruct (index_set _ _ _ _) as [[r|] s2] eqn:E2; apply same_set in E2;
    (eapply step_trans; [exact E|exact E2]).
Qed.

Lemma step_sequential argv now ex s : step s (snd (set_handler_sequential argv now ex s)).
Proof.
  unfold set_handler_sequential. destruct ex as [x|].
  - destruct (unchanged _ _ _); [apply step_refl|].
    destruct (data_insert _ _) as [off s1] eqn:E. apply step_insert in E.
    destruct (off =? 0); [exact E|]. destruct (index_set _ _ _ _) as [[r|] s2] eqn:E2; apply same_set in E2;
      (eapply step_trans; [exact E|exact E2]).
  - destruct (negb _); [apply step_refl|].
    destruct (data_insert _ _) as [off s1] eqn:E. apply step_insert in E.
    destruct (off =? 0); [exact E|]. destruct (index_set _ _ _ _) as [[r|] s2] eqn:E2; apply same_set in E2;
      (eapply step_trans; [exact E|exact E2]).
Qed.

Lemma step_set g p now argv c s : step s (snd (command_set g p now argv c s)).
Proof.
  unfold command_set. destruct (if argc argv =? 4 then _ else _); [apply step_refl|].
  destruct (_ <? _); [apply step_refl|]. destruct (negb (p_writable p)); [apply step_refl|].
  destruct (is_frozen c); [apply step_refl|]. destruct (is_locked c); [apply step_refl|]. cbn zeta.
  generalize (if blen (arg 1 argv) =? 0 then None else index_get s (arg 1 argv)) as ex. intros ex.
  destruct (match ex with Some _ => n_worm c | None => false end); [apply step_refl|].
  destruct (_ && _); [apply step_refl|].
  set (s1 := if g_datasize g <? _ then jump_next s else s).
  assert (S1 : step s s1) by (unfold s1; destruct (_ <? _); [apply step_jump_next|apply step_refl]).
  clearbody s1. destruct (x_mode (ix s) =? MODE_KV); (eapply step_trans; [exact S1|]); [apply step_userkey|apply step_sequential].
Qed.

Lemma step_del p now argv c s : step s (snd (command_del p now argv c s)).
Proof.
  unfold command_del. destruct (if argc argv =? 3 then _ else _); [apply step_refl|].
  destruct (_ <? _); [apply step_refl|]. destruct (negb (p_writable p)); [apply step_refl|].
  destruct (is_frozen c); [apply step_refl|]. destruct (is_locked c); [apply step_refl|].
  destruct (index_get s _) as [e|]; [|apply step_refl]. destruct (n_worm c); [apply step_refl|].
  cbn zeta. destruct (data_delete _ _ _) as [k s1] eqn:E. apply step_ddelete in E.
  destruct k; [|exact E]. destruct (index_entry_delete _ _) as [k2 s2] eqn:E2. apply step_delete in E2.
  destruct k2; (eapply step_trans; [exact E|exact E2]).
Qed.

Lemma step_req g p now q c s : step s (snd (run_req g p now q c s)).
Proof.
  destruct q; cbn [run_req snd]; try apply step_refl.
  - apply step_set.
  - apply step_del.
  - unfold command_nsjump. destruct (admin_authorized p); [apply step_refl|apply step_jump_next].
Qed.

(* ---- loading ---- *)

Definition lx (x x' : index) : Prop := x_dmap x' = x_dmap x /\ x_dmax x' = x_dmax x /\ x_indexid x' = x_indexid x.

Lemma lx_refl x : lx x x.
Proof. repeat split. Qed.
Lemma lx_trans a b c : lx a b -> lx b c -> lx a c.
Proof. unfold lx. intuition congruence. Qed.
Lemma lx_push a f x : lx x (index_seqid_push a f x).
Proof. unfold index_seqid_push. destruct (x_seq x); repeat split. Qed.
Lemma lx_rehash x : lx x (index_rehash x).
Proof.
  unfold index_rehash. set (x1 := if x_mode x =? MODE_SEQ then _ else _).
  assert (L : lx x x1) by (unfold x1; destruct (_ =? _); [destruct (x_seq x)|]; repeat split).
  destruct (x_seq x1) as [[|]|]; auto. eapply lx_trans; [exact L|apply lx_push].
Qed.
Lemma lx_memory t x id e t' x' e' : index_set_memory t x id e = (t', x', e') -> lx x x'.
Proof.
  unfold index_set_memory, insert_memory_memkey, update_memory_memkey, insert_memory_seq. destruct (_ =? _).
  - intros X; injection X as _ <- _; repeat split.
  - destruct (index_entry_get _ _ _) as [o|]; [destruct (is_deleted _)|]; intros X; injection X as _ <- _; repeat split.
Qed.
Lemma lx_delmem t x e t' x' : index_entry_delete_memory t x e = (t', x') -> lx x x'.
Proof. unfold index_entry_delete_memory. destruct (_ =? _); intros X; injection X as _ <-; repeat split. Qed.

Lemma lx_loop fuel : forall rest off t x t' x', index_load_loop fuel rest off t x = Some (t', x') -> lx x x'.
Proof.
  induction fuel as [|fuel IH]; intros [|b rest] off t x t' x'; cbn [index_load_loop]; try discriminate.
  - intros X; injection X as _ <-; apply lx_refl.
  - intros X; injection X as _ <-; apply lx_refl.
  - cbn zeta. destruct (_ <? _); [discriminate|].
    set (x0 := if off =? 29 then _ else _). assert (L0 : lx x x0) by (unfold x0; destruct (_ =? _); [apply lx_push|apply lx_refl]).
    destruct (index_set_memory _ _ _ _) as [[t1 x1] fr] eqn:E1. apply lx_memory in E1.
    destruct (if is_deleted (e_flags fr) then _ else _) as [t2 x2] eqn:E2.
    assert (L2 : lx x1 x2). { destruct (is_deleted _); [now apply lx_delmem in E2|]. injection E2 as _ <-. apply lx_refl. }
    intros H. apply IH in H. eapply lx_trans; [exact L0|]. eapply lx_trans; [exact E1|]. eapply lx_trans; [exact L2|exact H].
Qed.

Definition clean (x : index) : Prop := forall f, index_dirty_get f x = false.
Definition lok (s s' : est) : Prop :=
  lx (ix s) (ix s') /\ nlen (dk_i (dk s')) = nlen (mkfile (x_indexid (ix s)) (dk_i (dk s))) /\
  dk_io (dk s') = dk_io (dk s) /\ x_indexid (ix s) < nlen (dk_i (dk s')).

Definition lst (r : lres) : option est :=
  match r with LExit | LUb => None | LDiscard s | LNew s | LOk s => Some s end.

Lemma load_body smode s h cr s' : lst (index_load_body smode s h cr) = Some s' ->
  lx (ix s) (ix s') /\ nlen (dk_i (dk s')) = nlen (dk_i (dk s)) /\ dk_io (dk s') = dk_io (dk s).
Proof.
  unfold index_load_body. destruct (negb _); [discriminate|]. destruct (negb _); [discriminate|]. cbn zeta.
  destruct (_ && _); [discriminate|]. destruct (ifile _ _) as [f|]; [|discriminate].
  set (x1 := if (_ || _)%bool then _ else _). assert (L1 : lx (ix s) x1) by (unfold x1; destruct (_ || _)%bool; repeat split).
  destruct (index_load_loop _ _ _ _ _) as [[t3 x3]|] eqn:E; [|discriminate]. apply lx_loop in E.
  assert (L : lx (ix s) x3).
  { eapply lx_trans; [exact L1|]. eapply lx_trans; [apply lx_rehash|]. eapply lx_trans; [|exact E]. repeat split. }
  destruct cr; cbn [lst]; intros X; injection X as <-; cbn [ix dk]; (split; [exact L|split; [apply nlen_wr|reflexivity]]).
Qed.

Lemma load_file smode s s' : lst (index_load_file smode s) = Some s' -> lok s s'.
Proof.
  unfold index_load_file. cbn zeta. unfold ifile. destruct (nget _ _) as [f|] eqn:F; [|discriminate]. apply nget_lt in F.
  assert (M : dk_i (do_write (MkI (x_indexid (ix s))) (dk s)) = mkfile (x_indexid (ix s)) (dk_i (dk s))) by reflexivity.
  destruct (_ =? 29).
  - intros H; apply load_body in H. destruct H as (A & B & C). cbn [dk set_dk ix] in A, B, C.
    split; [exact A|]. split; [now rewrite B, M|]. split; [exact C|]. now rewrite B.
  - destruct (0 <? blen _); [discriminate|]. destruct (0 <? _).
    + cbn [lst]. intros X; injection X as <-. split; [apply lx_refl|]. split; [now cbn [dk set_dk]; rewrite M|]. split; [reflexivity|exact F].
    + intros H; apply load_body in H. destruct H as (A & B & C). cbn [dk set_dk ix] in A, B, C.
      assert (B2 : nlen (dk_i (dk s')) = nlen (dk_i (do_write (MkI (x_indexid (ix s))) (dk s)))) by (rewrite B; apply nlen_wr).
      split; [exact A|]. split; [now rewrite B2, M|]. split; [exact C|]. now rewrite B2.
Qed.

Definition ready (n : N) (s : est) : Prop :=
  covers (ix s) (n + 1) /\ clean (ix s) /\ dk_io (dk s) = [] /\ nlen (dk_i (dk s)) = n.

Lemma set_id_ready f n s : ready n s -> ready n (set_ix (index_set_id f (ix s)) s) /\ x_indexid (index_set_id f (ix s)) = f.
Proof.
  intros (A & B & C & D). unfold index_set_id. set (x0 := x_set_indexid f (ix s)).
  destruct (resize_covers f x0 (n + 1) A) as [[R1 R2] R3]. split; [|exact R3]. split; [split; [exact R1|cbn [ix set_ix]; lia]|].
  split; [|split; [exact C|exact D]]. intros g. cbn [ix set_ix]. rewrite resize_get. apply B.
Qed.

Lemma lok_ready n s s' : ready n s -> lok s s' -> x_indexid (ix s) < n -> ready n s' /\ x_indexid (ix s') < n.
Proof.
  intros (A & B & C & D) ((L1 & L2 & L3) & M & I & X) H.
  assert (M2 : mkfile (x_indexid (ix s)) (dk_i (dk s)) = dk_i (dk s)). { unfold mkfile. destruct (N.eqb_spec (x_indexid (ix s)) (nlen (dk_i (dk s)))); [lia|reflexivity]. }
  rewrite M2 in M. split; [|lia]. split; [unfold covers in *; rewrite L1, L2; exact A|]. split; [|split; congruence].
  intros f. rewrite (get_same _ _ f L1). apply B.
Qed.

Lemma load_files smode k : forall fid n s s', lst (index_load_files smode k fid s) = Some s' -> ready n s -> fid + N.of_nat k = n ->
  (0 < fid -> x_indexid (ix s) < n) -> 0 < n -> ready n s' /\ x_indexid (ix s') < n.
Proof.
  induction k as [|k IH]; intros fid n s s' H R E F P; cbn [index_load_files] in H.
  - cbn [lst] in H. injection H as <-. split; [exact R|]. apply F. lia.
  - destruct (set_id_ready fid n s R) as [R1 R2].
    destruct (index_load_file smode _) as [| |s1|s1|s1] eqn:E1; try discriminate;
      pose proof (load_file smode (set_ix (index_set_id fid (ix s)) s) s1) as L; rewrite E1 in L; specialize (L eq_refl);
      destruct (lok_ready n _ _ R1 L) as [Q1 Q2]; try (cbn [ix set_ix]; lia).
    + cbn [lst] in H. injection H as <-. auto.
    + cbn [lst] in H. injection H as <-. auto.
    + apply (IH (fid + 1) n s1 s' H Q1); auto. lia.
Qed.

Lemma open_cov smode ns t d s : store_open smode ns t d = Some s -> dk_io d = [] -> cov s /\ clean (ix s).
Proof.
  unfold store_open. cbn zeta. intros E Hio.
  set (s0 := mkEst t (index_rehash (index_init_lazy smode ns)) (mkData 0 0) d) in *.
  assert (C0 : covers (ix s0) 1 /\ clean (ix s0)).
  { cbn [ix s0]. destruct (lx_rehash (index_init_lazy smode ns)) as (A & B & _). unfold covers. rewrite A, B.
    split; [vm_compute; split; congruence|]. intros f. rewrite (get_same _ _ f A). unfold index_init_lazy. rewrite resize_get. reflexivity. }
  destruct C0 as [C0 K0].
  assert (L : forall s1, lst (index_internal_load smode s0) = Some s1 -> exists n, ready n s1 /\ x_indexid (ix s1) < n).
  { intros s1. unfold index_internal_load. cbn zeta. set (n := nlen (dk_i (dk s0))).
    set (s2 := set_ix (index_dirty_resize n (ix s0)) s0).
    assert (R : ready n s2).
    { destruct (resize_covers n (ix s0) 1 C0) as [[R1 R2] _]. split; [split; [exact R1|cbn [ix set_ix s2]; lia]|].
      split; [|split; [exact Hio|reflexivity]]. intros f. cbn [ix set_ix s2]. rewrite resize_get. apply K0. }
    destruct (N.ltb_spec 0 n) as [P|P].
    - intros H. exists n. eapply load_files; eauto; [unfold n; rewrite nlen_length; lia|lia].
    - intros H. apply load_file in H. destruct (set_id_ready 0 n s2 R) as [R1 R2]. cbn [ix set_ix] in R2.
      destruct H as ((L1 & L2 & L3) & M & I & X). cbn [ix set_ix dk] in L1, L2, L3, M, I, X. rewrite R2 in *.
      exists 1. rewrite L3. split; [|lia]. destruct R1 as (Q1 & Q2 & Q3 & Q4). cbn [ix set_ix dk] in Q1, Q2, Q3, Q4.
      split; [|split; [|split]].
      + unfold covers in *. rewrite L1, L2. lia.
      + intros f. rewrite (get_same _ _ f L1). apply Q2.
      + congruence.
      + rewrite M. unfold mkfile. change (dk_i (dk s2)) with (dk_i d) in *. assert (Z : nlen (dk_i d) = 0) by (unfold n, s0 in P; cbn [dk] in P; lia).
        rewrite Z. change (0 =? 0) with true. cbn iota. rewrite nlen_app, Z. reflexivity. }
  assert (X : forall s1, lst (index_internal_load smode s0) = Some s1 ->
     Some (data_init (x_indexid (ix s1)) (set_dk (do_write (MkI (x_indexid (ix s1))) (dk s1)) (set_ix (x_set_updated false (ix s1)) s1))) = Some s ->
     cov s /\ clean (ix s)).
  { intros s1 Ls R. destruct (L s1 Ls) as (n & ((A1 & A2) & B & C & D) & F). injection R as <-. unfold data_init.
    set (s2 := set_dk (do_write (MkI (x_indexid (ix s1))) (dk s1)) (set_ix (x_set_updated false (ix s1)) s1)).
    assert (M : dk_i (dk s2) = dk_i (dk s1)).
    { cbn [dk s2 set_dk do_write dk_i apply_write fst]. unfold mkfile. destruct (N.eqb_spec (x_indexid (ix s1)) (nlen (dk_i (dk s1)))); [lia|reflexivity]. }
    assert (C2 : cov s2). { split; [|split]; [unfold covers; rewrite M; cbn [ix s2 set_dk set_ix x_set_updated x_dmax x_dmap]; lia|rewrite M; cbn [ix s2 set_dk set_ix x_set_updated x_indexid]; lia|exact C]. }
    destruct (step_init (x_indexid (ix s1)) s2 C2) as (C3 & _). split; [exact C3|]. intros f. apply B. }
  destruct (index_internal_load smode s0) as [| |s1|s1|s1]; try discriminate; eapply X; try reflexivity; exact E.
Qed.

(* ---- the list ---- *)

Lemma dirty_ids_in n : forall i x f, In f (dirty_ids n i x) <-> i <= f < i + N.of_nat n /\ index_dirty_get f x = true.
Proof.
  induction n as [|n IH]; intros i x f; cbn [dirty_ids]; [cbn [In]; lia|].
  rewrite in_app_iff, IH. destruct (index_dirty_get i x) eqn:E; cbn [In].
  - split.
    + intros [[<-|[]]|[H1 H2]]; [split; [lia|exact E]|split; [lia|exact H2]].
    + intros [H1 H2]. destruct (N.eq_dec i f) as [->|]; [auto|]. right. split; [lia|exact H2].
  - split; [intros [[]|[H1 H2]]; split; [lia|exact H2]|]. intros [H1 H2].
    destruct (N.eq_dec i f) as [->|]; [congruence|]. right. split; [lia|exact H2].
Qed.

Lemma list_in x f : In f (index_dirty_list x) <-> index_dirty_get f x = true.
Proof.
  unfold index_dirty_list. rewrite dirty_ids_in. split; [tauto|]. intros H. split; [|exact H].
  unfold index_dirty_get in H. destruct (nget _ _) eqn:E; [|discriminate]. apply nget_lt in E. rewrite nlen_length in E. lia.
Qed.

Lemma dirty_ids_sorted n : forall i x, StronglySorted lt (map N.to_nat (dirty_ids n i x)).
Proof.
  induction n as [|n IH]; intros i x; cbn [dirty_ids]; [constructor|].
  destruct (index_dirty_get i x); cbn [app]; [|apply IH]. cbn [map]. constructor; [apply IH|].
  apply Forall_forall. intros a Ha. rewrite in_map_iff in Ha. destruct Ha as (y & <- & Hy). apply dirty_ids_in in Hy. lia.
Qed.

Lemma lists_ok s : lists s (map N.to_nat (index_dirty_list (ix s))).
Proof.
  unfold lists. assert (X : command_index (mkPerm true true) [str "INDEX"; str "DIRTY"] s =
    Some (arrayhdr (nlen (index_dirty_list (ix s))) ++ concat (map intreply (index_dirty_list (ix s))), s)) by reflexivity.
  rewrite X, map_length, nlen_length, map_map. do 3 f_equal. f_equal. apply map_ext. intros a. now rewrite N2Nat.id.
Qed.

Lemma reset_get x f : index_dirty_get f (index_dirty_reset x) = false.
Proof.
  unfold index_dirty_get, index_dirty_reset. cbn [x_dmap x_set_dirty]. rewrite nget_nth, nth_error_map.
  destruct (nth_error _ _); [|reflexivity]. apply N.bits_0.
Qed.

Lemma index_cases p argv s r s' : command_index p argv s = Some (r, s') -> s' = s \/ s' = set_ix (index_dirty_reset (ix s)) s.
Proof.
  unfold command_index, command_index_dirty. destruct (admin_authorized p); [intros X; injection X as _ <-; auto|].
  destruct (args_validate_min _ _); [intros X; injection X as _ <-; auto|].
  destruct (args_overflow argv 1 _); [intros X; injection X as _ <-; auto|].
  destruct (sprint_max _); [|discriminate]. destruct (case_eq _ _); [|intros X; injection X as _ <-; auto].
  destruct (_ =? 3); [|intros X; injection X as _ <-; auto].
  destruct (args_overflow argv 2 _); [intros X; injection X as _ <-; auto|].
  destruct (sprint_max _); [|discriminate]. destruct (case_eq _ _); intros X; injection X as _ <-; auto.
Qed.

Lemma reset_cov s : cov s -> cov (set_ix (index_dirty_reset (ix s)) s).
Proof.
  intros ((A & B) & C & D). split; [|split; [exact C|exact D]]. unfold covers, index_dirty_reset. cbn [ix set_ix dk x_dmax x_dmap x_set_dirty].
  rewrite nlen_length, map_length, <- nlen_length. auto.
Qed.

Lemma up_cov s s' : up s s' -> cov s -> cov s'.
Proof.
  induction 1 as [s|g p now q c s s' _ IH|p argv r s s1 s' E _ IH]; intros C; auto.
  - apply IH. now apply (step_req g p now q c s).
  - apply IH. apply index_cases in E. destruct E as [->| ->]; auto using reset_cov.
Qed.

Lemma just_reset_cov s : just_reset s -> cov s /\ clean (ix s).
Proof.
  intros [mode n t d s0 I O|mode n t d s0 s1 p s2 I O U E].
  - now apply (open_cov mode n t d).
  - destruct (open_cov _ _ _ _ _ O I) as [C _]. apply (up_cov _ _ U) in C.
    assert (X : s2 = set_ix (index_dirty_reset (ix s1)) s1).
    { destruct p as [[|] w]; [|discriminate E]. cbv in E. injection E as E. symmetry. exact E. }
    subst s2. split; [now apply reset_cov|]. intros f. apply reset_get.
Qed.

Lemma serves_step s s' : serves s s' -> step s s'.
Proof. induction 1; [apply step_refl|]. eapply step_trans; [apply step_req|eassumption]. Qed.

Lemma served s s' : just_reset s -> serves s s' ->
  let l := map N.to_nat (index_dirty_list (ix s')) in
  lists s' l /\ StronglySorted lt l /\ (forall f, In f l <-> In f (overwritten s s')) /\
  nlen (dk_i (dk s)) <= nlen (dk_i (dk s')) /\
  (nlen (dk_i (dk s')) < 2 ^ 32 -> forall f b, f < x_indexid (ix s) -> nget f (dk_i (dk s)) = Some b -> ~ In (N.to_nat f) l ->
     nget f (dk_i (dk s')) = Some b) /\ x_indexid (ix s) < nlen (dk_i (dk s)).
Proof.
  intros J V. destruct (just_reset_cov _ J) as [C K]. destruct (serves_step _ _ V C) as (C' & L & W & W1 & W2 & W3 & W4).
  assert (NW : overwritten s s' = overwrites (fs s) W).
  { unfold overwritten, new_writes. rewrite W1, skipn_app, Nat.sub_diag, skipn_all. reflexivity. }
  cbn zeta. split; [apply lists_ok|]. split; [apply dirty_ids_sorted|].
  assert (IL : forall f, In f (map N.to_nat (index_dirty_list (ix s'))) <-> In f (overwritten s s')).
  { intros f. rewrite in_map_iff, NW. split.
    - intros (y & <- & Hy). apply list_in in Hy. apply W3 in Hy. rewrite K in Hy. destruct Hy; [discriminate|auto].
    - intros H. exists (N.of_nat f). split; [lia|]. apply list_in. apply W3. right. now rewrite Nat2N.id. }
  split; [exact IL|]. split; [exact L|]. split; [|apply C]. intros B f b Hf G Hn. apply W4; auto. rewrite IL, NW in Hn. exact Hn.
Qed.

Lemma dirty_list s s' : just_reset s -> serves s s' ->
  exists l, lists s' l /\ StronglySorted lt l /\ (forall f, In f l <-> In f (overwritten s s')).
Proof. intros J V. destruct (served s s' J V) as (A & B & C & _). eauto. Qed.

Lemma refreshed_same (copy : nat -> Prop) old : (forall f, copy f \/ ~ copy f) -> forall new f,
  (forall k b, nth_error new k = Some b -> ~ copy (f + k)%nat -> nth_error old (f + k) = Some b) -> refreshed f copy old new new.
Proof.
  intros D. induction new as [|b new IH]; intros f H; cbn [refreshed]; [exact I|]. split.
  - destruct (D f) as [X|X]; [auto|]. right. split; [exact X|]. specialize (H O b eq_refl). rewrite Nat.add_0_r in H. auto.
  - apply IH. intros k b' E X. specialize (H (S k) b' E). rewrite Nat.add_succ_r in H. auto.
Qed.

Lemma refreshed_unique (copy : nat -> Prop) old : forall new f k1 k2, refreshed f copy old new k1 -> refreshed f copy old new k2 -> k1 = k2.
Proof.
  induction new as [|b new IH]; intros f [|a1 k1] [|a2 k2]; cbn [refreshed]; try tauto.
  intros [A1 A2] [B1 B2]. f_equal; [|eauto]. destruct A1 as [[]|[? A1]], B1 as [[]|[? B1]]; congruence || tauto.
Qed.

Lemma backup s s' kept : just_reset s -> serves s s' -> nlen (dk_i (dk s')) < 2 ^ 32 ->
  exists l, lists s' l /\
    (refreshed 0 (fun f => In f l \/ (N.to_nat (x_indexid (ix s)) <= f)%nat) (dk_i (dk s)) (dk_i (dk s')) kept <-> kept = dk_i (dk s')).
Proof.
  intros J V B. destruct (served s s' J V) as (A1 & _ & _ & A4 & A5 & A6). eexists. split; [exact A1|]. specialize (A5 B).
  set (copy := fun f => _).
  assert (S : refreshed 0 copy (dk_i (dk s)) (dk_i (dk s')) (dk_i (dk s'))).
  { apply refreshed_same.
    - intros f. unfold copy. destruct (in_dec Nat.eq_dec f (map N.to_nat (index_dirty_list (ix s')))); [auto|].
      destruct (le_lt_dec (N.to_nat (x_indexid (ix s))) f); [auto|]. right. intros [|]; [contradiction|lia].
    - cbn [Nat.add]. intros k b E X. unfold copy in X.
      assert (Hk : N.of_nat k < x_indexid (ix s)) by (destruct (N.lt_ge_cases (N.of_nat k) (x_indexid (ix s))); [auto|exfalso; apply X; right; lia]).
      destruct (nget_Some (N.of_nat k) (dk_i (dk s))) as (b' & G); [lia|].
      assert (G2 := A5 _ _ Hk G). rewrite Nat2N.id in G2. specialize (G2 (fun Y => X (or_introl Y))).
      rewrite nget_nth, Nat2N.id in G, G2. congruence. }
  split; [intros R; eapply refreshed_unique; eauto|]. now intros ->.
Qed.
