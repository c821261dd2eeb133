(* Invariant of a user-key namespace: files, memory table and counters against a
   ghost list of the writes accepted so far. *)
From Coq Require Import List NArith ZArith Bool Strings.Byte Lia ZifyBool ZifyN ZifyNat.
From Verif Require Import Bytes BytesFacts Crc32 Crc32Facts Layout LayoutFacts Store Commands SpecKV
  Ghost DataFacts TableFacts CheckFacts.
Import ListNotations.
Open Scope N_scope.
Ltac Zify.zify_post_hook ::= Z.div_mod_to_equations.

Notation ver := (bytes * (bytes * N))%type.

Definition live (x : loc) : bool := negb (is_deleted (it_flags (l_it x))).

Fixpoint livem (G : list loc) (H : list ver) : kv :=
  match G, H with
  | x :: G', v :: H' => if live x then v :: livem G' H' else livem G' H'
  | _, _ => []
  end.

Fixpoint live_last (G : list loc) : Prop :=
  match G with
  | [] => True
  | x :: r => (live x = true -> Forall (fun y => l_id y <> l_id x) r) /\ live_last r
  end.

Fixpoint chain (p : N) (G : list loc) : Prop :=
  match G with
  | [] => True
  | x :: r => it_prev (l_it x) = p /\ chain (l_off x) r
  end.

Fixpoint last_off (p : N) (G : list loc) : N :=
  match G with [] => p | x :: r => last_off (l_off x) r end.

(* the record with its deleted flag set *)
Definition flag (it : item) : item :=
  mkItem (it_idlen it) (it_off it) (it_len it) (it_prev it) (N.lor (it_flags it) INDEX_ENTRY_DELETED)
    (it_dataid it) (it_ts it) (it_crc it) (it_pid it) (it_poff it) (it_id it).

Lemma lor_1_odd a : N.odd (N.lor a 1) = true.
Proof. destruct a as [|[p|p|]]; reflexivity. Qed.

Lemma is_deleted_odd f : is_deleted f = N.odd f.
Proof. destruct f as [|[p|p|]]; reflexivity. Qed.

Lemma lor_1_lt a : a < 256 -> N.lor a 1 < 256.
Proof.
  intros. destruct a as [|[p|p|]]; cbn [N.lor Pos.lor]; lia.
Qed.

Lemma flag_deleted it : is_deleted (it_flags (flag it)) = true.
Proof. cbn [flag it_flags]. rewrite is_deleted_odd. apply lor_1_odd. Qed.

Lemma flag_wf it : item_wf it -> item_wf (flag it).
Proof.
  unfold item_wf. cbn [flag it_idlen it_off it_len it_prev it_flags it_dataid it_ts it_crc it_pid it_poff it_id].
  intros. pose proof (lor_1_lt (it_flags it)). unfold INDEX_ENTRY_DELETED. intuition.
Qed.

(* where a located record is, and what flagging it does *)
Lemma flat_pick gi x : In x (flat 0 gi) ->
  exists g1 l1 l2 g2 A B,
    gi = g1 ++ (l1 ++ l_it x :: l2) :: g2 /\ l_f x = nlen g1 /\ l_off x = 29 + isz l1 /\
    flat 0 gi = A ++ x :: B /\
    flat 0 (g1 ++ (l1 ++ flag (l_it x) :: l2) :: g2) = A ++ (l_f x, l_off x, flag (l_it x)) :: B.
Proof.
  intros H. apply in_flat in H. destruct H as (g1 & l1 & l2 & g2 & E & Hf & Ho).
  change (0 + nlen g1) with (nlen g1) in Hf.
  exists g1, l1, l2, g2, (flat 0 g1 ++ place (nlen g1) 29 l1),
    (place (nlen g1) (29 + isz l1 + itsz (l_it x)) l2 ++ flat (nlen g1 + 1) g2).
  split; [exact E|]. split; [exact Hf|]. split; [exact Ho|].
  rewrite E at 1. rewrite !flat_split. change (0 + nlen g1) with (nlen g1).
  rewrite Hf, Ho. split; [|reflexivity].
  assert (Hx : (nlen g1, 29 + isz l1, l_it x) = x)
    by (rewrite <- Hf, <- Ho; now destruct x as [[f o] it]).
  now rewrite Hx.
Qed.

(* ---- lists ---- *)
Lemma livem_app G G' H H' : length G = length H -> livem (G ++ G') (H ++ H') = livem G H ++ livem G' H'.
Proof.
  revert H; induction G as [|x G IH]; intros [|v H] HL; try discriminate; cbn [app livem]; auto.
  injection HL as HL. rewrite IH by auto. now destruct (live x).
Qed.

Lemma live_last_mid A x B : live_last (A ++ x :: B) -> live x = true ->
  Forall (fun y => live y = true -> l_id y <> l_id x) A /\ Forall (fun y => l_id y <> l_id x) B.
Proof.
  intros H Hx. induction A as [|a A IH]; cbn [app live_last] in H.
  - destruct H as [H _]. split; auto.
  - destruct H as [H1 H2]. destruct (IH H2) as [HA HB]. split; auto. constructor; auto.
    intros Ha. specialize (H1 Ha). apply Forall_app in H1. destruct H1 as [_ H1].
    inversion H1; subst. congruence.
Qed.

Lemma live_last_flag A x x' B : live_last (A ++ x :: B) -> l_id x' = l_id x -> live x' = false ->
  live_last (A ++ x' :: B).
Proof.
  intros H Hi Hf. induction A as [|a A IH]; cbn [app live_last] in *.
  - destruct H. split; auto. congruence.
  - destruct H as [H1 H2]. split; auto. intros Ha. specialize (H1 Ha).
    apply Forall_app in H1. destruct H1 as [HA HB]. inversion HB; subst.
    apply Forall_app. split; auto. constructor; auto. congruence.
Qed.

Lemma live_last_snoc G y : live_last G -> (forall x, In x G -> live x = true -> l_id x <> l_id y) ->
  live_last (G ++ [y]).
Proof.
  intros H Hy. induction G as [|a G IH]; cbn [app live_last] in *.
  - split; auto.
  - destruct H as [H1 H2]. split.
    + intros Ha. apply Forall_app. split; auto. repeat constructor. intros E.
      apply (Hy a); auto. now left.
    + apply IH; auto. intros x Hx. apply Hy. now right.
Qed.

Lemma live_last_app A B : live_last (A ++ B) -> live_last A /\ live_last B.
Proof.
  induction A as [|a A IH]; cbn [app live_last]; auto. intros [H1 H2]. destruct (IH H2).
  repeat split; auto. intros Ha. specialize (H1 Ha). now apply Forall_app in H1.
Qed.

Lemma forall2_length {A B} (P : A -> B -> Prop) a b : Forall2 P a b -> length a = length b.
Proof. intros F. induction F; cbn [length]; auto. Qed.

Lemma forall_weaken k G : Forall (fun y => l_id y <> k) G -> Forall (fun y => live y = true -> l_id y <> k) G.
Proof. apply Forall_impl. auto. Qed.

Definition same_id (x : loc) (v : ver) : Prop := l_id x = fst v.

Lemma livem_keep G H k : Forall2 same_id G H -> Forall (fun y => live y = true -> l_id y <> k) G ->
  kdel k (livem G H) = livem G H.
Proof.
  intros F. induction F as [|x v G H Hxv F IH]; intros HA; cbn [livem]; auto.
  inversion HA; subst. destruct (live x) eqn:L; auto. unfold kdel in *. cbn [filter].
  unfold same_id in Hxv. rewrite <- Hxv. destruct (bseqb_spec (l_id x) k) as [E|E].
  - exfalso. now apply H2.
  - cbn [negb]. f_equal. auto.
Qed.

Lemma kdel_app k a b : kdel k (a ++ b) = kdel k a ++ kdel k b.
Proof. apply filter_app. Qed.

Lemma livem_flag A x x' B H : Forall2 same_id (A ++ x :: B) H -> live_last (A ++ x :: B) ->
  live x = true -> live x' = false ->
  livem (A ++ x' :: B) H = kdel (l_id x) (livem (A ++ x :: B) H).
Proof.
  intros F HL Hx Hx'. destruct (live_last_mid _ _ _ HL Hx) as [HA HB].
  apply Forall2_app_inv_l in F. destruct F as (HA' & HB' & F1 & F2 & ->).
  inversion F2 as [|? v ? HB'' Hv F3]; subst.
  assert (L : length A = length HA') by (eapply forall2_length; eauto).
  rewrite !livem_app by auto. cbn [livem]. rewrite Hx, Hx', kdel_app.
  rewrite (livem_keep A HA') by auto. f_equal.
  change (v :: livem B HB'') with ([v] ++ livem B HB''). rewrite kdel_app.
  rewrite (livem_keep B HB'') by (auto using forall_weaken).
  unfold kdel. cbn [filter]. unfold same_id in Hv. rewrite <- Hv, bseqb_refl. reflexivity.
Qed.

Lemma chain_app p A B : chain p (A ++ B) <-> chain p A /\ chain (last_off p A) B.
Proof. revert p; induction A as [|a A IH]; intros; cbn [app chain last_off]; [tauto|]. rewrite IH. tauto. Qed.

Lemma last_off_app p A B : last_off p (A ++ B) = last_off (last_off p A) B.
Proof. revert p; induction A as [|a A IH]; intros; cbn [app last_off]; auto. Qed.

Lemma chain_flag p A x x' B : l_off x' = l_off x -> it_prev (l_it x') = it_prev (l_it x) ->
  chain p (A ++ x :: B) -> chain p (A ++ x' :: B).
Proof. intros H1 H2. rewrite !chain_app. cbn [chain]. rewrite H1, H2. auto. Qed.

Lemma last_off_flag p A x x' B : l_off x' = l_off x -> last_off p (A ++ x' :: B) = last_off p (A ++ x :: B).
Proof. intros H. rewrite !last_off_app. cbn [last_off]. now rewrite H. Qed.

(* ---- counters ---- *)
Definition cnt (G : list loc) : N := nlen (filter live G).
Fixpoint dsum (G : list loc) : N :=
  match G with [] => 0 | x :: r => (if live x then it_len (l_it x) else 0) + dsum r end.
Fixpoint msum (G : list loc) : N :=
  match G with [] => 0 | x :: r => (if live x then ENTRY_SIZEOF + blen (l_id x) else 0) + msum r end.

Lemma cnt_app a b : cnt (a ++ b) = cnt a + cnt b.
Proof. unfold cnt. now rewrite filter_app, nlen_app. Qed.
Lemma dsum_app a b : dsum (a ++ b) = dsum a + dsum b.
Proof. induction a; cbn [app dsum]; lia. Qed.
Lemma msum_app a b : msum (a ++ b) = msum a + msum b.
Proof. induction a; cbn [app msum]; lia. Qed.
Lemma cnt_cons x b : cnt (x :: b) = (if live x then 1 else 0) + cnt b.
Proof. unfold cnt. cbn [filter]. destruct (live x); cbn [nlen]; lia. Qed.

Lemma add64_u64 a b : add64 (u64 a) b = u64 (a + b).
Proof. unfold add64, u64. lia. Qed.
Lemma sub64_u64 a b : sub64 (u64 (b + a)) b = u64 a.
Proof. unfold sub64, u64. lia. Qed.

(* ---- table entries ---- *)
Definition entry_of (n : N) (x : loc) : entry :=
  mkEntry n (l_id x) (it_off (l_it x)) (l_off x) (it_len (l_it x)) (it_flags (l_it x)) (l_f x) (l_f x)
    (it_crc (l_it x)) (it_pid (l_it x)) (it_poff (l_it x)) (it_ts (l_it x)).

Definition entries (n : N) (G : list loc) : list entry := map (entry_of n) (filter live G).

Lemma entries_app n a b : entries n (a ++ b) = entries n a ++ entries n b.
Proof. unfold entries. now rewrite filter_app, map_app. Qed.

Lemma entries_keep n G k : Forall (fun y => live y = true -> l_id y <> k) G ->
  filter (fun e => negb (bseqb (e_id e) k)) (entries n G) = entries n G.
Proof.
  unfold entries. induction G as [|x G IH]; cbn [filter map]; auto. intros HA. inversion HA; subst.
  destruct (live x) eqn:L; auto. cbn [map filter entry_of e_id].
  destruct (bseqb_spec (l_id x) k) as [E|E]; [exfalso; now apply H1|]. cbn [negb]. f_equal. auto.
Qed.

Lemma entries_flag n A x x' B : live_last (A ++ x :: B) -> live x = true -> live x' = false ->
  entries n (A ++ x' :: B) = filter (fun e => negb (bseqb (e_id e) (l_id x))) (entries n (A ++ x :: B)).
Proof.
  intros HL Hx Hx'. destruct (live_last_mid _ _ _ HL Hx) as [HA HB].
  rewrite !entries_app, filter_app. rewrite (entries_keep n A) by auto. f_equal.
  change (x' :: B) with ([x'] ++ B). change (x :: B) with ([x] ++ B).
  rewrite !entries_app, filter_app.
  rewrite (entries_keep n B) by (auto using forall_weaken).
  unfold entries. cbn [filter map]. rewrite Hx, Hx'. cbn [map filter entry_of e_id].
  now rewrite bseqb_refl.
Qed.

(* ---- a version and its record ---- *)
Definition ver_ok (dd : list bytes) (x : loc) (v : ver) : Prop :=
  l_id x = fst v /\ it_len (l_it x) = blen (fst (snd v)) /\
  it_crc (l_it x) = zdb_crc32 (fst (snd v)) /\ it_ts (l_it x) = snd (snd v) /\
  exists r, drec_wf r /\ dr_id r = fst v /\ dr_datalen r = blen (fst (snd v)) /\
    dr_crc r = zdb_crc32 (fst (snd v)) /\ dr_flags r = 0 /\ dr_ts r = snd (snd v) /\
    data_at dd (l_f x) (it_off (l_it x)) r (fst (snd v)).

Lemma ver_ok_ext dd dd' x v : dext dd dd' -> ver_ok dd x v -> ver_ok dd' x v.
Proof.
  intros E (H1 & H2 & H3 & H4 & r & R1 & R2 & R3 & R4 & R5 & R6 & R7).
  unfold ver_ok. repeat split; auto. exists r. repeat split; auto; try apply R1.
  eapply data_at_ext; eauto.
Qed.

Lemma ver_ok_flag dd f o it v : ver_ok dd (f, o, it) v -> ver_ok dd (f, o, flag it) v.
Proof. intros H. exact H. Qed.

Lemma ver_same dd G H : Forall2 (ver_ok dd) G H -> Forall2 same_id G H.
Proof. intros F. induction F as [|x v G H Hv F IH]; constructor; auto. apply Hv. Qed.

Definition loc_wf (x : loc) : Prop := item_wf (l_it x) /\ 0 < blen (l_id x) /\ l_off x < 4294967296.

Definition room (dd : list bytes) (f : N) : N :=
  match nget f dd with Some file => blen file - 28 | None => 0 end.

(* the files *)
Record FInv (di dd : list bytes) (gi : list (list item)) (H : list ver) : Prop := {
  fi_files : di = enc_ifs MODE_KV 0 gi;
  fi_small : nlen gi <= 4294967296;
  fi_wf : Forall loc_wf (flat 0 gi);
  fi_last : live_last (flat 0 gi);
  fi_ver : Forall2 (ver_ok dd) (flat 0 gi) H;
  fi_chain : chain 0 (flat 0 gi);
  fi_room : forall g l, gi = g ++ [l] -> 18 * isz l <= 34 * room dd (nlen g)
}.

Lemma place_bound f l : forall off, Forall loc_wf (place f off l) -> l <> [] -> off + 34 * nlen l < 4294967296 + 34.
Proof.
  induction l as [|it l IH]; intros off F E; [congruence|]. cbn [place nlen] in *.
  pose proof (Forall_inv F) as (_ & _ & B). apply Forall_inv_tail in F. cbn [l_off fst snd] in B.
  destruct l as [|it' l]; [cbn [nlen]; lia|].
  assert (X : it' :: l <> []) by discriminate. specialize (IH _ F X). unfold itsz in IH. lia.
Qed.

Lemma flat_bound gi : forall f, Forall loc_wf (flat f gi) -> nlen (flat f gi) <= nlen gi * 2147483648.
Proof.
  induction gi as [|l gi IH]; intros f F; cbn [flat nlen] in *; [lia|].
  apply Forall_app in F. destruct F as [F1 F2]. specialize (IH _ F2). rewrite nlen_app.
  assert (P : forall off, nlen (place f off l) = nlen l).
  { clear. induction l as [|it l IH]; intros; cbn [place nlen]; auto. now rewrite IH. }
  rewrite P. destruct l as [|it l]; [cbn [nlen]; lia|].
  assert (X : it :: l <> []) by discriminate. pose proof (place_bound _ _ _ F1 X). lia.
Qed.

(* the whole namespace, whose pointer is n *)
Record UInv (n : N) (s : est) (gi : list (list item)) (H : list ver) : Prop := {
  ui_f : FInv (dk_i (dk s)) (dk_d (dk s)) gi H;
  ui_mode : x_mode (ix s) = MODE_KV;
  ui_ns : x_ns (ix s) = n;
  (* left over from a change of mode *)
  ui_seq : x_indexid (ix s) = 0 -> x_seq (ix s) = None \/ x_seq (ix s) = Some [(0, 0)];
  ui_io : dk_io (dk s) = [];
  ui_id : x_indexid (ix s) + 1 = nlen gi;
  ui_did : d_dataid (dt s) = x_indexid (ix s);
  ui_dn : nlen (dk_d (dk s)) = nlen gi;
  ui_dhdr : dhdr_ok (dk_d (dk s));
  ui_tab : TInv (tb s) n (entries n (flat 0 gi));
  ui_prev : x_prev (ix s) = last_off 0 (flat 0 gi);
  ui_cnt : x_entries (ix s) = u64 (cnt (flat 0 gi));
  ui_dsz : x_datasize (ix s) = u64 (dsum (flat 0 gi));
  ui_msz : x_size (ix s) = u64 (msum (flat 0 gi));
  ui_next : x_nextentry (ix s) <= nlen (flat 0 gi) /\ (x_nextentry (ix s) = 0 -> flat 0 gi = [])
}.

Lemma uinv_next n s gi H : UInv n s gi H -> u64 (x_nextentry (ix s) + 1) = x_nextentry (ix s) + 1.
Proof.
  intros U. destruct (ui_next _ _ _ _ U) as [A _].
  pose proof (flat_bound _ _ (fi_wf _ _ _ _ (ui_f _ _ _ _ U))) as B.
  pose proof (fi_small _ _ _ _ (ui_f _ _ _ _ U)) as C. unfold u64. lia.
Qed.

Lemma cur_split (gi : list (list item)) m : m + 1 = nlen gi -> exists g l, gi = g ++ [l] /\ nlen g = m.
Proof.
  intros H. destruct (nget_Some m gi) as (l & Hl); [lia|].
  apply nget_split in Hl. destruct Hl as (a & b & -> & Ha). exists a, l. split; auto.
  rewrite nlen_app in H. cbn [nlen] in H. destruct b; auto. cbn [nlen] in H. lia.
Qed.

Lemma dirty_set_shape f x : exists a b, index_dirty_set f x = x_set_dirty a b x.
Proof.
  unfold index_dirty_set. destruct (nget (f / 8) (x_dmap x)); [eauto|].
  exists (x_dmax x), (x_dmap x). now destruct x.
Qed.

Lemma dirty_resize_shape f x : exists a b, index_dirty_resize f x = x_set_dirty a b x.
Proof.
  unfold index_dirty_resize. destruct (f <=? x_dmax x).
  - exists (x_dmax x), (x_dmap x). now destruct x.
  - destruct (_ <=? _); eauto.
Qed.

(* ---- index writes without errors ---- *)
Lemma index_append_ok m s id e g l :
  dk_i (dk s) = enc_ifs m 0 (g ++ [l]) -> dk_io (dk s) = [] -> x_indexid (ix s) = nlen g ->
  let e1 := e_set_loc (nlen g) (u32 (29 + isz l)) e in
  let it := index_item_from_set (ix s) id e1 in
  index_append s id e =
    (true, e1,
     mkEst (tb s) (x_set_updated true (x_set_prev (29 + isz l) (ix s))) (dt s)
       (mkDisk (enc_ifs m 0 (g ++ [l ++ [it]])) (dk_d (dk s))
          (dk_log (dk s) ++ [WrI (nlen g) (29 + isz l) (enc_item it)]) [])).
Proof.
  intros Hi Hio Hx. cbn zeta.
  assert (Hsz : isize (dk s) (nlen g) = 29 + isz l).
  { unfold isize, ifile. rewrite Hi, nget_enc_ifs. apply blen_enc_if. }
  unfold index_append. rewrite Hx, Hsz. cbn zeta. unfold try_write. rewrite Hio.
  unfold do_write. cbn [apply_write fst snd].
  rewrite Hi, wrfile_append. unfold set_dk, set_ix. cbn [tb ix dt dk]. rewrite Hio. reflexivity.
Qed.

Lemma fread_item_tail mode f l1 it l2 n : n = itsz it -> item_wf it ->
  dec_item (fread (enc_if mode f (l1 ++ it :: l2)) (29 + isz l1) n) = it.
Proof. intros. rewrite fread_item by auto. now apply dec_enc_item. Qed.

Lemma delete_disk_ok m s e g1 l1 it l2 g2 :
  dk_i (dk s) = enc_ifs m 0 (g1 ++ (l1 ++ it :: l2) :: g2) -> dk_io (dk s) = [] -> item_wf it ->
  e_indexid e = nlen g1 -> e_idxoff e = 29 + isz l1 -> e_id e = it_id it -> e_flags e = it_flags it ->
  index_entry_delete_disk s e =
    (true, mkEst (tb s) (index_dirty_set (nlen g1) (ix s)) (dt s)
       (mkDisk (enc_ifs m 0 (g1 ++ (l1 ++ flag it :: l2) :: g2)) (dk_d (dk s))
          (dk_log (dk s) ++ [WrI (nlen g1) (29 + isz l1) (enc_item (flag it))]) [])).
Proof.
  intros Hi Hio W H1 H2 H3 H4. unfold index_entry_delete_disk. rewrite H1, H2, H3, H4.
  unfold ifile. rewrite Hi, nget_enc_ifs.
  change (34 + blen (it_id it)) with (itsz it). rewrite fread_item by auto.
  rewrite blen_enc_item. change (34 + blen (it_id it)) with (itsz it). rewrite N.eqb_refl.
  rewrite dec_enc_item by auto. fold (flag it). cbn zeta. unfold try_write. rewrite Hio. unfold do_write.
  cbn [apply_write fst snd]. rewrite Hi, wrfile_over by reflexivity.
  unfold set_dk, set_ix. cbn [tb ix dt dk]. rewrite Hio. reflexivity.
Qed.

(* ---- lookups ---- *)
Lemma livem_keys G H : Forall2 same_id G H -> map fst (livem G H) = map l_id (filter live G).
Proof.
  intros F. induction F as [|x v G H Hxv F IH]; cbn [livem filter map]; auto.
  destruct (live x); cbn [map]; rewrite ?IH; auto. unfold same_id in Hxv. congruence.
Qed.

Lemma kget_none k m : kget k m = None <-> ~ In k (map fst m).
Proof.
  induction m as [|[k' v] m IH]; cbn [kget map]; [tauto|].
  destruct (bseqb_spec k' k) as [->|E]; cbn [In fst].
  - split; [discriminate|]. intros H. exfalso. apply H. now left.
  - rewrite IH. intuition.
Qed.

Lemma kget_livem G H x v : Forall2 same_id G H -> live_last G -> In (x, v) (combine G H) -> live x = true ->
  kget (l_id x) (livem G H) = Some (snd v).
Proof.
  intros F. induction F as [|y w G H Hyw F IH]; cbn [combine live_last livem]; [contradiction|].
  intros [L1 L2] [Hi|Hi] Hx.
  - injection Hi as -> ->. rewrite Hx. destruct v as [k v]. unfold same_id in Hyw. cbn [kget fst snd] in *.
    now rewrite Hyw, bseqb_refl.
  - destruct (live y) eqn:Ly; auto. destruct w as [k w]. cbn [kget]. unfold same_id in Hyw. cbn [fst] in Hyw.
    destruct (bseqb_spec k (l_id x)) as [E|E]; auto. exfalso.
    specialize (L1 eq_refl). rewrite Forall_forall in L1. apply in_combine_l in Hi.
    apply (L1 x Hi). congruence.
Qed.

Lemma in_combine_ex {A B} (P : A -> B -> Prop) G H x : Forall2 P G H -> In x G ->
  exists v, In (x, v) (combine G H) /\ P x v.
Proof.
  intros F. induction F as [|y w G H Hyw F IH]; cbn [combine In]; [contradiction|].
  intros [->|Hi].
  - exists w. auto.
  - destruct (IH Hi) as (v & Hv & Hp). exists v. auto.
Qed.

Lemma live_flags x : live x = true -> is_deleted (it_flags (l_it x)) = false.
Proof. unfold live. now destruct (is_deleted _). Qed.

Definition found (n : N) (s : est) gi H (k : bytes) (e : entry) : Prop :=
  exists x v, In x (flat 0 gi) /\ live x = true /\ l_id x = k /\ e = entry_of n x /\
    In (x, v) (combine (flat 0 gi) H) /\ ver_ok (dk_d (dk s)) x v /\
    kget k (livem (flat 0 gi) H) = Some (snd v).

Lemma lookup_spec n s gi H k : UInv n s gi H ->
  match index_get s k with
  | Some e => found n s gi H k e
  | None => kget k (livem (flat 0 gi) H) = None
  end.
Proof.
  intros U. pose proof (ui_f _ _ _ _ U) as F. unfold index_get.
  rewrite (ui_mode _ _ _ _ U), N.eqb_refl, (ui_ns _ _ _ _ U).
  rewrite (entry_get_spec _ _ _ _ (ui_tab _ _ _ _ U)).
  pose proof (ver_same _ _ _ (fi_ver _ _ _ _ F)) as S2.
  destruct (find _ _) as [e|] eqn:E.
  - apply find_some in E. destruct E as [Hi Hk]. apply bseqb_eq in Hk. unfold entries in Hi.
    apply in_map_iff in Hi. destruct Hi as (x & <- & Hi). apply filter_In in Hi. destruct Hi as [Hi Hx].
    cbn [entry_of e_flags e_id] in *. rewrite live_flags by auto.
    destruct (in_combine_ex _ _ _ x (fi_ver _ _ _ _ F) Hi) as (v & Hc & Hv).
    exists x, v. repeat split; auto; try apply Hv.
    rewrite <- Hk. apply kget_livem; auto. apply (fi_last _ _ _ _ F).
  - apply kget_none. rewrite livem_keys by auto. intros Hi. apply in_map_iff in Hi.
    destruct Hi as (x & Hx & Hi). unfold entries in E.
    pose proof (find_none _ _ E (entry_of n x) (in_map _ _ _ Hi)) as Hn.
    cbn [entry_of e_id] in Hn. apply bseqb_neq in Hn. auto.
Qed.

(* the abstract counters *)
Lemma kcount_livem G H : length G = length H -> kcount (livem G H) = cnt G.
Proof.
  revert H; induction G as [|x G IH]; intros [|v H] L; try discriminate; auto.
  rewrite cnt_cons. cbn [livem]. injection L as L. unfold kcount in *.
  destruct (live x); cbn [nlen]; rewrite IH; lia.
Qed.

Lemma ksize_livem dd G H : Forall2 (ver_ok dd) G H -> ksize (livem G H) = dsum G.
Proof.
  intros F. induction F as [|x v G H Hxv F IH]; cbn [livem dsum]; auto.
  destruct (live x); cbn [ksize]; [|lia]. destruct v as [k [v t]]. cbn [ksize].
  destruct Hxv as (_ & Hl & _). cbn [fst snd] in Hl. lia.
Qed.
