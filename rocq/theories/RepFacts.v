(* PROOFS for C60: the copies of db-replicate *)
From Coq Require Import Strings.String Strings.Byte List NArith ZArith Bool Lia ZifyBool ZifyN ZifyNat.
From Verif Require Import Bytes BytesFacts Layout LayoutFacts Store Text TextFacts Commands SpecKV Machine Reach
  Ghost UserInv UserReq UserRun UserMove KvFacts CrashSpec CrashFacts Scan SpecScan ScanFacts ScanRun ScanTop ScanMix DbSync SpecSync SyncFacts HistFacts DbReplicate.
Import ListNotations.
Open Scope N_scope.
Local Notation length := List.length.

(* ---- the page of RSCAN ---- *)
Lemma first_page d first next L cmd c s n : Wlk d first next L -> dk s = d -> is_frozen c = false ->
  scan_body n first next [cmd] c s = Some (command_scan_send_scanlist (firstn (S n) L)).
Proof.
  intros W Ed Hc. unfold scan_body. rewrite Hc. change (argc [cmd] =? 1) with true. cbn iota.
  destruct (wk_first _ _ _ _ W) as (s0 & -> & Hs). destruct L as [|x L].
  - destruct Hs as [Hs1 Hs2]. rewrite Hs2. unfold scan_failure. rewrite Hs1. reflexivity.
  - rewrite Hs. destruct x as [[f o] it].
    assert (Q := walk_ok _ _ _ _ W n [] (f, o, it) L eq_refl). unfold l_f, l_off in Q. cbn [fst snd] in Q.
    rewrite Q. reflexivity.
Qed.

Lemma rpage n s gi H c k : UInv n s gi H -> files_lt s -> is_frozen c = false -> all_used (dk_i (dk s)) ->
  small (livem (flat 0 gi) H) ->
  match rev (firstn (S k) (rev (filter live (flat 0 gi)))) with
  | [] => filter live (flat 0 gi) = [] /\ last_page k (c, s) = Some (PError (str "No more data"))
  | x :: L => exists items A B, last_page k (c, s) = Some (PArray [PString (cursor_of x); PArray items]) /\
      keys_of_items items = Some (map l_id (rev L ++ [x])) /\ flat 0 gi = A ++ x :: B /\ filter live B = L
  end.
Proof.
  intros U FL Fz AU Sm. pose proof (uinv_iok _ _ _ _ U FL) as I. unfold last_page, command_rscan. cbn [fst snd].
  assert (W : Wlk (dk s) (index_last_header (dk s) (ix s)) (index_previous_header (dk s)) (rev (filter live (flat 0 gi)))).
  { apply (wlk_rscan _ _ _ _ I); try apply U. eapply all_used_spec; eauto. apply U. }
  rewrite (first_page _ _ _ _ (str "RSCAN") c s k W eq_refl Fz).
  assert (RM : Forall2 rowm (rev (filter live (flat 0 gi))) (rev (livem (flat 0 gi) H))).
  { apply forall2_rev. eapply rows_user; try apply U. exact Sm. }
  set (G := flat 0 gi) in *. set (F := filter live G) in *.
  destruct (rev (firstn (S k) (rev F))) as [|x L] eqn:E.
  - apply (f_equal (@rev _)) in E. rewrite rev_involutive in E. cbn [rev] in E. rewrite E.
    destruct (rev F) as [|y Y] eqn:E2; [|discriminate]. apply (f_equal (@rev _)) in E2. rewrite rev_involutive in E2.
    split; [exact E2|]. vm_compute. reflexivity.
  - apply (f_equal (@rev _)) in E. rewrite rev_involutive in E. cbn [rev] in E.
    pose proof (forall2_firstn _ (S k) _ _ RM) as RK. set (rows := firstn (S k) (rev (livem G H))) in *. rewrite E in *.
    rewrite send_snoc. pose proof (rows_text _ _ RK) as RT. unfold srow in *. rewrite RT.
    replace (nlen (rev L ++ [x])) with (nlen rows) by (rewrite !nlen_length; now rewrite (forall2_length _ _ _ RK)).
    rewrite hiredis_rows.
    assert (EF : F = rev (skipn (S k) (rev F)) ++ x :: L).
    { apply (f_equal (@rev _)) in E. rewrite rev_app_distr, rev_involutive in E. cbn [rev app] in E. rewrite <- E, <- rev_app_distr, firstn_skipn.
      now rewrite rev_involutive. }
    destruct (filter_split live G _ _ _ EF) as (A & B & EG & EB & _).
    exists (map row_val rows), A, B. split; [reflexivity|]. split; [|auto]. rewrite keys_rows. f_equal.
    clear - RK. induction RK as [|y r L' R' Hy F IH]; [reflexivity|]. cbn [map]. rewrite IH. f_equal. destruct Hy as (_ & Hy & _). now symmetry.
Qed.

(* ---- where the record of a key is ---- *)
Lemma kept_live x y : kept x y -> live y = true -> y = x.
Proof. intros [->| ->] L; auto. rewrite live_mflag in L. discriminate. Qed.

Lemma forall2_nth {A B} (R : A -> B -> Prop) l l' : Forall2 R l l' -> forall q y, nth_error l' q = Some y -> exists x, nth_error l q = Some x /\ R x y.
Proof.
  intros F. induction F as [|x y l l' Hxy F IH]; intros [|q] z E; cbn [nth_error] in *; try discriminate; eauto.
  injection E as <-. eauto.
Qed.

Lemma grows_live G G' q y : grows G G' -> nth_error G' q = Some y -> live y = true -> (q < length G)%nat -> nth_error G q = Some y.
Proof.
  intros (G1 & N & -> & F) E L Hq. rewrite nth_error_app1 in E by (rewrite <- (forall2_length _ _ _ F); exact Hq).
  destruct (forall2_nth _ _ _ F _ _ E) as (x & Ex & K). now rewrite (kept_live _ _ K L).
Qed.

(* of the records of one key, the live one is where any live one is *)
Lemma live_where A x B k q y z : live_last (A ++ x :: B) -> nth_error (A ++ x :: B) q = Some y -> live y = true -> l_id y = k ->
  In z B -> live z = true -> l_id z = k -> (length A < q)%nat.
Proof.
  intros LL E Ly Ky Iz Lz Kz. destruct (Nat.ltb_spec (length A) q) as [|Hq]; auto. exfalso.
  assert (E2 : exists U V, A ++ x :: B = U ++ y :: V /\ In z V).
  { destruct (Nat.eq_dec q (length A)) as [->|N].
    - rewrite nth_error_app2, Nat.sub_diag in E by lia. injection E as ->. exists A, B. auto.
    - rewrite nth_error_app1 in E by lia. apply nth_error_split in E. destruct E as (U & V & -> & _).
      exists U, (V ++ x :: B). rewrite <- app_assoc. split; [reflexivity|]. apply in_app_iff. right. now right. }
  destruct E2 as (U & V & E2 & Iv). rewrite E2 in LL. destruct (live_last_mid _ _ _ LL Ly) as [_ L2].
  rewrite Forall_forall in L2. apply (L2 z Iv). congruence.
Qed.

Lemma catch_copies gs gt ns nt ps pt c0 es o c s d0 fs o2 d t r cur items keys o3 mid src dst :
  reached gs ns c0 es o c s -> reached gt nt d0 fs o2 d t -> n_lock c <> 2 -> all_used (dk_i (dk s)) ->
  p_writable pt = true -> n_lock d = 0 -> n_worm d = false -> n_maxsize d = 0 ->
  Forall is_request (r_wait r) -> Forall is_request (at_source (r_passes r)) -> Forall is_request (at_target (r_passes r)) ->
  Forall (fun w => 1 <= p_room w)%nat (r_passes r) ->
  nlen (dk_i (dk s)) + nlen (r_wait r) + nlen (at_source (r_passes r)) + copies (r_passes r) < 2 ^ 32 ->
  nlen (dk_i (dk t)) + nlen (at_target (r_passes r)) + copies (r_passes r) < 2 ^ 32 ->
  last_page (r_room r) (c, s) = Some (PArray [cur; PArray items]) -> keys_of_items items = Some keys ->
  served gs (r_wait r) (c, s) = Some (o3, mid) ->
  catch_up gs gt ps pt r (c, s) (d, t) = Copied src dst ->
  forall k, 0 < blen k -> blen k <= 255 -> left_alone k (at_source (r_passes r)) -> left_alone k (at_target (r_passes r)) ->
  (In k (removelast keys) \/ get_of gs k mid <> get_of gs k (c, s) -> get_of gs k mid <> hardsend "$-1" ->
     get_of gt k dst = get_of gs k mid) /\
  (get_of gs k mid = hardsend "$-1" -> get_of gt k dst = get_of gt k (d, t)).
Proof.
  intros R1 R2 Lc AU Pw T2 T3 T4 Qw Q1 Q2 Rm B1 B2 Pg Ks Sv F k K1 K2 A1 A2.
  destruct (reached_inv _ _ _ _ _ _ _ R1) as (_ & _ & gi & H & U & E & FL).
  destruct (reached_inv _ _ _ _ _ _ _ R2) as (_ & _ & gj & K & V & E' & FL').
  assert (Hgs : g_ok gs) by apply R1. assert (Hgt : g_ok gt) by apply R2.
  assert (Sm : small (livem (flat 0 gi) H)) by (rewrite E; apply small_kv_of; apply R1).
  assert (Sn : small (livem (flat 0 gj) K)) by (rewrite E'; apply small_kv_of; apply R2).
  assert (Fz : is_frozen c = false) by (apply N.eqb_neq; exact Lc).
  rewrite (nlen_files _ _ _ _ U) in B1. rewrite (nlen_files _ _ _ _ V) in B2. change (2 ^ 32) with 4294967296 in *.
  pose proof (rpage ns s gi H c (r_room r) U FL Fz AU Sm) as RP.
  destruct (rev (firstn (S (r_room r)) (rev (filter live (flat 0 gi))))) as [|x L]; [destruct RP as [_ RP]; congruence|].
  destruct RP as (items' & A & B & RP & Ki & EG & EB).
  unfold catch_up in F. rewrite RP in F, Pg. injection Pg as <- <-. rewrite Ki in Ks. injection Ks as <-. cbn [text_of] in F.
  rewrite Sv in F. unfold served in Sv.
  destruct (run_quiet gs ns (r_wait r) Hgs Qw c s gi H U Sm ltac:(lia)) as (s1 & gi1 & H1 & Rq & U1 & Sm1 & L1 & Gr1 & (X1 & EX1) & Sp1 & Kr1).
  rewrite Rq in Sv. injection Sv as _ <-.
  destruct (synchronize gs gt ps pt (r_passes r) (Some (cursor_of x)) [] (c, s1) (d, t)) as [[src2 dst2]|] eqn:Fs; [|discriminate].
  injection F as <- <-.
  assert (C : cursor_at (Some (cursor_of x)) (S (length A)) (flat 0 gi1)).
  { eapply cursor_grows; [|exact Gr1]. cbn [cursor_at]. exists (length A), x. split; [reflexivity|]. split; [|reflexivity].
    rewrite EG, nth_error_app2, Nat.sub_diag by lia. reflexivity. }
  destruct (sync_ok gs gt ns nt ps pt Hgs Hgt (r_passes r) (Some (cursor_of x)) [] c s1 gi1 H1 d t gj K _ src2 dst2 U1 Sm1 V Sn Fz ltac:(repeat split; assumption) Q1 Q2 Rm ltac:(lia) ltac:(lia) C Fs)
    as (s' & t' & gj' & K' & -> & -> & V' & N' & Done).
  destruct (Done k (asks_spares _ _ A1) (asks_spares _ _ A2)) as (D1 & D2).
  assert (FL1 : files_lt s1) by (unfold files_lt; rewrite (nlen_files _ _ _ _ U1); lia).
  rewrite (get_map gs ns c s gi H k Hgs U FL), (get_map gs ns c s1 gi1 H1 k Hgs U1 FL1), (get_map gt nt d t gj K k Hgt V FL').
  rewrite (get_map gt nt d t' gj' K' k Hgt V') by (unfold files_lt; rewrite (nlen_files _ _ _ _ V'); exact N').
  unfold kv_read. destruct (N.eqb_spec (blen k) 0); [lia|]. destruct (N.ltb_spec 255 (blen k)); [lia|]. rewrite T2.
  change (0 =? 2) with false. replace (n_lock c =? 2) with false by lia. cbn iota.
  assert (VS : Forall2 same_id (flat 0 gi) H) by (eapply ver_same; apply U).
  assert (LL : live_last (flat 0 gi)) by apply U.
  destruct (kget k (livem (flat 0 gi1) H1)) as [[v w]|] eqn:Kg; cbn [get_reply].
  - split; [intros Wh _|intros X; exfalso; revert X].
    + destruct (kget_nth _ _ _ _ (ver_same _ _ _ (fi_ver _ _ _ _ (ui_f _ _ _ _ U1))) Kg) as (q & y & Y1 & Y2 & Y3 & Y4).
      assert (Hq : (S (length A) <= q)%nat).
      { destruct (Nat.ltb_spec q (length (flat 0 gi))) as [Hq|Hq].
        - pose proof (grows_live _ _ _ _ Gr1 Y1 Y3 Hq) as Yg.
          assert (Hh : nth_error H q = Some (k, (v, w))).
          { rewrite EX1, nth_error_app1 in Y2; auto. rewrite <- (forall2_length _ _ _ VS). exact Hq. }
          destruct Wh as [Wh|Wh].
          + rewrite map_app in Wh. cbn [map] in Wh. rewrite removelast_last in Wh. apply in_map_iff in Wh. destruct Wh as (z & Kz & Iz).
            apply in_rev in Iz. rewrite <- EB in Iz. apply filter_In in Iz. destruct Iz as [Iz Lz].
            rewrite EG in LL, Yg. pose proof (live_where _ _ _ _ _ _ _ LL Yg Y3 Y4 Iz Lz Kz). lia.
          + exfalso. apply Wh. pose proof (kget_at _ _ _ _ _ VS LL Yg Hh Y3) as Kg0. rewrite Y4 in Kg0. cbn [snd] in Kg0.
            rewrite Kg0. reflexivity.
        - rewrite EG, app_length in Hq. cbn [length] in Hq. lia. }
      pose proof (D2 q y (k, (v, w)) Y1 Y2 Y3 Y4 ltac:(right; right; lia)) as D. cbn [fst snd] in D. unfold val in D.
      destruct (kget k (livem (flat 0 gj') K')) as [[v' w']|]; [|discriminate]. cbn [option_map fst] in D. injection D as ->. reflexivity.
    + intros X. pose proof (nil_not_bulk v) as Y. change (enc_reply RNil) with (hardsend "$-1") in Y. change (enc_reply (RBulk v)) with (bulk v) in X. rewrite X, bseqb_refl in Y. discriminate.
  - split; [intros _ X; exfalso; now apply X|]. intros _. rewrite D1; auto.
Qed.

(* the other outcomes *)
Lemma catch_empty gs gt ns ps pt c0 es o c s r dst :
  reached gs ns c0 es o c s -> n_lock c <> 2 -> all_used (dk_i (dk s)) -> kv_of c0 es = [] ->
  catch_up gs gt ps pt r (c, s) dst = Crash.
Proof.
  intros R1 Lc AU Em. destruct (reached_inv _ _ _ _ _ _ _ R1) as (_ & _ & gi & H & U & E & FL).
  assert (Sm : small (livem (flat 0 gi) H)) by (rewrite E, Em; constructor).
  assert (Fz : is_frozen c = false) by (apply N.eqb_neq; exact Lc).
  pose proof (rpage ns s gi H c (r_room r) U FL Fz AU Sm) as RP.
  assert (Z : filter live (flat 0 gi) = []).
  { rewrite Em in E. pose proof (livem_length (flat 0 gi) H (ver_same _ _ _ (fi_ver _ _ _ _ (ui_f _ _ _ _ U)))) as Q. rewrite E in Q.
    destruct (filter live (flat 0 gi)); [reflexivity|discriminate]. }
  rewrite Z in RP. cbn [rev firstn] in RP. destruct RP as [_ RP]. unfold catch_up. rewrite RP. reflexivity.
Qed.

Lemma catch_ends gs gt ns nt ps pt c0 es o c s d0 fs o2 d t r :
  reached gs ns c0 es o c s -> reached gt nt d0 fs o2 d t -> n_lock c <> 2 -> all_used (dk_i (dk s)) -> kv_of c0 es <> [] ->
  Forall is_request (r_wait r) -> at_source (r_passes r) = [] -> Forall is_request (at_target (r_passes r)) ->
  kcount (kv_of c0 (es ++ r_wait r)) < nlen (r_passes r) ->
  Forall (fun w => (1 <= p_room w)%nat /\ kcount (kv_of c0 (es ++ r_wait r)) <= nlen (p_turns w)) (r_passes r) ->
  nlen (dk_i (dk s)) + nlen (r_wait r) < 2 ^ 32 ->
  nlen (dk_i (dk t)) + nlen (at_target (r_passes r)) + copies (r_passes r) < 2 ^ 32 ->
  exists src dst, catch_up gs gt ps pt r (c, s) (d, t) = Copied src dst.
Proof.
  intros R1 R2 Lc AU Ne Qw Q1 Q2 Lw Rm B1 B2.
  destruct (reached_inv _ _ _ _ _ _ _ R1) as (_ & Rc & gi & H & U & E & FL).
  destruct (reached_inv _ _ _ _ _ _ _ R2) as (_ & _ & gj & K & V & E' & FL').
  assert (Hgs : g_ok gs) by apply R1. assert (Hgt : g_ok gt) by apply R2.
  assert (Sm : small (livem (flat 0 gi) H)) by (rewrite E; apply small_kv_of; apply R1).
  assert (Sn : small (livem (flat 0 gj) K)) by (rewrite E'; apply small_kv_of; apply R2).
  assert (Fz : is_frozen c = false) by (apply N.eqb_neq; exact Lc).
  rewrite (nlen_files _ _ _ _ U) in B1. rewrite (nlen_files _ _ _ _ V) in B2. change (2 ^ 32) with 4294967296 in *.
  pose proof (rpage ns s gi H c (r_room r) U FL Fz AU Sm) as RP.
  destruct (rev (firstn (S (r_room r)) (rev (filter live (flat 0 gi))))) as [|x L].
  { exfalso. apply Ne. rewrite <- E. destruct RP as [Z _].
    pose proof (livem_length (flat 0 gi) H (ver_same _ _ _ (fi_ver _ _ _ _ (ui_f _ _ _ _ U)))) as Q. rewrite Z in Q.
    destruct (livem (flat 0 gi) H); [reflexivity|discriminate]. }
  destruct RP as (items' & A & B & RP & Ki & EG & EB).
  unfold catch_up. rewrite RP. cbn [text_of]. unfold served.
  destruct (run_quiet gs ns (r_wait r) Hgs Qw c s gi H U Sm ltac:(lia)) as (s1 & gi1 & H1 & Rq & U1 & Sm1 & L1 & Gr1 & (X1 & EX1) & Sp1 & Kr1).
  rewrite Rq.
  assert (C : cursor_at (Some (cursor_of x)) (S (length A)) (flat 0 gi1)).
  { eapply cursor_grows; [|exact Gr1]. cbn [cursor_at]. exists (length A), x. split; [reflexivity|]. split; [|reflexivity].
    rewrite EG, nth_error_app2, Nat.sub_diag by lia. reflexivity. }
  assert (E1 : kv_of c0 (es ++ r_wait r) = livem (flat 0 gi1) H1).
  { unfold kv_of in *. rewrite kv_run_app. cbn [snd]. rewrite E in Kr1. destruct (snd (kv_run es (c0, []))) as [c1 m1] eqn:Es.
    cbn [fst snd] in *. rewrite <- Rc, Kr1. reflexivity. }
  rewrite E1 in *. unfold kcount in *. rewrite !nlen_length in Lw.
  destruct (sync_total gs gt ns nt ps pt Hgs Hgt (r_passes r) (Some (cursor_of x)) [] c s1 gi1 H1 d t gj K (S (length A))) as (src & dst & ->); eauto.
  - lia.
  - eapply Forall_impl; [|exact Rm]. cbn beta. intros w [W1 W2]. rewrite !nlen_length in W2. lia.
  - cbn [length]. lia.
  - pose proof (livem_length (flat 0 gi1) H1 (ver_same _ _ _ (fi_ver _ _ _ _ (ui_f _ _ _ _ U1)))) as Q.
    assert (length (filter live (skipn (S (length A)) (flat 0 gi1))) <= length (filter live (flat 0 gi1)))%nat.
    { rewrite <- (firstn_skipn (S (length A)) (flat 0 gi1)) at 2. rewrite filter_app, app_length. lia. }
    lia.
Qed.
