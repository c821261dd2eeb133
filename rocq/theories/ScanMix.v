(* A SCAN walk while other requests are executed (user mode) *)
From Coq Require Import Strings.String Strings.Byte List NArith ZArith Bool Lia ZifyBool ZifyN ZifyNat.
From Verif Require Import Bytes BytesFacts Layout LayoutFacts Store Text TextFacts Commands SpecKV Machine Reach
  Ghost UserInv UserReq UserRun UserMove KvFacts CrashSpec CrashFacts Scan SpecScan ScanFacts ScanRun ScanTop.
Import ListNotations.
Open Scope N_scope.
Local Notation length := List.length.

(* ---- one call ---- *)
Lemma walk_from m d gi : IOk m d gi -> forall n A x B, flat 0 gi = A ++ x :: B ->
  scan_walk n (index_next_header d) (l_f x) (l_off x) = Some (firstn n (filter live B)).
Proof.
  intros I. induction n as [|n IH]; intros A x B E; cbn [scan_walk firstn]; auto.
  destruct (next_ok _ _ _ _ _ _ I E) as (s & -> & Hs). destruct (filter live B) as [|y L2] eqn:EB.
  - destruct Hs as [_ ->]. reflexivity.
  - rewrite Hs. destruct (filter_split live B [] y L2 EB) as (A0 & B0 & -> & <- & _).
    assert (E2 : flat 0 gi = (A ++ x :: A0) ++ y :: B0) by (rewrite E, <- app_assoc; reflexivity).
    pose proof (IH _ _ _ E2) as Q. destruct y as [[f o] it]. unfold l_f, l_off in Q. cbn [fst snd] in Q.
    unfold srow in *. rewrite Q. reflexivity.
Qed.

(* the call goes on at record number `from` *)
Definition cursor_at (cur : option bytes) (from : nat) (G : list loc) : Prop :=
  match cur with
  | None => from = O
  | Some b => exists p x, from = S p /\ nth_error G p = Some x /\ b = cursor_of x
  end.

Definition room (cur : option bytes) (n : nat) : nat := match cur with None => S n | Some _ => n end.

Lemma nth_split_skip {A} (l : list A) p x : nth_error l p = Some x -> l = firstn p l ++ x :: skipn (S p) l.
Proof.
  revert p; induction l as [|a l IH]; intros [|p] E; cbn [nth_error firstn skipn app] in *; try discriminate.
  - congruence.
  - f_equal. now apply IH.
Qed.

Lemma call_ok n s gi H c cmd k cur from : UInv n s gi H -> files_lt s -> is_frozen c = false ->
  cursor_at cur from (flat 0 gi) ->
  command_scan k (cmd :: match cur with None => [] | Some b => [b] end) c s =
  Some (command_scan_send_scanlist (firstn (room cur k) (filter live (skipn from (flat 0 gi))))).
Proof.
  intros U FL Fz C. pose proof (uinv_iok _ _ _ _ U FL) as I.
  assert (Hne : gi <> []) by (intros ->; pose proof (ui_id _ _ _ _ U) as X; cbn [nlen] in X; lia).
  unfold command_scan, scan_body. rewrite Fz. destruct cur as [b|]; cbn [cursor_at room] in *.
  - destruct C as (p & x & -> & E & ->). change (argc [cmd; cursor_of x] =? 1) with false. cbn iota.
    change (arg 1 [cmd; cursor_of x]) with (cursor_of x). pose proof (nth_split_skip _ _ _ E) as S.
    rewrite (cursor_ok _ _ _ _ I) by (eapply nth_error_In; eauto). rewrite (walk_from _ _ _ I _ _ _ _ S). reflexivity.
  - subst from. change (argc [cmd] =? 1) with true. cbn iota. cbn [skipn].
    destruct (first_ok _ _ _ I Hne) as (s0 & -> & Hs). destruct (filter live (flat 0 gi)) as [|y L2] eqn:EB.
    + destruct Hs as [Hs1 Hs2]. rewrite Hs2. unfold scan_failure. rewrite Hs1. reflexivity.
    + rewrite Hs. destruct (filter_split live _ [] y L2 EB) as (A0 & B0 & E & <- & _).
      pose proof (walk_from _ _ _ I k _ _ _ E) as Q. destruct y as [[f o] it]. unfold l_f, l_off in Q. cbn [fst snd] in Q.
      unfold srow in *. rewrite Q. reflexivity.
Qed.

(* ---- the rows of one key ---- *)
Definition byid (k : bytes) (r : ver) : bool := bseqb (fst r) k.

Lemma live_once G H : Forall2 same_id G H -> live_last G -> forall q y v, nth_error G q = Some y -> nth_error H q = Some v ->
  live y = true -> filter (byid (l_id y)) (livem G H) = [v].
Proof.
  intros F. induction F as [|x w G H Hxw F IH]; intros LL q y v Ey Ev Ly; [destruct q; discriminate|].
  cbn [live_last livem] in *. destruct LL as [L1 L2]. destruct q as [|q]; cbn [nth_error] in *.
  - injection Ey as ->. injection Ev as ->. rewrite Ly. cbn [filter]. unfold byid at 1. unfold same_id in Hxw.
    rewrite <- Hxw, bseqb_refl. f_equal. specialize (L1 Ly). clear IH L2 Hxw Ly. revert L1.
    induction F as [|z u G H Hz F IH]; intros L1; cbn [livem filter]; auto. inversion L1 as [|? ? L3 L4]; subst.
    destruct (live z); cbn [filter]; auto. unfold byid at 1. rewrite <- Hz. destruct (bseqb_spec (l_id z) (l_id y)) as [X|X]; [congruence|auto].
  - pose proof (IH L2 _ _ _ Ey Ev Ly) as Q. destruct (live x) eqn:Lx; auto. cbn [filter]. unfold byid at 1.
    unfold same_id in Hxw. rewrite <- Hxw. specialize (L1 eq_refl). rewrite Forall_forall in L1.
    pose proof (L1 y (nth_error_In _ _ Ey)) as X. destruct (bseqb_spec (l_id x) (l_id y)) as [Y|Y]; [congruence|auto].
Qed.

Lemma live_last_app a b : live_last (a ++ b) -> live_last a /\ live_last b.
Proof.
  induction a as [|x a IH]; cbn [app live_last]; auto. intros [H1 H2]. apply IH in H2. destruct H2 as [H2 H3].
  split; auto. split; auto. intros L. apply H1 in L. now apply Forall_app in L.
Qed.

(* the records between two places *)
Lemma part_rows G H G1 G2 G3 : G = G1 ++ G2 ++ G3 -> Forall2 same_id G H -> live_last G ->
  let H2 := firstn (length G2) (skipn (length G1) H) in
  incl (livem G2 H2) (livem G H) /\ forall q y v, nth_error G q = Some y -> nth_error H q = Some v -> live y = true ->
  filter (byid (l_id y)) (livem G2 H2) = if ((length G1 <=? q) && (q <? length G1 + length G2))%nat then [v] else [].
Proof.
  intros -> F LL. apply Forall2_app_inv_l in F. destruct F as (H1 & H23 & F1 & F23 & ->).
  apply Forall2_app_inv_l in F23. destruct F23 as (H2 & H3 & F2 & F3 & ->).
  pose proof (forall2_length _ _ _ F1) as N1. pose proof (forall2_length _ _ _ F2) as N2.
  rewrite skipn_exact by auto. rewrite firstn_exact by auto. cbn zeta.
  rewrite !livem_app by auto. split; [intros r Hr; rewrite !in_app_iff; auto|].
  intros q y v Ey Ev Ly. destruct (live_last_app _ _ LL) as [LA LB]. destruct (live_last_app _ _ LB) as [LC LD].
  assert (W := live_once _ _ (Forall2_app F1 (Forall2_app F2 F3)) LL _ _ _ Ey Ev Ly).
  rewrite !livem_app, !filter_app in W by auto.
  destruct (Nat.leb_spec (length G1) q) as [Q1|Q1]; cbn [andb].
  - rewrite nth_error_app2 in Ey by auto. rewrite nth_error_app2 in Ev by lia. rewrite <- N1 in Ev.
    destruct (Nat.ltb_spec q (length G1 + length G2)) as [Q2|Q2].
    + rewrite nth_error_app1 in Ey by lia. rewrite nth_error_app1 in Ev by lia. eapply live_once; eauto.
    + rewrite nth_error_app2 in Ey by lia. rewrite nth_error_app2 in Ev by lia. rewrite <- N2 in Ev.
      rewrite (live_once _ _ F3 LD _ _ _ Ey Ev Ly) in W. destruct (filter _ (livem G2 H2)); auto.
      apply (f_equal (@length _)) in W. rewrite !app_length in W. cbn [length] in W. lia.
  - rewrite nth_error_app1 in Ey by auto. rewrite nth_error_app1 in Ev by lia.
    rewrite (live_once _ _ F1 LA _ _ _ Ey Ev Ly) in W. cbn [app] in W. injection W as W.
    apply app_eq_nil in W. tauto.
Qed.

(* ---- the walk ---- *)
Lemma cursor_mflag x : cursor_of (mflag x) = cursor_of x.
Proof. reflexivity. Qed.

Lemma forall2_nth {A} (P : A -> A -> Prop) a b : Forall2 P a b -> forall i x, nth_error a i = Some x ->
  exists y, nth_error b i = Some y /\ P x y.
Proof. induction 1; intros [|i] z E; cbn [nth_error] in *; try discriminate; eauto. injection E as <-. eauto. Qed.

Lemma cursor_grows cur from G G' : cursor_at cur from G -> grows G G' -> cursor_at cur from G'.
Proof.
  destruct cur as [b|]; cbn [cursor_at]; auto. intros (p & x & -> & E & ->) (G1 & N & -> & F).
  destruct (forall2_nth _ _ _ F _ _ E) as (y & Ey & K). exists p, y. split; [reflexivity|]. split.
  - rewrite nth_error_app1; auto. apply nth_error_Some. congruence.
  - destruct K as [->| ->]; auto.
Qed.

Lemma run_events_app g a : forall b st o1 st1 o2 st2, run_events g a st = Some (o1, st1) -> run_events g b st1 = Some (o2, st2) ->
  run_events g (a ++ b) st = Some (o1 ++ o2, st2).
Proof.
  induction a as [|e a IH]; intros b st o1 st1 o2 st2 E1 E2; cbn [run_events app] in *.
  - injection E1 as <- <-. exact E2.
  - destruct (run_event g e st) as [[o st3]|]; [|discriminate]. destruct (run_events g a st3) as [[o3 st4]|] eqn:E3; [|discriminate].
    injection E1 as <- <-. rewrite (IH _ _ _ _ _ _ E3 E2). now rewrite app_assoc.
Qed.

Lemma files_fit_left g a b st : files_fit g (a ++ b) st -> files_fit g a st.
Proof.
  intros F j o c s E. destruct (Nat.leb_spec j (length a)).
  - apply (F j o c s). rewrite firstn_app. replace (j - length a)%nat with O by lia. now rewrite firstn_O, app_nil_r.
  - apply (F (length a) o c s). rewrite firstn_all2 in E by lia. now rewrite firstn_exact.
Qed.

Lemma files_fit_right g a b st o st1 : files_fit g (a ++ b) st -> run_events g a st = Some (o, st1) -> files_fit g b st1.
Proof.
  intros F E j o2 c s E2. apply (F (length a + j)%nat (o ++ o2) c s).
  rewrite firstn_app_2. eapply run_events_app; eauto.
Qed.

Definition run_only (g : settings) (es : list event) (st : nscfg * est) : option (nscfg * est) :=
  option_map snd (run_events g es st).

Definition scan_call (n : nat) (argv : list bytes) (st : nscfg * est) : option bytes := command_scan n argv (fst st) (snd st).

Lemma ended_cons r rs : ended rs -> rs <> [] -> ended (r :: rs).
Proof. intros (a & ->) _. exists (r :: a). reflexivity. Qed.
Lemma ended_inv r rs : r <> [] -> ended (r :: rs) -> ended rs.
Proof.
  intros Hr ([|a0 a] & E); cbn [app] in E; [congruence|]. exists a. congruence.
Qed.

Lemma mixed_ok g n cmd : g_ok g -> forall steps c s gi H cur from, UInv n s gi H -> small (livem (flat 0 gi) H) ->
  Forall event_wf (all_events steps) -> files_fit g (all_events steps) (c, s) ->
  Forall (fun x => 1 <= fst x)%nat steps ->
  Forall (fun st => is_frozen (fst st) = false) (moments steps (c, livem (flat 0 gi) H)) ->
  cursor_at cur from (flat 0 gi) ->
  exists rs rowss, mixed scan_call (run_only g) cmd cur steps (c, s) = Some rs /\ Forall2 scan_reply rowss rs /\
    Forall2 (fun rows st => incl rows (snd st)) rowss (firstn (length rowss) (moments steps (c, livem (flat 0 gi) H))) /\
    (forall q y v, nth_error (flat 0 gi) q = Some y -> nth_error H q = Some v -> live y = true ->
      spares (l_id y) (all_events steps) ->
      ((q < from)%nat -> rows_of (l_id y) rowss = []) /\
      (rows_of (l_id y) rowss = [] \/ rows_of (l_id y) rowss = [v]) /\
      ((from <= q)%nat -> ended rowss -> rows_of (l_id y) rowss = [v])).
Proof.
  intros Hg. induction steps as [|[k es] steps IH]; intros c s gi H cur from U Sm W FF Hk Fz C.
  - exists [], []. split; [reflexivity|]. split; [constructor|]. split; [constructor|].
    intros q y v E1 E2 Ly _. split; auto. split; auto. intros _ ([|? ?] & E); discriminate.
  - unfold all_events in *. cbn [map snd List.concat moments mixed] in *.
    inversion Hk as [|? ? Hk1 Hk2]; subst. inversion Fz as [|? ? Fz1 Fz2]; subst. cbn [fst] in Fz1, Hk1.
    apply Forall_app in W. destruct W as [W1 W2]. set (G := flat 0 gi) in *.
    unfold scan_call at 1. cbn [fst snd].
    rewrite (call_ok _ _ _ _ _ _ _ _ _ U (files_fit_now _ _ _ _ FF) Fz1 C). fold G.
    assert (VS : Forall2 same_id G H) by (eapply ver_same; apply U).
    assert (LL : live_last G) by apply U.
    assert (Hl : length G = length H) by (eapply forall2_length; eauto).
    set (L := filter live (skipn from G)).
    assert (Hroom : (1 <= room cur k)%nat) by (destruct cur; cbn [room]; lia).
    destruct (firstn (room cur k) L) as [|x L0 _] eqn:EL using rev_ind.
    + (* nothing left *)
      assert (L = []) as EL0 by (destruct L; auto; destruct (room cur k); [lia|discriminate]).
      change (next_cursor (command_scan_send_scanlist [])) with (@None bytes).
      exists [hardsend "-No more data"], [[]]. split; [reflexivity|]. split; [constructor; [reflexivity|constructor]|].
      split; [constructor; [intros r []|constructor]|].
      intros q y v E1 E2 Ly _. split; [reflexivity|]. split; [now left|]. intros Hq _. exfalso.
      assert (I : In y L).
      { unfold L. apply filter_In. split; auto. rewrite <- (firstn_skipn from G) in E1.
        assert (length (firstn from G) <= from)%nat by (rewrite firstn_length; lia).
        rewrite nth_error_app2 in E1 by lia. eapply nth_error_In; eauto. }
      rewrite EL0 in I. exact I.
    + rewrite next_cursor_send.
      assert (EL2 : L = L0 ++ x :: skipn (room cur k) L).
      { rewrite <- (firstn_skipn (room cur k) L) at 1. rewrite EL, <- app_assoc. reflexivity. }
      destruct (filter_split _ _ _ _ _ EL2) as (A0 & B0 & EB & _ & EA0).
      assert (Lx : live x = true).
      { assert (In x L) as I by (rewrite EL2; apply in_app_iff; right; now left). apply filter_In in I. tauto. }
      assert (Hfrom : (from <= length G)%nat).
      { destruct (Nat.leb_spec from (length G)); auto. rewrite skipn_all2 in EB by lia. destruct A0; discriminate. }
      assert (EG : G = firstn from G ++ (A0 ++ [x]) ++ B0).
      { rewrite <- (firstn_skipn from G) at 1. rewrite EB, <- app_assoc. reflexivity. }
      assert (LF : length (firstn from G) = from) by (rewrite firstn_length; lia).
      destruct (part_rows _ _ _ _ _ EG VS LL) as [P1 P2]. rewrite LF in P1, P2.
      set (H2 := firstn (length (A0 ++ [x])) (skipn from H)) in *. set (rows := livem (A0 ++ [x]) H2) in *.
      assert (RM : Forall2 rowm (L0 ++ [x]) rows).
      { replace (L0 ++ [x]) with (filter live (A0 ++ [x])) by (rewrite filter_app, EA0; cbn [filter]; now rewrite Lx).
        assert (WG : Forall loc_wf G) by apply U. assert (VG := fi_ver _ _ _ _ (ui_f _ _ _ _ U)). fold G in VG.
        pose proof VG as VG2. rewrite EG in VG2. apply Forall2_app_inv_l in VG2. destruct VG2 as (H1 & H23 & F1 & F23 & EH).
        apply Forall2_app_inv_l in F23. destruct F23 as (H2' & H3 & F2 & F3 & ->).
        assert (H2 = H2') as EH2.
        { unfold H2. rewrite EH, skipn_exact by (rewrite <- (forall2_length _ _ _ F1); exact LF).
          apply firstn_exact. symmetry. eapply forall2_length; eauto. }
        eapply rows_user.
        - rewrite EG in WG. apply Forall_app in WG. destruct WG as [_ WG]. apply Forall_app in WG. apply WG.
        - rewrite EH2. exact F2.
        - unfold small in *. rewrite Forall_forall in *. intros r Hr. apply Sm. now apply P1. }
      destruct (run_moved g n es Hg W1 c s gi H U (files_fit_left _ _ _ _ FF)) as
        (o & c' & s' & gi' & H' & R1 & U' & Gr & (X & EX) & Sp & Kr).
      unfold run_only at 1. rewrite R1. cbn [option_map snd].
      fold G in Kr. rewrite Kr in Fz2. fold G in Gr, Sp.
      assert (Hx : nth_error G (from + length A0) = Some x).
      { rewrite EG. rewrite nth_error_app2 by lia. rewrite LF. replace (from + length A0 - from)%nat with (length A0) by lia.
        rewrite <- app_assoc. rewrite nth_error_app2, Nat.sub_diag by lia. reflexivity. }
      assert (C' : cursor_at (Some (cursor_of x)) (S (from + length A0)) (flat 0 gi')).
      { eapply cursor_grows; [|exact Gr]. cbn [cursor_at]. eauto. }
      assert (Sm' : small (livem (flat 0 gi') H')).
      { pose proof (small_kv_run es W1 c _ Sm) as S0. rewrite Kr in S0. exact S0. }
      destruct (IH c' s' gi' H' _ _ U' Sm' W2 (files_fit_right _ _ _ _ _ _ FF R1) Hk2 Fz2 C') as (rs & rowss & Q1 & Q2 & Q3 & Q4).
      rewrite Q1. cbn [option_map]. exists (command_scan_send_scanlist (L0 ++ [x]) :: rs), (rows :: rowss).
      split; [reflexivity|]. split; [constructor; [now apply scan_reply_send|exact Q2]|].
      split; [cbn [length firstn]; constructor; [exact P1|rewrite Kr; exact Q3]|].
      intros q y v E1 E2 Ly S0. apply Forall_app in S0. destruct S0 as [S1 S2].
      assert (E1' := Sp _ _ E1 S1).
      assert (E2' : nth_error H' q = Some v) by (rewrite EX, nth_error_app1; auto; apply nth_error_Some; congruence).
      destruct (Q4 q y v E1' E2' Ly S2) as (T1 & T2 & T3).
      assert (RO : rows_of (l_id y) (rows :: rowss) = filter (byid (l_id y)) rows ++ rows_of (l_id y) rowss).
      { unfold rows_of. cbn [List.concat]. apply filter_app. }
      rewrite RO, (P2 q y v E1 E2 Ly). rewrite app_length. cbn [length].
      assert (NE : rows <> []) by (intros X0; rewrite X0 in RM; inversion RM; destruct L0; discriminate).
      destruct (Nat.leb_spec from q) as [J1|J1]; cbn [andb].
      * destruct (Nat.ltb_spec q (from + (length A0 + 1))) as [J2|J2].
        -- rewrite T1 by lia. rewrite app_nil_r. split; [lia|]. split; auto.
        -- cbn [app]. split; [lia|]. split; auto. intros _ En. apply T3; [lia|]. eapply ended_inv; eauto.
      * cbn [app]. rewrite T1 by lia. split; auto. split; auto. lia.
Qed.

Lemma kget_nth G H k v : Forall2 same_id G H -> kget k (livem G H) = Some v ->
  exists q y, nth_error G q = Some y /\ nth_error H q = Some (k, v) /\ live y = true /\ l_id y = k.
Proof.
  intros F. induction F as [|x w G H Hxw F IH]; cbn [livem]; [discriminate|]. unfold same_id in Hxw.
  assert (T : kget k (livem G H) = Some v -> exists q y, nth_error (x :: G) q = Some y /\ nth_error (w :: H) q = Some (k, v) /\ live y = true /\ l_id y = k).
  { intros E. destruct (IH E) as (q & y & Q). exists (S q), y. exact Q. }
  destruct (live x) eqn:Lx; auto. destruct w as [k' w]. cbn [kget fst] in *.
  destruct (bseqb_spec k' k) as [->|N]; auto. intros E. injection E as ->. exists O, x. auto.
Qed.

Lemma not_asked k e : ~ asks k e -> ekey e <> Some k.
Proof.
  intros N E. apply N. destruct e as [p now q|c|]; try discriminate. destruct q; try discriminate; cbn [ekey] in E; injection E as ->.
  - exists p, now, ts. left. eauto.
  - exists p, now, ts. right. reflexivity.
Qed.

Lemma kv_event_other e c m k : ekey e <> Some k -> kget k (snd (snd (kv_event e (c, m)))) = kget k m.
Proof.
  intros N. destruct e as [p now q|c1|]; cbn [kv_event]; auto.
  destruct (kv_step p now c q m) as [r m'] eqn:E. cbn [snd]. change m' with (snd (r, m')). rewrite <- E.
  apply kv_step_other. destruct q; cbn [target ekey] in *; congruence.
Qed.

Lemma kv_run_other k es : spares k es -> forall c m, kget k (snd (snd (kv_run es (c, m)))) = kget k m.
Proof.
  induction es as [|e es IH]; intros S c m; [reflexivity|]. inversion S as [|? ? S1 S2]; subst. cbn [kv_run].
  pose proof (kv_event_other e c m k S1) as Q. destruct (kv_event e (c, m)) as [r1 [c1 m1]]. cbn [snd] in Q.
  pose proof (IH S2 c1 m1) as Q2. destruct (kv_run es (c1, m1)) as [r2 [c2 m2]]. cbn [snd] in *. congruence.
Qed.

Lemma moments_other k steps : spares k (all_events steps) -> forall c m,
  Forall (fun st => kget k (snd st) = kget k m) (moments steps (c, m)).
Proof.
  unfold all_events. induction steps as [|[j es] steps IH]; intros S c m; cbn [moments]; [constructor|].
  cbn [map snd List.concat] in S. apply Forall_app in S. destruct S as [S1 S2]. constructor; [reflexivity|].
  pose proof (kv_run_other k es S1 c m) as Q. destruct (snd (kv_run es (c, m))) as [c' m']. cbn [snd] in Q.
  rewrite <- Q. now apply IH.
Qed.

Lemma rows_none k rowss ms : Forall2 (fun (rows : kv) (st : nscfg * kv) => incl rows (snd st)) rowss ms ->
  Forall (fun st => kget k (snd st) = None) ms -> rows_of k rowss = [].
Proof.
  intros F. unfold rows_of. induction F as [|rows st rowss ms I F IH]; intros N; [reflexivity|].
  inversion N as [|? ? N1 N2]; subst. cbn [List.concat]. rewrite filter_app, IH by auto. rewrite app_nil_r.
  apply kget_none in N1. destruct (filter _ rows) as [|r l] eqn:E; auto. exfalso. apply N1.
  assert (In r (filter (fun r => bseqb (fst r) k) rows)) as J by (rewrite E; now left).
  apply filter_In in J. destruct J as [J1 J2]. destruct (bseqb_spec (fst r) k) as [<-|]; [|discriminate].
  apply in_map. now apply I.
Qed.

Lemma forall_firstn {A} (P : A -> Prop) n l : Forall P l -> Forall P (firstn n l).
Proof. intros F. revert n; induction F; intros [|n]; cbn [firstn]; constructor; auto. Qed.

Lemma user_mixed g n c0 es o c s cmd steps : reached g n c0 es o c s ->
  Forall event_wf (all_events steps) -> files_fit g (all_events steps) (c, s) ->
  Forall (fun x => 1 <= fst x)%nat steps ->
  Forall (fun st => is_frozen (fst st) = false) (moments steps (c, kv_of c0 es)) ->
  exists rs rowss, mixed scan_call (run_only g) cmd None steps (c, s) = Some rs /\ Forall2 scan_reply rowss rs /\
    Forall2 (fun rows st => incl rows (snd st)) rowss (firstn (length rowss) (moments steps (c, kv_of c0 es))) /\
    (forall k, (forall e, In e (all_events steps) -> ~ asks k e) ->
      match kget k (kv_of c0 es) with
      | None => rows_of k rowss = []
      | Some v => (rows_of k rowss = [] \/ rows_of k rowss = [(k, v)]) /\ (ended rowss -> rows_of k rowss = [(k, v)])
      end).
Proof.
  intros R W FF Hs Fz. destruct (reached_inv _ _ _ _ _ _ _ R) as (_ & _ & gi & H & U & E & FL).
  assert (Hg : g_ok g) by apply R. rewrite <- E in *.
  assert (Sm : small (livem (flat 0 gi) H)) by (rewrite E; apply small_kv_of; apply R).
  destruct (mixed_ok g n cmd Hg steps c s gi H None O U Sm W FF Hs Fz eq_refl) as (rs & rowss & Q1 & Q2 & Q3 & Q4).
  exists rs, rowss. split; [exact Q1|]. split; [exact Q2|]. split; [exact Q3|]. intros k Hk.
  assert (S : spares k (all_events steps)).
  { unfold spares. rewrite Forall_forall. intros e He. apply not_asked. auto. }
  destruct (kget k (livem (flat 0 gi) H)) as [v|] eqn:K.
  - destruct (kget_nth _ _ _ _ (ver_same _ _ _ (fi_ver _ _ _ _ (ui_f _ _ _ _ U))) K) as (q & y & E1 & E2 & Ly & Hy). subst k.
    destruct (Q4 q y _ E1 E2 Ly S) as (_ & T2 & T3). split; auto. apply T3. lia.
  - eapply rows_none; [exact Q3|]. apply forall_firstn. pose proof (moments_other k steps S c (livem (flat 0 gi) H)) as M.
    rewrite K in M. exact M.
Qed.

Lemma files_fit_reached g n c0 es o c s es' : reached g n c0 es o c s -> Forall event_wf es' ->
  nlen (dk_i (dk s)) + nlen es' < 2 ^ 32 -> files_fit g es' (c, s).
Proof.
  intros R W L. destruct (reached_inv _ _ _ _ _ _ _ R) as (_ & _ & gi & H & U & _).
  eapply files_fit_short; eauto; [apply R|]. rewrite <- (nlen_files _ _ _ _ U). exact L.
Qed.
