(* What is on disk when the writes of a request stop early. *)
From Coq Require Import List NArith ZArith Bool Strings.Byte Lia ZifyBool ZifyN ZifyNat.
From Verif Require Import Bytes BytesFacts Crc32 Crc32Facts Layout LayoutFacts Store
  Ghost DataFacts TableFacts CheckFacts SpecKV UserInv UserSteps UserLoad.
Import ListNotations.
Open Scope N_scope.
Ltac Zify.zify_post_hook ::= Z.div_mod_to_equations.

Notation fsys := (list bytes * list bytes)%type.
Definition files (d : disk) : fsys := (dk_i d, dk_d d).
Definition fsz (f : N) (fs : list bytes) : N := match nget f fs with Some b => blen b | None => 0 end.

Lemma apply_writes_app a b fs : apply_writes (a ++ b) fs = apply_writes b (apply_writes a fs).
Proof. unfold apply_writes. apply fold_left_app. Qed.

Lemma apply_writes_cons w b fs : apply_writes (w :: b) fs = apply_writes b (apply_write w fs).
Proof. reflexivity. Qed.

(* ---- prefixes ---- *)
Definition is_mki (w : dwrite) : bool := match w with MkI _ => true | _ => false end.

Inductive cpre : fsys -> list dwrite -> list dwrite -> Prop :=
| cp_stop fs W : cpre fs W []
| cp_torn_d fs f o b n W : cpre fs (WrD f o b :: W) [WrD f o (nfirst n b)]
| cp_torn_i fs f o b n W : o + blen b <= fsz f (fst fs) -> cpre fs (WrI f o b :: W) [WrI f o (nfirst n b)]
| cp_next fs w W V : is_mki w = false -> cpre (apply_write w fs) W V -> cpre fs (w :: W) (w :: V)
| cp_mki fs f w W V : is_mki w = false -> cpre (apply_write w (apply_write (MkI f) fs)) W V ->
    cpre fs (MkI f :: w :: W) (MkI f :: w :: V).

(* every MkI is followed by something else (its header) *)
Inductive headed : list dwrite -> Prop :=
| hd_nil : headed []
| hd_next w W : is_mki w = false -> headed W -> headed (w :: W)
| hd_mki f w W : is_mki w = false -> headed W -> headed (MkI f :: w :: W).

Lemma headed_app a b : headed a -> headed b -> headed (a ++ b).
Proof. induction 1; cbn [app]; auto using hd_next, hd_mki. Qed.

Lemma cpre_app A B fs V : headed A -> cpre fs (A ++ B) V ->
  cpre fs A V \/ exists V', V = A ++ V' /\ cpre (apply_writes A fs) B V'.
Proof.
  intros HA. revert fs V. induction HA as [|w W Hw HW IH|f w W Hw HW IH]; intros fs V C; cbn [app] in *.
  - right. exists V. auto.
  - inversion C as [| | | ? ? ? V0 ? C0|]; subst; try discriminate.
    + left. constructor.
    + left. constructor.
    + left. now constructor.
    + apply IH in C0. destruct C0 as [X|(V' & -> & X)].
      * left. now constructor.
      * right. exists V'. now rewrite apply_writes_cons.
  - inversion C as [| | | |? ? ? ? V0 ? C0]; subst; try discriminate.
    + left. constructor.
    + apply IH in C0. destruct C0 as [X|(V' & -> & X)].
      * left. now constructor.
      * right. exists V'. now rewrite !apply_writes_cons.
Qed.

(* from d to d' by writes whose every cut satisfies P *)
Definition cuts (P : fsys -> Prop) (d d' : disk) : Prop :=
  exists W, dk_log d' = dk_log d ++ W /\ headed W /\ files d' = apply_writes W (files d) /\
    forall V, cpre (files d) W V -> P (apply_writes V (files d)).

Lemma cuts_refl (P : fsys -> Prop) d : P (files d) -> cuts P d d.
Proof.
  intros H. exists []. rewrite app_nil_r. split; [reflexivity|]. split; [constructor|]. split; [reflexivity|].
  intros V C. inversion C; subst. exact H.
Qed.

Lemma cuts_trans P a b c : cuts P a b -> cuts P b c -> cuts P a c.
Proof.
  intros (V & V1 & V2 & V3 & V4) (W & W1 & W2 & W3 & W4). exists (V ++ W).
  split; [now rewrite W1, V1, app_assoc|]. split; [now apply headed_app|].
  split; [now rewrite apply_writes_app, <- V3|].
  intros X C. apply cpre_app in C; auto. destruct C as [C|(X' & -> & C)]; [auto|].
  rewrite apply_writes_app, <- V3. rewrite <- V3 in C. auto.
Qed.

Lemma cuts_mono (P Q : fsys -> Prop) a b : (forall fs, P fs -> Q fs) -> cuts P a b -> cuts Q a b.
Proof. intros I (W & W1 & W2 & W3 & W4). exists W. auto 6. Qed.

(* ---- states a restart can load ---- *)
Definition loadable (fs : fsys) (gi : list (list item)) (H : list ver) : Prop :=
  FInv (fst fs) (snd fs) gi H /\ 0 < nlen gi /\ dd_openable (snd fs) (nlen gi).

Lemma uinv_loadable n s gi H : UInv n s gi H -> loadable (files (dk s)) gi H.
Proof.
  intros U. split; [apply U|]. split; [pose proof (ui_id _ _ _ _ U); lia|]. left. split; apply U.
Qed.

Lemma loadable_dext di dd dd' gi H : loadable (di, dd) gi H -> dext dd dd' -> nlen dd' = nlen dd -> dhdr_ok dd ->
  nlen dd = nlen gi -> loadable (di, dd') gi H.
Proof.
  intros (F & G & _) E L D N. cbn [fst snd] in *. split; [eapply finv_dext; eauto|]. split; [exact G|].
  left. cbn [snd]. split; [lia|]. eapply dhdr_ok_ext; eauto.
Qed.

(* data writes *)
Lemma data_cuts_gen s file q (P : fsys -> Prop) : nget (d_dataid (dt s)) (dk_d (dk s)) = Some file ->
  P (files (dk s)) -> (forall b, P (dk_i (dk s), nset (d_dataid (dt s)) (file ++ b) (dk_d (dk s)))) ->
  cuts P (dk s) (dk (after_data s file q)).
Proof.
  intros Hf K0 K.
  apply nget_lt in Hf as Hl.
  assert (S1 : forall b, apply_write (WrD (d_dataid (dt s)) (blen file) b) (files (dk s)) =
     (dk_i (dk s), nset (d_dataid (dt s)) (file ++ b) (dk_d (dk s)))).
  { intros b. unfold files. cbn [apply_write fst snd]. now rewrite (wrfile_end _ _ _ _ Hf). }
  assert (S2 : forall a b, apply_write (WrD (d_dataid (dt s)) (blen file + blen a) b)
      (dk_i (dk s), nset (d_dataid (dt s)) (file ++ a) (dk_d (dk s))) =
     (dk_i (dk s), nset (d_dataid (dt s)) (file ++ a ++ b) (dk_d (dk s)))).
  { intros a b. cbn [apply_write fst snd].
    rewrite <- blen_app, (wrfile_end _ (file ++ a)) by (now apply nget_nset_same).
    now rewrite nset_nset, <- app_assoc. }
  exists (ins_writes s file q). split; [reflexivity|]. split; [repeat constructor|]. split.
  { unfold ins_writes. rewrite !apply_writes_cons, S1, S2. reflexivity. }
  intros V C. unfold ins_writes in C. generalize dependent (enc_drec (ins_hdr s q)). intros a C.
  inversion C as [| | | ? ? ? V1 ? C1|]; subst.
  - exact K0.
  - rewrite apply_writes_cons, S1. apply K.
  - rewrite apply_writes_cons, S1. rewrite S1 in C1. inversion C1 as [| | | ? ? ? V2 ? C2|]; subst.
    + apply K.
    + rewrite apply_writes_cons, S2. apply K.
    + inversion C2; subst. rewrite apply_writes_cons, S2. apply K.
Qed.

Lemma data_cuts n s gi H q file (P : fsys -> Prop) : UInv n s gi H -> nget (d_dataid (dt s)) (dk_d (dk s)) = Some file ->
  (forall fs, loadable fs gi H -> fst fs = dk_i (dk s) -> dext (dk_d (dk s)) (snd fs) -> P fs) ->
  cuts P (dk s) (dk (after_data s file q)).
Proof.
  intros U Hf HP. apply data_cuts_gen; auto.
  - apply HP; [now apply (uinv_loadable n)|reflexivity|apply dext_refl].
  - intros b. apply HP; [|reflexivity|now apply dext_nset].
    eapply loadable_dext; [eapply uinv_loadable; exact U| | | |]; try apply U.
    + now apply dext_nset.
    + now rewrite nlen_nset.
Qed.

(* jump writes *)
Lemma jump_cuts_gen m s gi (P : fsys -> Prop) :
  dk_i (dk s) = enc_ifs m 0 gi -> x_mode (ix s) = m -> x_indexid (ix s) + 1 = nlen gi -> nlen gi < 4294967296 ->
  nlen (dk_d (dk s)) = nlen gi -> dhdr_ok (dk_d (dk s)) ->
  P (files (dk s)) ->
  (forall dd, dext (dk_d (dk s)) dd -> dd_openable dd (nlen (gi ++ [[]])) -> P (enc_ifs m 0 (gi ++ [[]]), dd)) ->
  cuts P (dk s) (dk (jump_next s)).
Proof.
  intros Fi Fm Fx Hn Fd Fh P0 FJ'.
  rewrite (jump_ok m s gi); auto.
  exists (jump_writes m (nlen gi)). split; [reflexivity|].
  split; [unfold jump_writes; apply hd_mki; [reflexivity|]; repeat constructor|].
  set (f := nlen gi) in *.
  assert (J1 : apply_write (WrI f 0 (index_header f m)) (apply_write (MkI f) (files (dk s)))
     = (enc_ifs m 0 (gi ++ [[]]), dk_d (dk s))).
  { unfold files. cbn [apply_write fst snd].
    rewrite Fi. unfold mkfile. rewrite nlen_enc_ifs. unfold f. rewrite N.eqb_refl. unfold wrfile.
    assert (G1 : forall b, nget (nlen gi) (enc_ifs m 0 gi ++ [b]) = Some b).
    { intros b. rewrite <- (nlen_enc_ifs m 0 gi) at 1. apply nget_app_r. }
    rewrite G1. change (fwrite [] 0) with (fwrite [] (blen [])). rewrite fwrite_end. cbn [app].
    rewrite <- (nlen_enc_ifs m 0 gi) at 1. rewrite nset_app_r.
    rewrite enc_ifs_app. cbn [enc_ifs]. unfold enc_if, enc_items. cbn [map List.concat]. rewrite app_nil_r. reflexivity. }
  assert (MK : apply_write (MkD f) (enc_ifs m 0 (gi ++ [[]]), dk_d (dk s)) =
     (enc_ifs m 0 (gi ++ [[]]), dk_d (dk s) ++ [[]])).
  { cbn [apply_write fst snd]. unfold mkfile. rewrite Fd. unfold f. rewrite N.eqb_refl. reflexivity. }
  assert (WR : forall b, apply_write (WrD f 0 b) (enc_ifs m 0 (gi ++ [[]]), dk_d (dk s) ++ [[]]) =
     (enc_ifs m 0 (gi ++ [[]]), dk_d (dk s) ++ [b])).
  { intros b. cbn [apply_write fst snd]. unfold wrfile. rewrite <- Fd, nget_app_r.
    change (fwrite [] 0) with (fwrite [] (blen [])). rewrite fwrite_end. cbn [app]. now rewrite nset_app_r. }
  assert (NG : nlen (gi ++ [[]]) = f + 1) by (rewrite nlen_app; reflexivity).
  assert (CUT : forall j, P (enc_ifs m 0 (gi ++ [[]]), dk_d (dk s) ++ [nfirst j (data_header f)])).
  { intros j. apply FJ'; [apply dext_snoc|]. right. right. exists (dk_d (dk s)), j.
    rewrite Fd. split; [reflexivity|]. rewrite !nlen_app, Fd. split; [reflexivity|exact Fh]. }
  assert (FULL : nfirst 28 (data_header f) = data_header f)
    by (apply nfirst_all; rewrite <- blen_nlen, blen_data_header; lia).
  split.
  { unfold jump_writes. rewrite !apply_writes_cons, J1, MK, WR. reflexivity. }
  intros V C. unfold jump_writes in C. inversion C as [| | | | ? ? ? ? V1 ? C1]; subst; try discriminate.
  - exact P0.
  - rewrite !apply_writes_cons, J1. rewrite J1 in C1.
    inversion C1 as [| | | ? ? ? V2 ? C2|]; subst.
    + apply FJ'; [apply dext_refl|]. right. left. rewrite NG, Fd. split; [reflexivity|exact Fh].
    + rewrite apply_writes_cons, MK. rewrite MK in C2. inversion C2 as [| | | ? ? ? V3 ? C3|]; subst.
      * specialize (CUT 0). now rewrite nfirst_0 in CUT.
      * rewrite apply_writes_cons, WR. apply CUT.
      * inversion C3; subst. rewrite apply_writes_cons, WR. specialize (CUT 28). now rewrite FULL in CUT.
Qed.

Lemma jump_cuts n s gi H (P : fsys -> Prop) : UInv n s gi H -> nlen gi < 4294967296 ->
  (forall fs gi', loadable fs gi' H -> flat 0 gi' = flat 0 gi -> nlen gi' <= nlen gi + 1 ->
     dext (dk_d (dk s)) (snd fs) -> P fs) ->
  cuts P (dk s) (dk (jump_next s)).
Proof.
  intros U Hn HP. pose proof (ui_f _ _ _ _ U) as F. pose proof (finv_jump _ _ _ _ F Hn) as FJ.
  apply (jump_cuts_gen MODE_KV s gi); try apply U; auto.
  - apply (HP _ gi); [now apply (uinv_loadable n)|reflexivity|lia|apply dext_refl].
  - intros dd E O. apply (HP _ (gi ++ [[]])); [|apply flat_jump|rewrite nlen_app; cbn [nlen]; lia|exact E].
    split; [|split; [|exact O]]; cbn [fst snd].
    + eapply finv_dext; eauto.
    + rewrite nlen_app. cbn [nlen]. lia.
Qed.

Lemma nfirst_app1 {A} n (a b : list A) : n <= nlen a -> nfirst n (a ++ b) = nfirst n a.
Proof.
  intros H. rewrite nlen_length in H. rewrite !nfirst_firstn, firstn_app.
  replace (N.to_nat n - List.length a)%nat with 0%nat by lia. cbn [firstn]. apply app_nil_r.
Qed.

Lemma nfirst_app2 {A} n (a b : list A) : nlen a <= n -> nfirst n (a ++ b) = a ++ nfirst (n - nlen a) b.
Proof.
  intros H. rewrite nlen_length in *. rewrite !nfirst_firstn, firstn_app, firstn_all2 by lia.
  f_equal. f_equal. lia.
Qed.

Lemma nfirst_cons {A} n (x : A) l : 0 < n -> nfirst n (x :: l) = x :: nfirst (n - 1) l.
Proof.
  intros H. rewrite !nfirst_firstn. replace (N.to_nat n) with (S (N.to_nat (n - 1))) by lia. reflexivity.
Qed.

(* a record is flagged: each cut leaves the record as it was or flagged *)
Lemma enc_item_flag it : exists a x y b, blen a = 13 /\ enc_item it = a ++ x :: b /\ enc_item (flag it) = a ++ y :: b.
Proof.
  unfold enc_item, flag.
  cbn [it_idlen it_off it_len it_prev it_flags it_dataid it_ts it_crc it_pid it_poff it_id].
  exists (le 1 (it_idlen it) ++ le 4 (it_off it) ++ le 4 (it_len it) ++ le 4 (it_prev it)).
  destruct (le 1 (it_flags it)) as [|x [|? ?]] eqn:E1; [discriminate| |discriminate].
  destruct (le 1 (N.lor (it_flags it) INDEX_ENTRY_DELETED)) as [|y [|? ?]] eqn:E2; [discriminate| |discriminate].
  exists x, y. eexists. rewrite <- !app_assoc. split; [|split; reflexivity].
  rewrite !blen_app, !blen_le. reflexivity.
Qed.

Lemma fwrite_over_cut pre a x y b post n :
  let old := a ++ x :: b in let new := a ++ y :: b in
  fwrite (pre ++ old ++ post) (blen pre) (nfirst n new) = pre ++ old ++ post \/
  fwrite (pre ++ old ++ post) (blen pre) (nfirst n new) = pre ++ new ++ post.
Proof.
  cbn zeta. destruct (N.leb_spec n (blen a)) as [L|L].
  - left. replace (nfirst n (a ++ y :: b)) with (nfirst n a)
      by (symmetry; apply nfirst_app1; rewrite <- blen_nlen; exact L).
    pose proof (nfirst_nskip n a) as E. generalize dependent (nskip n a). generalize dependent (nfirst n a).
    intros a1 a2 E. subst a. rewrite <- !app_assoc. now rewrite (fwrite_app pre a1) by reflexivity.
  - right. rewrite nfirst_app2 by (rewrite <- blen_nlen; lia).
    set (m := n - nlen a). assert (M : 0 < m) by (unfold m; rewrite <- blen_nlen; lia).
    rewrite nfirst_cons by exact M.
    pose proof (nfirst_nskip (m - 1) b) as E. generalize dependent (nskip (m - 1) b). generalize dependent (nfirst (m - 1) b).
    intros b1 b2 E. subst b.
    replace (pre ++ (a ++ x :: b1 ++ b2) ++ post) with (pre ++ (a ++ x :: b1) ++ (b2 ++ post))
      by (rewrite <- !app_assoc; cbn [app]; rewrite <- !app_assoc; reflexivity).
    rewrite fwrite_app by (rewrite !blen_app; reflexivity).
    rewrite <- !app_assoc; cbn [app]; rewrite <- !app_assoc; reflexivity.
Qed.

Lemma flag_cut m g1 l1 it l2 g2 n :
  wrfile (nlen g1) (29 + isz l1) (nfirst n (enc_item (flag it))) (enc_ifs m 0 (g1 ++ (l1 ++ it :: l2) :: g2))
    = enc_ifs m 0 (g1 ++ (l1 ++ it :: l2) :: g2) \/
  wrfile (nlen g1) (29 + isz l1) (nfirst n (enc_item (flag it))) (enc_ifs m 0 (g1 ++ (l1 ++ it :: l2) :: g2))
    = enc_ifs m 0 (g1 ++ (l1 ++ flag it :: l2) :: g2).
Proof.
  unfold wrfile. rewrite nget_enc_ifs. rewrite <- (blen_enc_if m (0 + nlen g1) l1).
  assert (E : forall i, enc_if m (0 + nlen g1) (l1 ++ i :: l2) = enc_if m (0 + nlen g1) l1 ++ enc_item i ++ enc_items l2).
  { intros i. unfold enc_if. rewrite enc_items_app, enc_items_cons, <- app_assoc. reflexivity. }
  destruct (enc_item_flag it) as (a & x & y & b & _ & E1 & E2).
  destruct (fwrite_over_cut (enc_if m (0 + nlen g1) l1) a x y b (enc_items l2) n) as [X|X];
    rewrite <- E1, <- E2, <- !E in X; rewrite X; [left|right]; apply nset_enc_ifs.
Qed.

Lemma fsz_cur m g l : fsz (nlen g) (enc_ifs m 0 (g ++ [l])) = 29 + isz l.
Proof. unfold fsz. rewrite nget_enc_ifs. apply blen_enc_if. Qed.

Lemma blen_item_pos it : 0 < blen (enc_item it).
Proof. rewrite blen_enc_item. lia. Qed.

(* a record is appended to the current index file *)
Lemma append_cuts m g l it dd V : cpre (enc_ifs m 0 (g ++ [l]), dd) [WrI (nlen g) (29 + isz l) (enc_item it)] V ->
  apply_writes V (enc_ifs m 0 (g ++ [l]), dd) = (enc_ifs m 0 (g ++ [l]), dd) \/
  apply_writes V (enc_ifs m 0 (g ++ [l]), dd) = (enc_ifs m 0 (g ++ [l ++ [it]]), dd).
Proof.
  intros C.
  assert (X : V = [] \/ V = [WrI (nlen g) (29 + isz l) (enc_item it)]).
  { pose proof (fsz_cur m g l) as Z. pose proof (blen_item_pos it) as P.
    revert C P Z. generalize (enc_item it), (enc_ifs m 0 (g ++ [l])), (29 + isz l). intros b fi o C P Z.
    inversion C as [| |? ? ? ? ? ? LE | ? ? ? V1 ? C1|]; subst; auto.
    - cbn [fst] in LE. lia.
    - inversion C1; subst. auto. }
  destruct X as [->| ->].
  - left. reflexivity.
  - right. rewrite apply_writes_cons. cbn [apply_write fst snd]. now rewrite wrfile_append.
Qed.

Lemma flag_cuts m g1 l1 it l2 g2 dd fs W V : fs = (enc_ifs m 0 (g1 ++ (l1 ++ it :: l2) :: g2), dd) ->
  cpre fs (WrI (nlen g1) (29 + isz l1) (enc_item (flag it)) :: W) V ->
  apply_writes V fs = fs \/
  exists V1, cpre (enc_ifs m 0 (g1 ++ (l1 ++ flag it :: l2) :: g2), dd) W V1 /\
    apply_writes V fs = apply_writes V1 (enc_ifs m 0 (g1 ++ (l1 ++ flag it :: l2) :: g2), dd).
Proof.
  intros E C.
  assert (X : V = [] \/ (exists n, V = [WrI (nlen g1) (29 + isz l1) (nfirst n (enc_item (flag it)))]) \/
     exists V1, V = WrI (nlen g1) (29 + isz l1) (enc_item (flag it)) :: V1 /\
       cpre (apply_write (WrI (nlen g1) (29 + isz l1) (enc_item (flag it))) fs) W V1).
  { clear E. revert C. generalize (enc_item (flag it)), (29 + isz l1). intros b o C.
    inversion C as [| |? ? ? ? ? ? LE | ? ? ? V1 ? C1|]; subst; eauto. }
  destruct X as [->|[(n & ->)|(V1 & -> & C1)]].
  - left. reflexivity.
  - rewrite apply_writes_cons, E. cbn [apply_write fst snd].
    destruct (flag_cut m g1 l1 it l2 g2 n) as [->| ->]; [left; reflexivity|right].
    exists []. split; [constructor|reflexivity].
  - right. exists V1. subst fs. rewrite apply_writes_cons. cbn [apply_write fst snd] in *.
    rewrite wrfile_over in * by reflexivity. auto.
Qed.

(* ---- stops between two writes to the index; data writes may be cut ---- *)
Inductive spre : fsys -> list dwrite -> list dwrite -> Prop :=
| sp_stop fs W : spre fs W []
| sp_torn_d fs f o b n W : spre fs (WrD f o b :: W) [WrD f o (nfirst n b)]
| sp_next fs w W V : is_mki w = false -> spre (apply_write w fs) W V -> spre fs (w :: W) (w :: V)
| sp_mki fs f w W V : is_mki w = false -> spre (apply_write w (apply_write (MkI f) fs)) W V ->
    spre fs (MkI f :: w :: W) (MkI f :: w :: V).

Lemma spre_cpre fs W V : spre fs W V -> cpre fs W V.
Proof. induction 1; auto using cp_stop, cp_torn_d, cp_next, cp_mki. Qed.

Lemma spre_app A B fs V : headed A -> spre fs (A ++ B) V ->
  spre fs A V \/ exists V', V = A ++ V' /\ spre (apply_writes A fs) B V'.
Proof.
  intros HA. revert fs V. induction HA as [|w W Hw HW IH|f w W Hw HW IH]; intros fs V C; cbn [app] in *.
  - right. exists V. auto.
  - inversion C as [| | ? ? ? V0 ? C0|]; subst; try discriminate.
    + left. constructor.
    + left. constructor.
    + apply IH in C0. destruct C0 as [X|(V' & -> & X)].
      * left. now constructor.
      * right. exists V'. now rewrite apply_writes_cons.
  - inversion C as [| | |? ? ? ? V0 ? C0]; subst; try discriminate.
    + left. constructor.
    + apply IH in C0. destruct C0 as [X|(V' & -> & X)].
      * left. now constructor.
      * right. exists V'. now rewrite !apply_writes_cons.
Qed.

Definition scuts (P : fsys -> Prop) (d d' : disk) : Prop :=
  exists W, dk_log d' = dk_log d ++ W /\ headed W /\ files d' = apply_writes W (files d) /\
    forall V, spre (files d) W V -> P (apply_writes V (files d)).

Lemma cuts_scuts P d d' : cuts P d d' -> scuts P d d'.
Proof. intros (W & W1 & W2 & W3 & W4). exists W. auto 8 using spre_cpre. Qed.

Lemma scuts_refl (P : fsys -> Prop) d : P (files d) -> scuts P d d.
Proof. intros H. apply cuts_scuts. now apply cuts_refl. Qed.

Lemma scuts_trans P a b c : scuts P a b -> scuts P b c -> scuts P a c.
Proof.
  intros (V & V1 & V2 & V3 & V4) (W & W1 & W2 & W3 & W4). exists (V ++ W).
  split; [now rewrite W1, V1, app_assoc|]. split; [now apply headed_app|].
  split; [now rewrite apply_writes_app, <- V3|].
  intros X C. apply spre_app in C; auto. destruct C as [C|(X' & -> & C)]; [auto|].
  rewrite apply_writes_app, <- V3. rewrite <- V3 in C. auto.
Qed.

(* one whole index write *)
Lemma scuts_one (P : fsys -> Prop) d d' f o b : dk_log d' = dk_log d ++ [WrI f o b] ->
  files d' = apply_write (WrI f o b) (files d) -> P (files d) -> P (files d') -> scuts P d d'.
Proof.
  intros E1 E2 P1 P2. exists [WrI f o b]. split; [exact E1|]. split; [repeat constructor|]. split; [exact E2|].
  intros V C. inversion C as [| | ? ? ? V0 ? C0|]; subst; [exact P1|]. inversion C0; subst.
  rewrite apply_writes_cons, <- E2. exact P2.
Qed.
