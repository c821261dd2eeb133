(* PROOFS.  A start which is interrupted and repeated. *)
From Coq Require Import Strings.String Strings.Byte List NArith ZArith Bool Lia ZifyBool ZifyN ZifyNat.
From Verif Require Import Bytes BytesFacts Layout LayoutFacts Store Text Commands SpecKV Machine CrashModel CrashPre DataFacts DirtyFacts CrashFacts UserInv Namespace Server.
Import ListNotations.
Open Scope N_scope.
Local Notation length := List.length.

(* ---- the header of an index file: only the time of the last opening changes ---- *)

Definition headed (a o c : bytes) : Prop := blen a = 16 /\ blen o = 8 /\ 5 <= blen c.

Lemma headed_split f : 29 <= blen f -> exists a o c, f = a ++ o ++ c /\ headed a o c.
Proof.
  intros H. exists (nfirst 16 f), (nfirst 8 (nskip 16 f)), (nskip 8 (nskip 16 f)).
  rewrite nfirst_nskip, nfirst_nskip. split; [reflexivity|]. unfold headed.
  rewrite !blen_length, !nfirst_firstn, !nskip_skipn, !firstn_length, !skipn_length. rewrite blen_length in H. lia.
Qed.

Lemma headed_len a o c : headed a o c -> 29 <= blen (a ++ o ++ c).
Proof. intros (A & O & C). rewrite !blen_app. lia. Qed.

Lemma split_at (l : bytes) n : n <= blen l -> exists a b, l = a ++ b /\ blen a = n.
Proof.
  intros H. exists (nfirst n l), (nskip n l). rewrite nfirst_nskip. split; [reflexivity|].
  rewrite blen_length, nfirst_firstn, firstn_length. rewrite blen_length in H. lia.
Qed.

(* the header which the loader writes back *)
Definition opened0 (h : ihdr) : ihdr := mkIhdr (ih_magic h) (ih_version h) (ih_created h) 0 (ih_fileid h) (ih_mode h).

Lemma le_of k (l : bytes) : length l = k -> le k (unle l) = l.
Proof. intros <-. apply le_unle. Qed.

Lemma head_bytes a o c : headed a o c ->
  fread (a ++ o ++ c) 0 29 = a ++ o ++ nfirst 5 c /\
  enc_ihdr (opened0 (dec_ihdr (a ++ o ++ nfirst 5 c))) = a ++ zeros 8 ++ nfirst 5 c /\
  (forall o', blen o' = 8 -> opened0 (dec_ihdr (a ++ o' ++ nfirst 5 c)) = opened0 (dec_ihdr (a ++ o ++ nfirst 5 c))).
Proof.
  intros (A & O & C).
  destruct (split_at a 4 ltac:(lia)) as (m & a1 & -> & Lm). rewrite blen_app in A.
  destruct (split_at a1 4 ltac:(lia)) as (v & t & -> & Lv). rewrite blen_app in A.
  destruct (split_at c 5 C) as (c1 & c2 & -> & Lc).
  destruct (split_at c1 4 ltac:(lia)) as (fi & mo & -> & Lf). rewrite blen_app in Lc.
  assert (F5 : nfirst 5 ((fi ++ mo) ++ c2) = fi ++ mo) by (apply nfirst_app_exact'; rewrite blen_app; lia).
  rewrite F5. rewrite !blen_length in *.
  assert (Lm' : length m = 4%nat) by lia. assert (Lv' : length v = 4%nat) by lia. assert (Lt : length t = 8%nat) by lia.
  assert (Lf' : length fi = 4%nat) by lia. assert (Lmo : length mo = 1%nat) by lia.
  assert (Dec : forall o', length o' = 8%nat -> dec_ihdr ((m ++ v ++ t) ++ o' ++ fi ++ mo) = mkIhdr m (unle v) (unle t) (unle o') (unle fi) (unle mo)).
  { intros o' Lo. unfold dec_ihdr, rd. rewrite <- !app_assoc.
    assert (F : forall k (x y : bytes), length x = k -> firstn k (x ++ y) = x /\ skipn k (x ++ y) = y).
    { intros k x y <-. rewrite firstn_app, skipn_app, firstn_all, skipn_all, Nat.sub_diag. cbn [firstn skipn app]. rewrite app_nil_r. auto. }
    destruct (F 4%nat m (v ++ t ++ o' ++ fi ++ mo) Lm') as [-> ->].
    destruct (F 4%nat v (t ++ o' ++ fi ++ mo) Lv') as [-> ->].
    destruct (F 8%nat t (o' ++ fi ++ mo) Lt) as [-> ->].
    destruct (F 8%nat o' (fi ++ mo) Lo) as [-> ->].
    destruct (F 4%nat fi mo Lf') as [-> ->].
    rewrite firstn_all2 by lia. reflexivity. }
  split; [|split].
  - unfold fread. rewrite nskip_0. rewrite !app_assoc. apply nfirst_app_exact'. rewrite !blen_length, !app_length. lia.
  - rewrite Dec by lia. unfold opened0, enc_ihdr. cbn [ih_magic ih_version ih_created ih_opened ih_fileid ih_mode].
    rewrite (le_of 4 v), (le_of 8 t), (le_of 4 fi), (le_of 1 mo) by lia. rewrite <- !app_assoc. reflexivity.
  - intros o' Lo. rewrite !Dec by (rewrite ?blen_length in *; lia). reflexivity.
Qed.

Lemma nfirst_len n (b : bytes) : blen (nfirst n b) = N.min n (blen b).
Proof. rewrite !blen_length, nfirst_firstn, firstn_length. lia. Qed.

Lemma head_torn a o c n : headed a o c -> exists o', blen o' = 8 /\
  fwrite (a ++ o ++ c) 0 (nfirst n (a ++ zeros 8 ++ nfirst 5 c)) = a ++ o' ++ c.
Proof.
  intros (A & O & C). destruct (split_at c 5 C) as (c1 & c2 & -> & Lc).
  rewrite (nfirst_app_exact' c1 c2) by lia.
  assert (Z : blen (zeros 8) = 8) by reflexivity.
  assert (W : forall x y z : bytes, blen x = blen y -> fwrite (x ++ z) 0 y = y ++ z).
  { intros x y z E. pose proof (fwrite_app [] x y z E) as F. exact F. }
  destruct (N.leb_spec n 16) as [L|L].
  - exists o. split; [exact O|]. rewrite nfirst_app1 by (rewrite <- blen_nlen; lia).
    destruct (split_at a n ltac:(lia)) as (a1 & a2 & -> & La). rewrite nfirst_app_exact' by lia. rewrite <- !app_assoc. apply W. reflexivity.
  - rewrite nfirst_app2 by (rewrite <- blen_nlen; lia). rewrite <- blen_nlen, A.
    destruct (N.leb_spec n 24) as [L2|L2].
    + destruct (split_at o (n - 16) ltac:(lia)) as (o1 & o2 & -> & Lo1). rewrite blen_app in O.
      exists (nfirst (n - 16) (zeros 8) ++ o2). split; [rewrite blen_app, nfirst_len, Z; lia|].
      rewrite nfirst_app1 by (rewrite <- blen_nlen, Z; lia).
      replace (a ++ (o1 ++ o2) ++ c1 ++ c2) with ((a ++ o1) ++ o2 ++ c1 ++ c2) by (rewrite <- !app_assoc; reflexivity).
      rewrite W by (rewrite !blen_app, nfirst_len, Z; lia). rewrite <- !app_assoc. reflexivity.
    + exists (zeros 8). split; [exact Z|]. rewrite nfirst_app2 by (rewrite <- blen_nlen, Z; lia). rewrite <- blen_nlen, Z.
      destruct (N.leb_spec (n - 16 - 8) 5) as [L3|L3].
      * destruct (split_at c1 (n - 16 - 8) ltac:(lia)) as (d1 & d2 & -> & Ld). rewrite nfirst_app_exact' by lia.
        replace (a ++ o ++ (d1 ++ d2) ++ c2) with ((a ++ o ++ d1) ++ d2 ++ c2) by (rewrite <- !app_assoc; reflexivity).
        rewrite W by (rewrite !blen_app, Z; lia). rewrite <- !app_assoc. reflexivity.
      * rewrite nfirst_all by (rewrite <- blen_nlen; lia).
        replace (a ++ o ++ c1 ++ c2) with ((a ++ o ++ c1) ++ c2) by (rewrite <- !app_assoc; reflexivity).
        rewrite W by (rewrite !blen_app, Z; lia). rewrite <- !app_assoc. reflexivity.
Qed.

Lemma head_whole a o c : headed a o c -> fwrite (a ++ o ++ c) 0 (a ++ zeros 8 ++ nfirst 5 c) = a ++ zeros 8 ++ c.
Proof.
  intros (A & O & C). destruct (split_at c 5 C) as (c1 & c2 & -> & Lc). rewrite (nfirst_app_exact' c1 c2) by lia.
  replace (a ++ o ++ c1 ++ c2) with ([] ++ (a ++ o ++ c1) ++ c2) by (rewrite <- !app_assoc; reflexivity).
  change 0 with (blen []). rewrite fwrite_app by (rewrite !blen_app, O; reflexivity). rewrite <- !app_assoc. reflexivity.
Qed.

(* the same file but for this time *)
Definition eqv (f f' : bytes) : Prop := exists a o o' c, headed a o c /\ blen o' = 8 /\ f = a ++ o ++ c /\ f' = a ++ o' ++ c.

Lemma eqv_len f f' : eqv f f' -> 29 <= blen f /\ blen f' = blen f.
Proof. intros (a & o & o' & c & H & O & -> & ->). split; [apply headed_len; exact H|]. destruct H as (? & ? & ?). rewrite !blen_app. lia. Qed.

(* ---- lists of files ---- *)

(* files m to P - 1 are the same but for this time, the others are the same *)
Definition rel (P m : N) (l l' : list bytes) : Prop :=
  nlen l' = nlen l /\
  forall i, if (m <=? i) && (i <? P) then exists f f', nget i l = Some f /\ nget i l' = Some f' /\ eqv f f'
            else nget i l' = nget i l.

Lemma nget_ext : forall l l' : list bytes, (forall i, nget i l' = nget i l) -> l' = l.
Proof.
  induction l as [|a l IH]; intros [|b l'] H; [reflexivity| | |].
  - specialize (H 0). discriminate H.
  - specialize (H 0). discriminate H.
  - pose proof (H 0) as H0. cbn [nget] in H0. change (0 =? 0) with true in H0. cbv iota in H0. injection H0 as ->. f_equal. apply IH. intros i.
    specialize (H (i + 1)). cbn [nget] in H. replace (i + 1 =? 0) with false in H by lia. replace (N.pred (i + 1)) with i in H by lia. exact H.
Qed.

Lemma rel_eq P m l l' : P <= m -> rel P m l l' -> l' = l.
Proof.
  intros L (_ & R). apply nget_ext. intros i. specialize (R i).
  replace ((m <=? i) && (i <? P)) with false in R; [exact R|]. destruct (N.leb_spec m i); destruct (N.ltb_spec i P); cbn; try reflexivity; lia.
Qed.

Lemma app_inj_len {A} (a b c d : list A) : a ++ b = c ++ d -> length a = length c -> a = c /\ b = d.
Proof.
  revert c. induction a as [|x a IH]; intros [|y c] E L; cbn [length app] in *; try discriminate; [auto|].
  injection E as -> E. destruct (IH c E ltac:(lia)) as (-> & ->). auto.
Qed.

(* a write which only changes this time *)
Definition harmless (P : N) (l0 : list bytes) (w : dwrite) : Prop :=
  match w with
  | MkI i => i < nlen l0
  | WrI i off b => off = 0 /\ i < P /\ exists a o c, nget i l0 = Some (a ++ o ++ c) /\ headed a o c /\ b = a ++ zeros 8 ++ nfirst 5 c
  | _ => False
  end.

Lemma eqv_open a o c f' : headed a o c -> eqv (a ++ o ++ c) f' -> exists o', blen o' = 8 /\ f' = a ++ o' ++ c.
Proof.
  intros (A & O & C) (a2 & o2 & o' & c2 & (A2 & O2 & C2) & O' & E & ->). exists o'. split; [exact O'|].
  apply app_inj_len in E; [|rewrite !blen_length in *; lia]. destruct E as (-> & E). apply app_inj_len in E; [|rewrite !blen_length in *; lia]. destruct E as (_ & ->). reflexivity.
Qed.

Lemma rel_write P l0 l i n a o c : P <= nlen l0 -> rel P 0 l0 l -> i < P -> nget i l0 = Some (a ++ o ++ c) -> headed a o c ->
  rel P 0 l0 (wrfile i 0 (nfirst n (a ++ zeros 8 ++ nfirst 5 c)) l).
Proof.
  intros LP (R1 & R2) Hi E H. split; [rewrite nlen_wr; exact R1|]. intros g. pose proof (R2 g) as Rg. pose proof (R2 i) as Ri.
  replace ((0 <=? i) && (i <? P)) with true in Ri by lia. destruct Ri as (f & f' & F & F' & Q). rewrite E in F. injection F as <-.
  rewrite nget_wr, F'. destruct (N.eqb_spec g i) as [->|]; [|exact Rg].
  replace ((0 <=? i) && (i <? P)) with true by lia. destruct (eqv_open _ _ _ _ H Q) as (o1 & O1 & ->).
  assert (H1 : headed a o1 c) by (destruct H as (? & ? & ?); repeat split; assumption).
  destruct (head_torn a o1 c n H1) as (o2 & O2 & W). rewrite W. exists (a ++ o ++ c), (a ++ o2 ++ c). split; [exact E|]. split; [reflexivity|].
  exists a, o, o2, c. auto.
Qed.

Lemma rel_apply P l0 W : P <= nlen l0 -> Forall (harmless P l0) W -> forall l dd j n, rel P 0 l0 l ->
  exists l', apply_writes (persisted W j n) (l, dd) = (l', dd) /\ rel P 0 l0 l'.
Proof.
  intros LP. induction 1 as [|w W H _ IH]; intros l dd j n R.
  - exists l. unfold persisted. rewrite firstn_nil. destruct j; (split; [reflexivity|exact R]).
  - destruct j as [|j].
    + unfold persisted. cbn [firstn app nth_error]. unfold torn. destruct (n =? 0); [exists l; split; [reflexivity|exact R]|].
      destruct w as [i|i|i off b|i off b]; cbn [harmless] in H; try contradiction; [exists l; split; [reflexivity|exact R]|].
      destruct H as (-> & Hi & a & o & c & E & Hd & ->). eexists. split; [reflexivity|]. cbn [fst]. eapply rel_write; eauto.
    + change (persisted (w :: W) (S j) n) with (w :: persisted W j n). rewrite apply_writes_cons.
      destruct w as [i|i|i off b|i off b]; cbn [harmless] in H; try contradiction; cbn [apply_write fst snd].
      * unfold mkfile. replace (i =? nlen l) with false by (destruct R as (R & _); lia). apply IH. exact R.
      * destruct H as (-> & Hi & a & o & c & E & Hd & ->). apply IH.
        rewrite <- (nfirst_all (nlen (a ++ zeros 8 ++ nfirst 5 c)) (a ++ zeros 8 ++ nfirst 5 c)) by lia. eapply rel_write; eauto.
Qed.

(* ---- loading the same files ---- *)

Definition same (s s' : est) : Prop := tb s = tb s' /\ ix s = ix s' /\ dt s = dt s'.

Definition good (P m : N) (l0 : list bytes) (s s' a a' : est) : Prop :=
  same a a' /\ rel P m (dk_i (dk a)) (dk_i (dk a')) /\ rel P 0 l0 (dk_i (dk a)) /\
  dk_d (dk a) = dk_d (dk s) /\ dk_d (dk a') = dk_d (dk s') /\
  exists W, dk_log (dk a) = dk_log (dk s) ++ W /\ Forall (harmless P l0) W /\
    apply_writes W (dk_i (dk s), dk_d (dk s)) = (dk_i (dk a), dk_d (dk a)).

Definition lrel (P m : N) (l0 : list bytes) (s s' : est) (r r' : lres) : Prop :=
  match r, r' with
  | LOk a, LOk a' => good P m l0 s s' a a' /\ x_indexid (ix a) + 1 = m
  | LDiscard a, LDiscard a' => good P P l0 s s' a a' /\ x_indexid (ix a) = P /\ P < nlen l0
  | LExit, LExit | LUb, LUb => True
  | _, _ => False
  end.

(* the index file which is open after the start *)
Definition last_of (P n : N) : N := if P <? n then P else P - 1.

Definition frel (P : N) (l0 : list bytes) (s s' : est) (r r' : lres) : Prop :=
  match r, r' with
  | LOk a, LOk a' | LDiscard a, LDiscard a' => good P P l0 s s' a a' /\ x_indexid (ix a) = last_of P (nlen l0)
  | LExit, LExit | LUb, LUb => True
  | _, _ => False
  end.

(* P index files have a whole header, and the next, if any, has none *)
Definition stops (P : N) (l : list bytes) : Prop :=
  0 < P /\ P <= nlen l /\ (forall i f, i < P -> nget i l = Some f -> 29 <= blen f) /\
  (forall f, nget P l = Some f -> blen f < 29).

Lemma fread_short f n : blen f <= n -> fread f 0 n = f.
Proof. intros H. unfold fread. rewrite nskip_0. apply nfirst_all. rewrite <- blen_nlen. exact H. Qed.

Lemma load_file_rel smode P l0 s s' : stops P l0 -> same s s' -> rel P (x_indexid (ix s)) (dk_i (dk s)) (dk_i (dk s')) ->
  rel P 0 l0 (dk_i (dk s)) -> x_indexid (ix s) <= P -> x_indexid (ix s) < nlen l0 ->
  lrel P (x_indexid (ix s) + 1) l0 s s' (index_load_file smode s) (index_load_file smode s').
Proof.
  intros (P0 & PL & PH & PE) (St & Sx & Sd) R R0 L L0. set (cur := x_indexid (ix s)) in *.
  pose proof (proj1 R0) as N0. pose proof (proj1 R) as N1.
  assert (M : forall l, nlen l = nlen l0 -> mkfile cur l = l) by (intros l E; unfold mkfile; replace (cur =? nlen l) with false by lia; reflexivity).
  unfold index_load_file. rewrite <- Sx. fold cur. cbv zeta. unfold ifile, do_write. cbn [apply_write fst snd dk_i dk_d dk_log dk_io].
  rewrite !M by lia. pose proof (proj2 R cur) as Rc. pose proof (proj2 R0 cur) as R0c.
  destruct (N.ltb_spec cur P) as [Lt|Ge].
  - replace ((cur <=? cur) && true) with true in Rc by lia. replace ((0 <=? cur) && true) with true in R0c by lia.
    destruct Rc as (f & f' & F & F' & Q). destruct R0c as (g & g' & G & G' & Q0). rewrite F in G'. injection G' as <-.
    destruct (eqv_len _ _ Q) as (Lf & Lf'). rewrite F, F'.
    destruct (headed_split f Lf) as (a & o & c & -> & Hd). destruct (eqv_open _ _ _ _ Hd Q) as (o' & O' & ->).
    assert (Hd' : headed a o' c) by (destruct Hd as (? & ? & ?); repeat split; assumption).
    destruct (head_bytes a o c Hd) as (B1 & B2 & B3). destruct (head_bytes a o' c Hd') as (B1' & B2' & B3').
    rewrite B1, B1'. assert (L29 : forall y, blen y = 8 -> blen (a ++ y ++ nfirst 5 c) = 29).
    { intros y Y. destruct Hd as (? & ? & ?). rewrite !blen_app, nfirst_len. lia. }
    rewrite !L29 by (exact O' || apply Hd). change (29 =? 29) with true. cbv iota.
    assert (Eh : forall st h, index_load_body smode st h false = index_load_body smode st (opened0 h) false) by reflexivity.
    rewrite (Eh _ (dec_ihdr (a ++ o' ++ _))), (Eh _ (dec_ihdr (a ++ o ++ _))), (B3 o' O').
    set (h := opened0 (dec_ihdr (a ++ o ++ nfirst 5 c))) in *.
    match goal with |- lrel _ _ _ _ _ (index_load_body _ ?s0 _ _) _ => pose proof (fun s1 H => load_body smode s0 h false s1 H) as LB end.
    unfold index_load_body in *. destruct (negb (bseqb _ _)); [exact I|]. destruct (negb (_ =? ZDB_IDXFILE_VERSION)); [exact I|]. cbv zeta in *.
    cbn [set_dk ix dk tb dt] in *. rewrite <- Sx, <- St, <- Sd. fold (opened0 h) in *. change (opened0 h) with h in *. rewrite B2 in *.
    set (x2 := index_rehash _) in *.
    assert (X2 : x_indexid x2 = cur).
    { unfold x2, index_rehash, index_seqid_push. destruct ((ih_mode h =? MODE_SEQ) || _); destruct (x_mode _ =? MODE_SEQ); cbn [x_set_mode x_seq];
      destruct (x_seq (ix s)) as [[|]|] eqn:ES; cbn [x_set_seq x_set_mode x_seq x_indexid]; rewrite ?ES; reflexivity. }
    rewrite X2 in *. destruct (negb (smode =? MODE_MIX) && negb (ih_mode h =? smode)); [exact I|].
    unfold ifile, do_write in *. cbn [apply_write fst snd dk_i dk_d dk_log dk_io] in *. rewrite !nget_wr, F, F', N.eqb_refl in *.
    rewrite !head_whole in * by assumption.
    destruct (index_load_loop _ _ _ _ _) as [[t3 x3]|]; [|exact I].
    destruct (LB _ eq_refl) as (LX & _). cbn [ix] in LX.
    cbn [lrel]. split; [|cbn [ix]; destruct LX as (_ & _ & LX2); rewrite LX2; reflexivity].
    unfold good, same. cbn [tb ix dt dk dk_i dk_d dk_log]. rewrite !app_assoc_reverse.
    split; [auto|]. split.
    { split; [rewrite !nlen_wr; exact N1|]. intros i. rewrite !nget_wr, F, F'. pose proof (proj2 R i) as Ri.
      destruct (N.eqb_spec i cur) as [->|Ne].
      - replace ((cur + 1 <=? cur) && (cur <? P)) with false by lia. rewrite !head_whole by assumption. reflexivity.
      - replace (cur + 1 <=? i) with (cur <=? i) by lia. exact Ri. }
    split.
    { assert (E0 : exists o0, blen o0 = 8 /\ g = a ++ o0 ++ c).
      { destruct Q0 as (a2 & o2 & o3 & c2 & H2 & O3 & -> & E2). pose proof Hd as (A & O & C). pose proof H2 as (A2 & O2 & C2).
        apply app_inj_len in E2; [|rewrite !blen_length in *; lia]. destruct E2 as (-> & E2). apply app_inj_len in E2; [|rewrite !blen_length in *; lia]. destruct E2 as (_ & ->).
        exists o2. auto. }
      destruct E0 as (o0 & O0 & ->).
      rewrite <- (nfirst_all (nlen (a ++ zeros 8 ++ nfirst 5 c)) (a ++ zeros 8 ++ nfirst 5 c)) by lia.
      apply (rel_write P l0 (dk_i (dk s)) cur _ a o0 c PL R0 Lt G). destruct Hd as (? & ? & ?). repeat split; assumption. }
    split; [reflexivity|]. split; [reflexivity|].
    eexists. split; [reflexivity|]. split; [|unfold apply_writes; cbn [app fold_left apply_write fst snd]; rewrite M by lia; reflexivity]. constructor; [exact L0|]. constructor; [|constructor].
    assert (E0 : exists o0, blen o0 = 8 /\ g = a ++ o0 ++ c).
    { destruct Q0 as (a2 & o2 & o3 & c2 & H2 & O3 & -> & E2). pose proof Hd as (A & O & C). pose proof H2 as (A2 & O2 & C2).
      apply app_inj_len in E2; [|rewrite !blen_length in *; lia]. destruct E2 as (-> & E2). apply app_inj_len in E2; [|rewrite !blen_length in *; lia]. destruct E2 as (_ & ->).
      exists o2. auto. }
    destruct E0 as (o0 & O0 & ->). cbn [harmless]. split; [reflexivity|]. split; [exact Lt|]. exists a, o0, c. split; [exact G|]. split; [|reflexivity].
    destruct Hd as (? & ? & ?). repeat split; assumption.
  - assert (cur = P) by lia. replace ((cur <=? cur) && false) with false in Rc by lia. replace ((0 <=? cur) && false) with false in R0c by lia.
    rewrite Rc, R0c. destruct (nget cur l0) as [f|] eqn:F; [|exact I]. pose proof (PE f ltac:(congruence)) as Lf.
    rewrite fread_short by lia. replace (blen f =? 29) with false by lia. destruct (0 <? blen f); [exact I|].
    replace (0 <? cur) with true by lia. cbn [lrel]. split; [|cbn [set_dk ix]; fold cur; lia]. unfold good, same. cbn [set_dk tb ix dt dk dk_i dk_d dk_log].
    split; [auto|]. split; [rewrite H in R; exact R|]. split; [exact R0|]. split; [reflexivity|]. split; [reflexivity|].
    eexists. split; [reflexivity|]. split; [constructor; [exact L0|constructor]|]. unfold apply_writes. cbn [app fold_left apply_write fst snd]. rewrite M by lia. reflexivity.
Qed.

Lemma load_files_rel smode P l0 : stops P l0 -> forall n fid s s', same s s' -> rel P fid (dk_i (dk s)) (dk_i (dk s')) ->
  rel P 0 l0 (dk_i (dk s)) -> fid + N.of_nat n = nlen l0 -> fid <= P -> (n = O -> x_indexid (ix s) + 1 = fid) ->
  frel P l0 s s' (index_load_files smode n fid s) (index_load_files smode n fid s').
Proof.
  intros HP. induction n as [|n IH]; intros fid s s' S R R0 E L X.
  - cbn [index_load_files frel]. unfold good. assert (P = fid) by (destruct HP as (_ & ? & _); lia). subst fid.
    split; [|specialize (X eq_refl); unfold last_of; destruct (N.ltb_spec P (nlen l0)); lia].
    split; [exact S|]. split; [exact R|]. split; [exact R0|]. split; [reflexivity|]. split; [reflexivity|].
    exists []. rewrite app_nil_r. split; [reflexivity|]. split; [constructor|reflexivity].
  - cbn [index_load_files]. pose proof S as (St & Sx & Sd).
    set (s0 := set_ix (index_set_id fid (ix s)) s). set (s0' := set_ix (index_set_id fid (ix s')) s').
    assert (S0 : same s0 s0') by (unfold same, s0, s0'; cbn [set_ix tb ix dt]; rewrite Sx; auto).
    assert (C0 : x_indexid (ix s0) = fid).
    { unfold s0. cbn [set_ix ix]. unfold index_set_id. destruct (dirty_resize_shape fid (x_set_indexid fid (ix s))) as (a & b & ->). reflexivity. }
    pose proof (load_file_rel smode P l0 s0 s0' HP S0) as F. rewrite C0 in F. specialize (F R R0 L ltac:(lia)).
    assert (G : forall m a a', good P m l0 s0 s0' a a' -> good P m l0 s s' a a') by (intros m a a' H; exact H).
    destruct (index_load_file smode s0) as [| |a|a|a] eqn:E1; destruct (index_load_file smode s0') as [| |a'|a'|a'] eqn:E1'; cbn [lrel] in F; try contradiction; try exact I.
    { destruct F as (F & F0 & F9). split; [exact (G _ _ _ F)|]. unfold last_of. replace (P <? nlen l0) with true by lia. exact F0. }
    destruct F as (F & F6).
    destruct (N.leb_spec (fid + 1) P) as [L1|L1].
    + destruct F as (F1 & F2 & F3 & F4 & F5 & W & F7 & F8 & F9). specialize (IH (fid + 1) a a' F1 F2 F3 ltac:(lia) L1 ltac:(intros _; exact F6)).
      change (dk_d (dk s0)) with (dk_d (dk s)) in F4. change (dk_d (dk s0')) with (dk_d (dk s')) in F5. change (dk_log (dk s0)) with (dk_log (dk s)) in F7.
      assert (T : forall b b', good P P l0 a a' b b' -> good P P l0 s s' b b').
      { intros b b' (H1 & H2 & H3 & H4 & H5 & V & H7 & H8 & H9). unfold good. split; [exact H1|]. split; [exact H2|]. split; [exact H3|].
        split; [congruence|]. split; [congruence|]. exists (W ++ V). split; [rewrite H7, F7, app_assoc; reflexivity|]. split; [apply Forall_app; auto|].
        change (dk_i (dk s0)) with (dk_i (dk s)) in F9. change (dk_d (dk s0)) with (dk_d (dk s)) in F9. rewrite apply_writes_app, F9. exact H9. }
      destruct (index_load_files smode n (fid + 1) a); destruct (index_load_files smode n (fid + 1) a'); cbn [frel] in *; try contradiction; try exact I; destruct IH as (IH & IH2); split; auto.
    + exfalso. assert (Q : fid = P) by lia.
      (* the file without header is not loaded *)
      destruct HP as (P0 & PL & PH & PE). rewrite <- Q in PE. unfold index_load_file in E1. rewrite C0 in E1. cbv zeta in E1. unfold ifile, do_write in E1. cbn [apply_write fst snd dk_i] in E1.
      unfold mkfile in E1. pose proof (proj1 R0) as N0. change (dk_i (dk s0)) with (dk_i (dk s)) in E1. replace (fid =? nlen (dk_i (dk s))) with false in E1 by lia.
      pose proof (proj2 R0 fid) as R0c. replace ((0 <=? fid) && (fid <? P)) with false in R0c by lia. rewrite R0c in E1.
      destruct (nget fid l0) as [f|]; [|discriminate]. pose proof (PE f eq_refl). rewrite fread_short in E1 by lia.
      replace (blen f =? 29) with false in E1 by lia. destruct (0 <? blen f); [discriminate|]. replace (0 <? fid) with true in E1 by lia. discriminate.
Qed.

Lemma stops_ex l f0 : nget 0 l = Some f0 -> 29 <= blen f0 -> exists P, stops P l.
Proof.
  intros E L. assert (G : forall l : list bytes, exists P, P <= nlen l /\ (forall i f, i < P -> nget i l = Some f -> 29 <= blen f) /\ (forall f, nget P l = Some f -> blen f < 29)).
  { clear. induction l as [|f l (P & A & B & C)].
    - exists 0. cbn [nlen]. split; [lia|]. split; intros; [lia|discriminate].
    - destruct (N.ltb_spec (blen f) 29) as [H|H].
      + exists 0. split; [lia|]. split; [intros; lia|]. intros g. cbn [nget]. change (0 =? 0) with true. cbv iota. intros X; injection X as <-. exact H.
      + exists (P + 1). cbn [nlen]. split; [lia|]. split.
        * intros i g Hi. cbn [nget]. destruct (N.eqb_spec i 0); [intros X; injection X as <-; exact H|]. apply B. lia.
        * intros g. cbn [nget]. replace (P + 1 =? 0) with false by lia. replace (N.pred (P + 1)) with P by lia. apply C. }
  destruct (G l) as (P & A & B & C). exists P. split; [|split; [exact A|split; [exact B|exact C]]].
  destruct (N.eqb_spec P 0) as [->|]; [|lia]. specialize (C f0 E). lia.
Qed.

Lemma rel_refl P l : stops P l -> rel P 0 l l.
Proof.
  intros (P0 & PL & PH & _). split; [reflexivity|]. intros i. destruct ((0 <=? i) && (i <? P)) eqn:E; [|reflexivity].
  destruct (nget i l) as [f|] eqn:F.
  - exists f, f. split; [reflexivity|]. split; [reflexivity|]. destruct (headed_split f) as (a & o & c & -> & H); [eapply PH; [|exact F]; lia|].
    exists a, o, o, c. split; [exact H|]. destruct H as (_ & H & _). auto.
  - exfalso. apply nget_None in F. lia.
Qed.

(* ---- the data file ---- *)

Lemma wr_again cur h n dd : wrfile cur 0 h (mkfile cur (wrfile cur 0 (nfirst n h) (mkfile cur dd))) = wrfile cur 0 h (mkfile cur dd).
Proof.
  assert (M : forall l, cur <> nlen l -> mkfile cur l = l) by (intros l H; unfold mkfile; destruct (N.eqb_spec cur (nlen l)); [contradiction|reflexivity]).
  set (d1 := mkfile cur dd). assert (N1 : cur <> nlen d1) by (unfold d1, mkfile; destruct (N.eqb_spec cur (nlen dd)); [rewrite nlen_app; cbn [nlen]; lia|assumption]).
  rewrite (M (wrfile _ _ _ _)) by (rewrite nlen_wr; exact N1). apply nget_ext. intros i. rewrite !nget_wr.
  destruct (nget cur d1) as [f|] eqn:F; [|reflexivity]. rewrite N.eqb_refl. destruct (i =? cur); [|reflexivity]. f_equal.
  unfold fwrite. rewrite !nfirst_0. replace (0 - blen f) with 0 by lia. cbn [zeros N.to_nat repeat app]. rewrite !N.add_0_l.
  match goal with |- zeros ?x ++ _ = _ => replace x with 0 by lia end. cbn [zeros N.to_nat repeat app]. f_equal.
  set (a := nfirst n h). set (b := nskip n h).
  replace (blen h) with (blen a + blen b) by (unfold a, b; rewrite <- blen_app, nfirst_nskip; reflexivity).
  rewrite nskip_app_more, nskip_nskip. reflexivity.
Qed.

(* ---- a start ---- *)

Definition dat (cur : N) (dd : list bytes) : list bytes := wrfile cur 0 (data_header cur) (mkfile cur dd).

(* d' is what interrupted starts can leave of d *)
Definition touched (d d' : disk) : Prop := exists P, stops P (dk_i d) /\ rel P 0 (dk_i d) (dk_i d') /\
  let cur := last_of P (nlen (dk_i d)) in dat cur (dk_d d') = dat cur (dk_d d).

Lemma touched_refl d f : nget 0 (dk_i d) = Some f -> 29 <= blen f -> touched d d.
Proof. intros F L. destruct (stops_ex _ _ F L) as (P & H). exists P. split; [exact H|]. split; [apply rel_refl; exact H|reflexivity]. Qed.

Definition like (s s' : est) : Prop := same s s' /\ dk_i (dk s') = dk_i (dk s) /\ dk_d (dk s') = dk_d (dk s).

Lemma nlen_of_nat {A} (l : list A) : N.of_nat (length l) = nlen l.
Proof. rewrite nlen_length. reflexivity. Qed.

Lemma rel_len P m l l' : rel P m l l' -> length l' = length l.
Proof. intros (E & _). rewrite !nlen_length in E. lia. Qed.

Lemma touched_open smode ns t d d' : touched d d' ->
  match store_open smode ns t d, store_open smode ns t d' with
  | Some s, Some s' => like s s'
  | None, None => True
  | _, _ => False
  end.
Proof.
  intros (P & HP & R & D). set (cur := last_of P (nlen (dk_i d))) in *. cbv zeta in D. unfold store_open, index_internal_load. cbv zeta. cbn [dk].
  rewrite (rel_len _ _ _ _ R), (proj1 R). pose proof HP as (P0 & PL & _). replace (0 <? nlen (dk_i d)) with true by lia.
  set (x0 := index_rehash (index_init_lazy smode ns)).
  set (s := set_ix (index_dirty_resize (nlen (dk_i d)) (ix (mkEst t x0 (mkData 0 0) d))) (mkEst t x0 (mkData 0 0) d)).
  set (s' := set_ix (index_dirty_resize (nlen (dk_i d)) (ix (mkEst t x0 (mkData 0 0) d'))) (mkEst t x0 (mkData 0 0) d')).
  assert (F : frel P (dk_i d) s s' (index_load_files smode (length (dk_i d)) 0 s) (index_load_files smode (length (dk_i d)) 0 s')).
  { apply load_files_rel; [exact HP|repeat split|exact R|apply rel_refl; exact HP|rewrite nlen_of_nat; lia|lia|].
    intros E. pose proof (nlen_of_nat (dk_i d)). lia. }
  assert (K : forall a a', good P P (dk_i d) s s' a a' -> x_indexid (ix a) = cur ->
    like (data_init (x_indexid (ix a)) (set_dk (do_write (MkI (x_indexid (ix a))) (dk a)) (set_ix (x_set_updated false (ix a)) a)))
         (data_init (x_indexid (ix a')) (set_dk (do_write (MkI (x_indexid (ix a'))) (dk a')) (set_ix (x_set_updated false (ix a')) a')))).
  { intros a a' ((H1 & H2 & H3) & H4 & H5 & H6 & H7 & _) X. rewrite <- H2, X. apply rel_eq in H4; [|lia].
    unfold like, same, data_init, data_initialize, data_open_final, dfile, do_write. cbn [apply_write fst snd dk_i dk_d dk_log set_dk set_ix set_dt tb ix dt dk].
    rewrite H1, H4, H6, H7. unfold dat in D. change (dk_d (dk s)) with (dk_d d). change (dk_d (dk s')) with (dk_d d'). rewrite D. repeat split. }
  destruct (index_load_files smode (length (dk_i d)) 0 s); destruct (index_load_files smode (length (dk_i d)) 0 s'); cbn [frel] in F; try contradiction; try exact I;
    destruct F as (F & X); exact (K _ _ F X).
Qed.

Lemma persisted_app W V j n : persisted (W ++ V) j n = if Nat.ltb j (length W) then persisted W j n else W ++ persisted V (j - length W) n.
Proof.
  unfold persisted. rewrite firstn_app. destruct (Nat.ltb_spec j (length W)) as [L|L].
  - rewrite nth_error_app1 by exact L. replace (j - length W)%nat with 0%nat by lia. cbn [firstn]. rewrite app_nil_r. reflexivity.
  - rewrite nth_error_app2 by exact L. rewrite firstn_all2 by exact L. rewrite app_assoc. reflexivity.
Qed.

Lemma persisted_all W n : persisted W (length W) n = W.
Proof. unfold persisted. rewrite firstn_all. replace (nth_error W (length W)) with (@None dwrite) by (symmetry; apply nth_error_None; lia). apply app_nil_r. Qed.

(* what a start that is interrupted at (j, n) leaves *)
Definition start_cut (smode ns : N) (t : table) (d : disk) (j : nat) (n : N) (s : est) : disk :=
  crash_disk d (persisted (new_writes d (dk s)) j n).

Lemma touched_trans d d1 d2 : touched d d1 -> touched d1 d2 -> touched d d2.
Proof.
  intros (P & HP & R & D) (Q & HQ & R2 & D2).
  assert (L : forall i f g, nget i (dk_i d) = Some f -> nget i (dk_i d1) = Some g -> blen g = blen f).
  { intros i f g F G. pose proof (proj2 R i) as Ri. destruct ((0 <=? i) && (i <? P)).
    - destruct Ri as (f2 & g2 & F2 & G2 & E). rewrite F in F2. rewrite G in G2. injection F2 as <-. injection G2 as <-. apply eqv_len in E. apply E.
    - rewrite F, G in Ri. injection Ri as ->. reflexivity. }
  assert (X : forall i f, nget i (dk_i d) = Some f -> exists g, nget i (dk_i d1) = Some g).
  { intros i f F. destruct (nget i (dk_i d1)) as [g|] eqn:G; [eauto|]. apply nget_None in G. rewrite (proj1 R) in G. apply nget_lt in F. lia. }
  assert (X' : forall i g, nget i (dk_i d1) = Some g -> exists f, nget i (dk_i d) = Some f).
  { intros i g G. destruct (nget i (dk_i d)) as [f|] eqn:F; [eauto|]. apply nget_None in F. apply nget_lt in G. rewrite (proj1 R) in G. lia. }
  assert (E : Q = P).
  { destruct HP as (P0 & PL & PH & PE). destruct HQ as (Q0 & QL & QH & QE). rewrite (proj1 R) in QL.
    destruct (N.lt_trichotomy Q P) as [H|[H|H]]; [exfalso|exact H|exfalso].
    - destruct (nget Q (dk_i d)) as [f|] eqn:F; [|apply nget_None in F; lia]. destruct (X _ _ F) as (g & G). pose proof (PH _ _ H F). pose proof (QE _ G). rewrite (L _ _ _ F G) in *. lia.
    - destruct (nget P (dk_i d1)) as [g|] eqn:G; [|apply nget_None in G; rewrite (proj1 R) in G; lia]. destruct (X' _ _ G) as (f & F). pose proof (PE _ F). pose proof (QH _ _ H G). rewrite (L _ _ _ F G) in *. lia. }
  subst Q. exists P. split; [exact HP|]. rewrite (proj1 R) in D2. split.
  - split; [rewrite (proj1 R2); apply R|]. intros i. pose proof (proj2 R i) as Ri. pose proof (proj2 R2 i) as Ri2.
    destruct ((0 <=? i) && (i <? P)); [|congruence]. destruct Ri as (f & g & F & G & E). destruct Ri2 as (g2 & h & G2 & H & E2).
    rewrite G in G2. injection G2 as <-. exists f, h. split; [exact F|]. split; [exact H|].
    destruct E as (a & o & o' & c & Hd & O' & -> & ->). assert (Hd' : headed a o' c) by (destruct Hd as (? & ? & ?); repeat split; assumption).
    destruct (eqv_open _ _ _ _ Hd' E2) as (o2 & O2 & ->). exists a, o, o2, c. auto.
  - cbv zeta in *. congruence.
Qed.

Lemma dat_mk cur dd : dat cur (mkfile cur dd) = dat cur dd.
Proof.
  unfold dat. f_equal. unfold mkfile at 2. destruct (N.eqb_spec cur (nlen dd)) as [E|E]; [|reflexivity].
  unfold mkfile. replace (cur =? nlen dd) with true by lia. rewrite nlen_app. cbn [nlen]. replace (cur =? nlen dd + N.succ 0) with false by lia. reflexivity.
Qed.

(* what a start writes *)
Lemma open_writes smode ns t d f s : nget 0 (dk_i d) = Some f -> 29 <= blen f -> store_open smode ns t d = Some s ->
  exists P W, let cur := last_of P (nlen (dk_i d)) in
    stops P (dk_i d) /\ Forall (harmless P (dk_i d)) W /\ new_writes d (dk s) = W ++ [MkD cur; WrD cur 0 (data_header cur)] /\
    apply_writes (new_writes d (dk s)) (dk_i d, dk_d d) = (dk_i (dk s), dk_d (dk s)).
Proof.
  intros F0 L0 O. destruct (stops_ex _ _ F0 L0) as (P & HP). pose proof HP as (P0 & PL & _).
  unfold store_open, index_internal_load in O. cbv zeta in O. cbn [dk] in O. replace (0 <? nlen (dk_i d)) with true in O by lia.
  set (x0 := index_rehash (index_init_lazy smode ns)) in *.
  set (s0 := set_ix (index_dirty_resize (nlen (dk_i d)) (ix (mkEst t x0 (mkData 0 0) d))) (mkEst t x0 (mkData 0 0) d)) in *.
  pose proof (rel_refl _ _ HP) as R.
  assert (F : frel P (dk_i d) s0 s0 (index_load_files smode (length (dk_i d)) 0 s0) (index_load_files smode (length (dk_i d)) 0 s0)).
  { apply load_files_rel; [exact HP|repeat split|exact R|exact R|rewrite nlen_of_nat; lia|lia|].
    intros E. pose proof (nlen_of_nat (dk_i d)). lia. }
  assert (K : exists a, good P P (dk_i d) s0 s0 a a /\ x_indexid (ix a) = last_of P (nlen (dk_i d)) /\
    s = data_init (x_indexid (ix a)) (set_dk (do_write (MkI (x_indexid (ix a))) (dk a)) (set_ix (x_set_updated false (ix a)) a))).
  { destruct (index_load_files smode (length (dk_i d)) 0 s0) as [| |a|a|a]; cbn [frel] in F; try contradiction; try discriminate; injection O as <-; destruct F as (F & X); exists a; auto. }
  destruct K as (a & (_ & _ & Ra & _ & _ & W & LW & HW & AW) & X & ->). rewrite X. set (cur := last_of P (nlen (dk_i d))) in *.
  assert (Lc : cur < nlen (dk_i d)) by (unfold cur, last_of; destruct (N.ltb_spec P (nlen (dk_i d))); lia).
  assert (NW : new_writes d (dk (data_init cur (set_dk (do_write (MkI cur) (dk a)) (set_ix (x_set_updated false (ix a)) a))))
    = (W ++ [MkI cur]) ++ [MkD cur; WrD cur 0 (data_header cur)]).
  { apply new_writes_eq. unfold data_init, data_initialize, do_write. cbn [dk_log set_dk set_ix set_dt dk]. rewrite LW. change (dk_log (dk s0)) with (dk_log d). rewrite <- !app_assoc. reflexivity. }
  exists P, (W ++ [MkI cur]). cbv zeta. fold cur. split; [exact HP|]. split; [apply Forall_app; split; [exact HW|constructor; [exact Lc|constructor]]|].
  split; [exact NW|]. rewrite NW, !apply_writes_app. change (dk_i (dk s0)) with (dk_i d) in AW. change (dk_d (dk s0)) with (dk_d d) in AW. rewrite AW. reflexivity.
Qed.

Lemma harmless_apply P l0 W : P <= nlen l0 -> Forall (harmless P l0) W -> forall dd, rel P 0 l0 l0 -> exists l', apply_writes W (l0, dd) = (l', dd) /\ rel P 0 l0 l'.
Proof. intros LP H dd R. rewrite <- (persisted_all W 0). apply rel_apply; assumption. Qed.

Lemma touched_cut smode ns t d f s j n : nget 0 (dk_i d) = Some f -> 29 <= blen f -> store_open smode ns t d = Some s ->
  touched d (crash_disk d (persisted (new_writes d (dk s)) j n)).
Proof.
  intros F0 L0 O. destruct (open_writes smode ns t d f s F0 L0 O) as (P & W & HP & HW & NW & _). set (cur := last_of P (nlen (dk_i d))) in *.
  pose proof (rel_refl _ _ HP) as R. pose proof HP as (P0 & PL & _).
  rewrite NW, persisted_app.
  exists P. split; [exact HP|]. unfold crash_disk. destruct (Nat.ltb_spec j (length W)) as [L|L].
  - destruct (rel_apply P (dk_i d) _ PL HW (dk_i d) (dk_d d) j n R) as (l' & E & R'). rewrite E. cbn [fst snd dk_i dk_d]. split; [exact R'|reflexivity].
  - rewrite apply_writes_app.
    destruct (harmless_apply P (dk_i d) _ PL HW (dk_d d) R) as (l' & E & R'). rewrite E.
    assert (T : exists dd, apply_writes (persisted [MkD cur; WrD cur 0 (data_header cur)] (j - length W) n) (l', dk_d d) = (l', dd) /\ dat cur dd = dat cur (dk_d d)).
    { set (jj := (j - length W)%nat). clearbody jj.
      assert (Z : forall m, dat cur (wrfile cur 0 (nfirst m (data_header cur)) (mkfile cur (dk_d d))) = dat cur (dk_d d)) by (intros m; apply wr_again).
      destruct jj as [|[|jj]]; unfold persisted; cbn [firstn nth_error app].
      - exists (dk_d d). unfold torn. destruct (n =? 0); (split; [reflexivity|reflexivity]).
      - unfold torn. destruct (n =? 0); eexists; (split; [reflexivity|]); cbn [apply_write fst snd]; [apply dat_mk|apply Z].
      - exists (dat cur (dk_d d)). destruct jj as [|jj]; cbn [firstn nth_error app]; (split; [reflexivity|]); unfold dat at 2;
        rewrite <- (nfirst_all (nlen (data_header cur)) (data_header cur)) at 1 by lia; apply Z. }
    destruct T as (dd & T1 & T2). rewrite T1. cbn [fst snd dk_i dk_d]. split; [exact R'|exact T2].
Qed.

Lemma open_cut_all smode ns t d f s : nget 0 (dk_i d) = Some f -> 29 <= blen f -> store_open smode ns t d = Some s ->
  let d' := crash_disk d (persisted (new_writes d (dk s)) (length (new_writes d (dk s))) 0) in dk_i (dk s) = dk_i d' /\ dk_d (dk s) = dk_d d'.
Proof.
  intros F0 L0 O. destruct (open_writes smode ns t d f s F0 L0 O) as (P & W & _ & _ & _ & A). cbv zeta. rewrite persisted_all. unfold crash_disk. rewrite A. auto.
Qed.

Lemma touched_done smode ns t d f s : nget 0 (dk_i d) = Some f -> 29 <= blen f -> store_open smode ns t d = Some s -> touched d (dk s).
Proof.
  intros F0 L0 O. destruct (touched_cut smode ns t d f s (length (new_writes d (dk s))) 0 F0 L0 O) as (P & A & B & C).
  destruct (open_cut_all smode ns t d f s F0 L0 O) as (E1 & E2). exists P. rewrite E1, E2. auto.
Qed.

(* ---- files as the model leaves them: nothing changes ---- *)

Definition canon (d : disk) : Prop :=
  0 < nlen (dk_i d) /\ nlen (dk_d d) = nlen (dk_i d) /\ dhdr_ok (dk_d d) /\
  forall i f, nget i (dk_i d) = Some f -> exists a c, headed a (zeros 8) c /\ f = a ++ zeros 8 ++ c.

Lemma wr_idle (i n : N) (b rest : bytes) (l : list bytes) : nget i l = Some (b ++ rest) -> wrfile i 0 (nfirst n b) l = l.
Proof.
  intros E. apply nget_ext. intros k. rewrite nget_wr, E. destruct (N.eqb_spec k i) as [->|]; [|reflexivity]. rewrite E. f_equal.
  rewrite <- (nfirst_nskip n b) at 1. rewrite <- app_assoc. change (nfirst n b ++ nskip n b ++ rest) with ([] ++ nfirst n b ++ nskip n b ++ rest).
  change 0 with (blen []). rewrite fwrite_app by reflexivity. cbn [app]. rewrite app_assoc, nfirst_nskip. reflexivity.
Qed.

Definition idle_write (fs : list bytes * list bytes) (w : dwrite) : Prop := apply_write w fs = fs /\ forall n, apply_writes (torn n w) fs = fs.

Lemma idle_apply fs W : Forall (idle_write fs) W -> forall j n, apply_writes (persisted W j n) fs = fs.
Proof.
  induction 1 as [|w W (H1 & H2) _ IH]; intros j n.
  - unfold persisted. rewrite firstn_nil. destruct j; reflexivity.
  - destruct j as [|j]; [apply H2|]. change (persisted (w :: W) (S j) n) with (w :: persisted W j n). rewrite apply_writes_cons, H1. apply IH.
Qed.

Lemma open_idle smode ns t d s : canon d -> store_open smode ns t d = Some s ->
  (forall j n, let d' := crash_disk d (persisted (new_writes d (dk s)) j n) in dk_i d' = dk_i d /\ dk_d d' = dk_d d) /\
  dk_i (dk s) = dk_i d /\ dk_d (dk s) = dk_d d.
Proof.
  intros (L0 & Ld & Hd & Hi) O.
  destruct (nget 0 (dk_i d)) as [f|] eqn:F0; [|apply nget_None in F0; lia]. destruct (Hi 0 f F0) as (a0 & c0 & Q0 & E0).
  assert (Lf : 29 <= blen f) by (rewrite E0; apply headed_len; exact Q0).
  destruct (open_writes smode ns t d f s F0 Lf O) as (P & W & HP & HW & NW & A). pose proof HP as (P0 & PL & PH & PE).
  assert (EP : P = nlen (dk_i d)).
  { destruct (nget P (dk_i d)) as [g|] eqn:G; [|apply nget_None in G; lia]. exfalso. destruct (Hi _ _ G) as (a & c & Q & ->). pose proof (headed_len _ _ _ Q). pose proof (PE _ eq_refl). lia. }
  set (cur := last_of P (nlen (dk_i d))) in *. assert (Lc : cur < nlen (dk_d d)) by (unfold cur, last_of; destruct (N.ltb_spec P (nlen (dk_i d))); lia).
  assert (Id : Forall (idle_write (dk_i d, dk_d d)) (new_writes d (dk s))).
  { rewrite NW. apply Forall_app. split.
    - eapply Forall_impl; [|exact HW]. intros w H. destruct w as [i|i|i off b|i off b]; cbn [harmless] in H; try contradiction.
      + split; [|intros n; unfold torn; destruct (n =? 0); reflexivity]. cbn [apply_write fst snd]. unfold mkfile. replace (i =? nlen (dk_i d)) with false by lia. reflexivity.
      + destruct H as (-> & Li & a & o & c & G & Q & ->).
        assert (Eo : o = zeros 8).
        { destruct (Hi _ _ G) as (a1 & c1 & Q1 & E1). destruct Q as (A1 & A2 & A3). destruct Q1 as (B1 & B2 & B3).
          apply app_inj_len in E1; [|rewrite !blen_length in *; lia]. destruct E1 as (_ & E1). apply app_inj_len in E1; [|rewrite !blen_length in *; lia]. apply E1. }
        subst o. destruct (split_at c 5 ltac:(apply Q)) as (c1 & c2 & -> & Lc1). rewrite (nfirst_app_exact' c1 c2) by lia.
        assert (Z : forall n, wrfile i 0 (nfirst n (a ++ zeros 8 ++ c1)) (dk_i d) = dk_i d).
        { intros n. apply (wr_idle i n _ c2). rewrite G, <- !app_assoc. reflexivity. }
        split; [|intros n; unfold torn; destruct (n =? 0); [reflexivity|]; unfold apply_writes; cbn [fold_left apply_write fst snd]; rewrite Z; reflexivity].
        cbn [apply_write fst snd]. rewrite <- (nfirst_all (nlen (a ++ zeros 8 ++ c1)) (a ++ zeros 8 ++ c1)) by lia. rewrite Z. reflexivity.
    - destruct (nget cur (dk_d d)) as [g|] eqn:G; [|apply nget_None in G; lia]. destruct (Hd _ _ G) as (rest & ->).
      constructor; [|constructor; [|constructor]].
      + split; [|intros n; unfold torn; destruct (n =? 0); reflexivity]. cbn [apply_write fst snd]. unfold mkfile. replace (cur =? nlen (dk_d d)) with false by lia. reflexivity.
      + assert (Z : forall n, wrfile cur 0 (nfirst n (data_header cur)) (dk_d d) = dk_d d) by (intros n; apply (wr_idle cur n _ rest); exact G).
        split; [|intros n; unfold torn; destruct (n =? 0); [reflexivity|]; unfold apply_writes; cbn [fold_left apply_write fst snd]; rewrite Z; reflexivity].
        cbn [apply_write fst snd]. rewrite <- (nfirst_all (nlen (data_header cur)) (data_header cur)) at 1 by lia. rewrite Z. reflexivity. }
  split.
  - intros j n. unfold crash_disk. rewrite (idle_apply _ _ Id). auto.
  - rewrite <- (persisted_all (new_writes d (dk s)) 0), (idle_apply _ _ Id) in A. injection A as <- <-. auto.
Qed.

Lemma open_io m ns t d s : store_open m ns t d = Some s -> dk_io (dk s) = dk_io d.
Proof.
  assert (Fs : forall n fid s s', lst (index_load_files m n fid s) = Some s' -> dk_io (dk s') = dk_io (dk s)).
  { induction n as [|n IH]; intros fid s1 s'; cbn [index_load_files]; [intros X; injection X as <-; reflexivity|].
    destruct (index_load_file m _) as [| |a|a|a] eqn:E; try discriminate; intros H.
    - injection H as <-. apply (load_file m (set_ix (index_set_id fid (ix s1)) s1)). rewrite E. reflexivity.
    - injection H as <-. apply (load_file m (set_ix (index_set_id fid (ix s1)) s1)). rewrite E. reflexivity.
    - rewrite (IH _ _ _ H). apply (load_file m (set_ix (index_set_id fid (ix s1)) s1)). rewrite E. reflexivity. }
  unfold store_open. cbv zeta. destruct (index_internal_load m _) as [| |a|a|a] eqn:E; try discriminate; intros X; injection X as <-; unfold data_init, data_initialize, do_write; cbn [set_dt set_dk set_ix dk dk_io];
    unfold index_internal_load in E; cbv zeta in E; cbn [dk] in E; destruct (0 <? nlen (dk_i d));
    match type of E with
    | index_load_files ?a ?n ?f ?s0 = _ => exact (Fs n f s0 _ (f_equal lst E))
    | index_load_file ?a ?s0 = _ => pose proof (load_file a s0 _ (f_equal lst E)) as (_ & _ & Q & _); exact Q
    end.
Qed.
