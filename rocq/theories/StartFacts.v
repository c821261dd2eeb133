(* PROOFS.  Starts of the server which are interrupted and repeated. *)
From Coq Require Import Strings.String Strings.Byte List NArith ZArith Bool Lia ZifyBool ZifyN ZifyNat Sorting.Permutation.
From Verif Require Import Bytes BytesFacts Layout LayoutFacts Store Text Commands SpecKV Machine CrashModel CrashPre DataFacts DirtyFacts CrashFacts
  Ghost Namespace Server SpecServer SrvInv AuthFacts SrvRun UserInv SeqInv SeqRun ServerCrash SpecStart StartCut.
Import ListNotations.
Open Scope N_scope.
Local Notation length := List.length.

(* ---- the files of a new namespace ---- *)

Definition mode_ok (m : N) : Prop := m = MODE_KV \/ m = MODE_SEQ \/ m = MODE_MIX.

Definition born (m : N) : bytes := index_header 0 (if m =? MODE_MIX then MODE_KV else m).

Lemma born_open m ns t lg io : mode_ok m ->
  match store_open m ns t empty_disk, store_open m ns t (mkDisk [] [] lg io), store_open m ns t (mkDisk [[]] [] lg io), store_open m ns t (mkDisk [born m] [] lg io) with
  | Some s, Some s1, Some s2, Some s3 => like s s1 /\ like s s2 /\ like s s3 /\
     dk_log (dk s1) = (((((lg ++ [MkI 0]) ++ [WrI 0 0 (born m)]) ++ [WrI 0 0 (born m)]) ++ [MkI 0]) ++ [MkD 0]) ++ [WrD 0 0 (data_header 0)] /\
     dk_log (dk s2) = (((((lg ++ [MkI 0]) ++ [WrI 0 0 (born m)]) ++ [WrI 0 0 (born m)]) ++ [MkI 0]) ++ [MkD 0]) ++ [WrD 0 0 (data_header 0)]
  | _, _, _, _ => False
  end.
Proof. intros [->|[->| ->]]; vm_compute; repeat split. Qed.

Lemma like_sym s s' : like s s' -> like s' s.
Proof. intros ((A & B & C) & D & E). repeat split; congruence. Qed.

Lemma like_trans a b c : like a b -> like b c -> like a c.
Proof. intros ((A & B & C) & D & E) ((A' & B' & C') & D' & E'). repeat split; congruence. Qed.

(* d' is what interrupted starts can leave of the files d *)
Definition left_of (m : N) (d d' : disk) : Prop :=
  (unborn d /\ (unborn d' \/ exists lg io, touched (mkDisk [born m] [] lg io) d')) \/ touched d d'.

Definition same_open (o o' : option est) : Prop :=
  match o, o' with Some s, Some s' => like s s' | None, None => True | _, _ => False end.

Lemma left_open m ns t d d' : mode_ok m -> left_of m d d' -> same_open (store_open m ns t d) (store_open m ns t d').
Proof.
  intros M L. assert (U : forall e, unborn e -> exists s s1, store_open m ns t empty_disk = Some s /\ store_open m ns t e = Some s1 /\ like s s1).
  { intros [ei ed lg io] (E1 & E2). cbn [dk_i dk_d] in E1, E2. subst ed. pose proof (born_open m ns t lg io M) as B.
    destruct (store_open m ns t empty_disk) as [s|]; [|contradiction]. destruct (store_open m ns t (mkDisk [] [] lg io)) as [s1|] eqn:O1; [|contradiction].
    destruct (store_open m ns t (mkDisk [[]] [] lg io)) as [s2|] eqn:O2; [|contradiction]. destruct (store_open m ns t (mkDisk [born m] [] lg io)); [|contradiction].
    destruct B as (B1 & B2 & _). destruct E2 as [->| ->]; [exists s, s1|exists s, s2]; auto. }
  destruct L as [(Ud & [Ud'|(lg & io & T)])|T].
  - destruct (U d Ud) as (s & s1 & O & O1 & K1). destruct (U d' Ud') as (s' & s2 & O' & O2 & K2). rewrite O in O'. injection O' as <-.
    rewrite O1, O2. cbn [same_open]. exact (like_trans _ _ _ (like_sym _ _ K1) K2).
  - destruct (U d Ud) as (s & s1 & O & O1 & K1). pose proof (touched_open m ns t _ _ T) as K. pose proof (born_open m ns t lg io M) as B.
    rewrite O in B. destruct (store_open m ns t (mkDisk [] [] lg io)) as [s1'|]; [|contradiction]. destruct (store_open m ns t (mkDisk [[]] [] lg io)) as [s2'|]; [|contradiction].
    destruct (store_open m ns t (mkDisk [born m] [] lg io)) as [s3|]; [|contradiction]. destruct B as (_ & _ & B & _).
    destruct (store_open m ns t d') as [s'|]; [|contradiction]. rewrite O1. cbn [same_open].
    exact (like_trans _ _ _ (like_sym _ _ K1) (like_trans _ _ _ B K)).
  - pose proof (touched_open m ns t _ _ T) as K. unfold same_open. destruct (store_open m ns t d); destruct (store_open m ns t d'); auto.
Qed.

Lemma unborn_short d f : unborn d -> nget 0 (dk_i d) = Some f -> 29 <= blen f -> False.
Proof. intros (_ & [E|E]) F L; rewrite E in F; [discriminate F|]. injection F as <-. cbn in L. lia. Qed.

Lemma touched_headed d d' : touched d d' -> headed_index d /\ headed_index d'.
Proof.
  intros (P & (P0 & PL & _) & R & _). pose proof (proj2 R 0) as R0. replace ((0 <=? 0) && (0 <? P)) with true in R0 by lia.
  destruct R0 as (f & f' & F & F' & E). apply eqv_len in E. destruct E as (E1 & E2). split; [exists f|exists f']; (split; [assumption|lia]).
Qed.

Lemma blen_born m : blen (born m) = 29.
Proof. unfold born. apply blen_index_header. Qed.

Lemma touched_born m d : dk_i d = [born m] -> dat 0 (dk_d d) = dat 0 [] -> touched (mkDisk [born m] [] [] []) d.
Proof.
  intros E D. pose proof (blen_born m) as L.
  assert (S : stops 1 [born m]).
  { split; [lia|]. split; [cbn [nlen]; lia|]. split.
    - intros i f Hi F. replace i with 0 in F by lia. injection F as <-. lia.
    - intros f F. discriminate F. }
  exists 1. cbn [dk_i dk_d]. split; [exact S|]. split; [rewrite E; apply rel_refl; exact S|exact D].
Qed.

Lemma unborn_cut m ns t d s j n : mode_ok m -> unborn d -> store_open m ns t d = Some s ->
  let d' := crash_disk d (persisted (new_writes d (dk s)) j n) in
  unborn d' \/ headed_index d' -> unborn d' \/ touched (mkDisk [born m] [] [] []) d'.
Proof.
  intros M U O. destruct d as [di dd lg io]. destruct U as (U1 & U2). cbn [dk_i dk_d] in U1, U2. subst dd.
  pose proof (born_open m ns t lg io M) as B.
  destruct (store_open m ns t empty_disk) as [s0|]; [|contradiction]. destruct (store_open m ns t (mkDisk [] [] lg io)) as [s1|] eqn:O1; [|contradiction].
  destruct (store_open m ns t (mkDisk [[]] [] lg io)) as [s2|] eqn:O2; [|contradiction]. destruct (store_open m ns t (mkDisk [born m] [] lg io)); [|contradiction].
  destruct B as (_ & _ & _ & B1 & B2).
  assert (W : new_writes (mkDisk di [] lg io) (dk s) = [MkI 0; WrI 0 0 (born m); WrI 0 0 (born m); MkI 0; MkD 0; WrD 0 0 (data_header 0)]).
  { apply new_writes_eq. cbn [dk_log]. destruct U2 as [->| ->]; [rewrite O1 in O; injection O as <-; rewrite B1|rewrite O2 in O; injection O as <-; rewrite B2]; rewrite <- !app_assoc; reflexivity. }
  rewrite W. clear W B1 B2 O1 O2 O. cbv zeta. set (b := born m). assert (Lb : blen b = 29) by apply blen_born.
  assert (W0 : forall k, fwrite b 0 (nfirst k b) = b).
  { intros k. rewrite <- (nfirst_nskip k b) at 1. change (nfirst k b ++ nskip k b) with ([] ++ nfirst k b ++ nskip k b). change 0 with (blen []).
    rewrite fwrite_app by reflexivity. apply nfirst_nskip. }
  assert (F0 : forall x, fwrite [] 0 x = x).
  { intros x. unfold fwrite. rewrite nfirst_0. change (blen []) with 0. cbn [N.sub zeros N.to_nat repeat app]. rewrite nskip_skipn, skipn_nil. apply app_nil_r. }
  assert (Wb : fwrite b 0 b = b) by (rewrite <- (nfirst_all (nlen b) b) at 2 by lia; apply W0).
  assert (M0 : mkfile 0 di = [[]]) by (destruct U2 as [->| ->]; reflexivity).
  set (fs0 := (di, [] : list bytes)).
  assert (A1 : apply_write (MkI 0) fs0 = ([[]], [])) by (unfold fs0; cbn [apply_write fst snd]; rewrite M0; reflexivity).
  assert (A2 : apply_write (WrI 0 0 b) ([[]], []) = ([b], [])) by (cbn [apply_write fst snd]; unfold wrfile; cbn [nget nset N.eqb]; rewrite F0; reflexivity).
  assert (A3 : forall x, apply_write (WrI 0 0 b) ([b], x) = ([b], x)) by (intros x; cbn [apply_write fst snd]; unfold wrfile; cbn [nget nset N.eqb]; rewrite Wb; reflexivity).
  assert (A4 : forall x, apply_write (MkI 0) ([b], x) = ([b], x)) by reflexivity.
  assert (A5 : apply_write (MkD 0) ([b], []) = ([b], [[]])) by reflexivity.
  assert (A6 : forall x, apply_write (WrD 0 0 x) ([b], [[]]) = ([b], [x])) by (intros x; cbn [apply_write fst snd]; unfold wrfile; cbn [nget nset N.eqb]; rewrite F0; reflexivity).
  assert (Un : forall lg io, unborn (mkDisk di [] lg io)) by (intros; split; [reflexivity|exact U2]).
  assert (Tb : forall x, dat 0 x = dat 0 [] -> touched (mkDisk [b] [] [] []) (mkDisk [b] x [] [])) by (intros x E; apply touched_born; [reflexivity|exact E]).
  assert (D1 : dat 0 [[]] = dat 0 []) by reflexivity.
  assert (D2 : forall k, dat 0 [nfirst k (data_header 0)] = dat 0 []).
  { intros k. pose proof (wr_again 0 (data_header 0) k []) as X. unfold dat. rewrite <- X. f_equal. f_equal. unfold wrfile, mkfile. cbn [nlen N.eqb app nget nset]. rewrite F0. reflexivity. }
  clearbody b. unfold crash_disk. cbn [dk_i dk_d]. fold fs0. unfold persisted.
  destruct j as [|[|[|[|[|[|j]]]]]]; cbn [firstn nth_error app]; rewrite ?apply_writes_cons; rewrite ?A1, ?A2, ?A3, ?A4, ?A5, ?A6.
  - unfold torn. destruct (n =? 0); intros _; left; apply Un.
  - unfold torn. destruct (N.eqb_spec n 0); cbn [apply_writes fold_left].
    + intros _. left. split; [reflexivity|right; reflexivity].
    + cbn [apply_write fst snd]. unfold wrfile. cbn [nget nset N.eqb fst snd]. rewrite F0. intros [(_ & [H|H])|(f & F & L)]; cbn [dk_i] in *.
      * discriminate H.
      * exfalso. injection H as H. pose proof (nfirst_len n b) as X. rewrite H, Lb in X. cbn in X. lia.
      * right. injection F as <-. rewrite nfirst_len, Lb in L. rewrite nfirst_all by (rewrite <- blen_nlen, Lb; lia). apply Tb. reflexivity.
  - intros _. right. unfold torn. destruct (n =? 0); cbn [apply_writes fold_left fst snd]; [apply Tb; reflexivity|].
    cbn [apply_write fst snd]. unfold wrfile. cbn [nget nset N.eqb fst snd]. rewrite W0. apply Tb. reflexivity.
  - intros _. right. unfold torn. destruct (n =? 0); cbn [apply_writes fold_left fst snd]; apply Tb; reflexivity.
  - intros _. right. unfold torn. destruct (n =? 0); cbn [apply_writes fold_left fst snd]; apply Tb; reflexivity.
  - intros _. right. unfold torn. destruct (n =? 0); cbn [apply_writes fold_left fst snd]; [apply Tb; exact D1|]. rewrite A6. cbn [fst snd]. apply Tb. apply D2.
  - intros _. right. replace (apply_writes _ _) with ([b], [data_header 0]).
    + cbn [fst snd]. apply Tb. rewrite <- (nfirst_all (nlen (data_header 0)) (data_header 0)) by lia. apply D2.
    + destruct j as [|j]; cbn [firstn nth_error app]; reflexivity.
Qed.

Lemma unborn_done m ns t d s : mode_ok m -> unborn d -> store_open m ns t d = Some s -> touched (mkDisk [born m] [] [] []) (dk s).
Proof.
  intros M U O. pose proof (born_open m ns t [] [] M) as B. pose proof (left_open m ns t d empty_disk M) as K.
  rewrite O in K. specialize (K (or_introl (conj U (or_introl (conj eq_refl (or_introl eq_refl)))))).
  destruct (store_open m ns t empty_disk) as [s0|]; [|contradiction]. cbn [same_open] in K.
  destruct (store_open m ns t (mkDisk [] [] [] [])) as [s1|]; [|contradiction]. destruct (store_open m ns t (mkDisk [[]] [] [] [])) as [s2|]; [|contradiction].
  destruct (store_open m ns t (mkDisk [born m] [] [] [])) as [s3|] eqn:O3; [|contradiction]. destruct B as (_ & _ & B & _).
  assert (T : touched (mkDisk [born m] [] [] []) (dk s3)) by (eapply touched_done; [reflexivity|rewrite blen_born; lia|exact O3]).
  destruct (like_trans _ _ _ K B) as (_ & E1 & E2). destruct T as (P & H & R & D). exists P. rewrite <- E1, <- E2. auto.
Qed.

Lemma left_step m ns t d d1 d2 s : mode_ok m -> left_of m d d1 -> (unborn d1 \/ headed_index d1) -> store_open m ns t d1 = Some s ->
  (d2 = dk s \/ exists j n, d2 = crash_disk d1 (persisted (new_writes d1 (dk s)) j n)) -> (unborn d2 \/ headed_index d2) -> left_of m d d2.
Proof.
  intros M L H1 O E H2.
  assert (Ux : unborn d1 -> unborn d2 \/ touched (mkDisk [born m] [] [] []) d2).
  { intros U. destruct E as [->|(j & n & ->)]; [right; eapply unborn_done; eauto|]. eapply unborn_cut; eauto. }
  assert (Tx : forall f, nget 0 (dk_i d1) = Some f -> 29 <= blen f -> touched d1 d2).
  { intros f F Lf. destruct E as [->|(j & n & ->)]; [eapply touched_done; eauto|eapply touched_cut; eauto]. }
  destruct L as [(U & [U1|(lg & io & T)])|T].
  - left. split; [exact U|]. destruct (Ux U1) as [X|X]; [left; exact X|right; eauto].
  - left. split; [exact U|]. right. exists lg, io. destruct (touched_headed _ _ T) as (_ & f & F & Lf). exact (touched_trans _ _ _ T (Tx f F Lf)).
  - right. destruct (touched_headed _ _ T) as (_ & f & F & Lf). exact (touched_trans _ _ _ T (Tx f F Lf)).
Qed.

(* ---- lists of namespaces ---- *)

Definition left_ns (m : N) (x x' : stored) : Prop :=
  fst (fst x') = fst (fst x) /\ descriptor_load (fst (fst x)) (snd (fst x')) = descriptor_load (fst (fst x)) (snd (fst x)) /\ left_of m (snd x) (snd x').

Lemma whole_files x : whole x -> unborn (snd x) \/ headed_index (snd x).
Proof. destruct x as [[name desc] d]. cbn [whole snd]. intros [(_ & _ & H)|(_ & H)]; auto. Qed.

Lemma left_refl m x : whole x -> left_ns m x x.
Proof.
  intros H. split; [reflexivity|]. split; [reflexivity|]. destruct (whole_files x H) as [U|(f & F & L)]; [left; auto|right; eapply touched_refl; eauto].
Qed.

Lemma again_loads name desc d c desc' : whole (name, desc, d) -> descriptor_load name desc = Some (c, desc') ->
  descriptor_load name desc' = Some (c, desc').
Proof.
  cbn [whole]. intros [(-> & Hn & _)|(L & _)] E.
  - destruct (load_first name Hn) as (f & A & B & _). rewrite A in E. injection E as <- <-. exact B.
  - unfold descriptor_load in *. replace (blen (fread desc 0 15) =? 15) with true in E.
    + cbn [negb] in E. destruct (negb (nh_version _ =? _)) eqn:V; [discriminate|]. cbv zeta in E. injection E as <- <-.
      replace (blen (fread desc 0 15) =? 15) with true; [cbn [negb]; rewrite V; reflexivity|].
      unfold fread. rewrite nskip_0, nfirst_len. lia.
    + unfold fread. rewrite nskip_0, nfirst_len. lia.
Qed.

Lemma start_lists m : mode_ok m -> forall i t l1 l2, start_left m i t l1 l2 -> Forall whole l1 -> Forall whole l2 ->
  forall l, Forall2 (left_ns m) l l1 -> Forall2 (left_ns m) l l2.
Proof.
  intros M. induction 1 as [i t l|i t name desc d rest rest' D S IH|i t name desc d t1 r rest rest' D S IH|i t name desc d t1 r j n rest D]; intros W1 W2 l0 F.
  - exact F.
  - inversion F; subst. inversion W1; subst. inversion W2; subst. constructor; auto.
  - inversion F as [|x y l0' l1' (A & B & C) F']; subst. inversion W1 as [|? ? Wx Wl]; subst. inversion W2 as [|? ? Wx2 Wl2]; subst. constructor; [|auto].
    unfold namespace_load in D. destruct (descriptor_load name desc) as [[c desc']|] eqn:De; [|discriminate]. destruct (store_open m i t d) as [s|] eqn:O; [|discriminate]. injection D as <- <-. cbn [r_desc r_dk] in *.
    cbn [fst snd] in *. split; [exact A|]. split.
    + pose proof (again_loads _ _ _ _ _ Wx De) as G. cbn [fst snd]. rewrite <- A in *. congruence.
    + eapply left_step; [exact M|exact C|exact (whole_files _ Wx)|exact O|left; reflexivity|exact (whole_files _ Wx2)].
  - inversion F as [|x y l0' l1' (A & B & C) F']; subst. inversion W1 as [|? ? Wx Wl]; subst. inversion W2 as [|? ? Wx2 Wl2]; subst. constructor; [|auto].
    unfold namespace_load in D. destruct (descriptor_load name desc) as [[c desc']|] eqn:De; [|discriminate]. destruct (store_open m i t d) as [s|] eqn:O; [|discriminate]. injection D as <- <-. cbn [r_desc r_dk] in *.
    cbn [fst snd] in *. split; [exact A|]. split.
    + pose proof (again_loads _ _ _ _ _ Wx De) as G. cbn [fst snd]. rewrite <- A in *. congruence.
    + eapply left_step; [exact M|exact C|exact (whole_files _ Wx)|exact O|right; exists j, n; reflexivity|exact (whole_files _ Wx2)].
Qed.

Lemma cut_lists g : mode_ok (g_mode (v_set g)) -> forall l1 l2, starts_cut g l1 l2 -> Forall whole l1 ->
  forall l, Forall2 (left_ns (g_mode (v_set g))) l l1 -> Forall2 (left_ns (g_mode (v_set g))) l l2.
Proof.
  intros M. induction 1 as [l|l l1 l2 S W1 C IH]; intros W l0 F; [exact F|]. apply IH; [exact W1|]. eapply start_lists; eauto.
Qed.

Lemma load_lists m : mode_ok m -> forall l l', Forall2 (left_ns m) l l' -> forall i t,
  match load_all m i l t, load_all m i l' t with
  | Some (t1, rs), Some (t2, rs') => t2 = t1 /\ Forall2 same_ns rs rs'
  | None, None => True
  | _, _ => False
  end.
Proof.
  intros M. induction 1 as [|[[name desc] d] [[name' desc'] d'] l l' (A & B & C) _ IH]; intros i t; cbn [load_all].
  - split; [reflexivity|constructor].
  - cbn [fst snd] in A, B, C. subst name'. rewrite B. destruct (descriptor_load name desc) as [[c f]|] eqn:De; [|apply IH].
    unfold namespace_load. rewrite B, De. pose proof (left_open m i t d d' M C) as K.
    destruct (store_open m i t d) as [s|]; destruct (store_open m i t d') as [s'|]; cbn [same_open] in K; try contradiction; [|exact I].
    destruct K as ((K1 & K2 & K3) & K4 & K5). rewrite <- K1. specialize (IH (i + 1) (tb s)).
    destruct (load_all m (i + 1) l (tb s)) as [[t1 rs]|]; destruct (load_all m (i + 1) l' (tb s)) as [[t2 rs']|]; try contradiction; [|exact I].
    destruct IH as (IH1 & IH2). split; [exact IH1|]. constructor; [|exact IH2]. cbn [same_ns r_cfg r_desc r_ix r_dt r_dk]. repeat split; congruence.
Qed.

Lemma starts_same g l l' : server_ok g -> Forall whole l -> starts_cut g l l' -> same_start (boot g l) (boot g l').
Proof.
  intros (M & _) W C. change (mode_ok (g_mode (v_set g))) in M.
  assert (F : Forall2 (left_ns (g_mode (v_set g))) l l').
  { eapply cut_lists; [exact M|exact C|exact W|]. clear - W. induction W as [|x l H _ IH]; constructor; [apply left_refl; exact H|exact IH]. }
  pose proof (load_lists _ M _ _ F 0 empty_table) as K. unfold boot. destruct F as [|[[name desc] d] [[name' desc'] d'] l l' (A & B & _) F']; [exact I|].
  cbn [fst snd] in A, B. subst name'. rewrite B. destruct (descriptor_load name desc) as [[c f]|]; [|exact I].
  destruct (load_all _ 0 _ empty_table) as [[t1 rs]|]; destruct (load_all _ 0 (_ :: l') empty_table) as [[t2 rs']|]; try contradiction; [|exact I].
  destruct K as (-> & K). cbn [same_start]. split; [reflexivity|]. cbn [w_slots w_eff w_clients]. split; [exact K|]. split; [|reflexivity].
  clear - K. induction K; cbn [nlen]; congruence.
Qed.

(* ---- a server which has run ---- *)

Lemma holds_log g i t x d a b lg lg' io y : holds g i (mkEst t x d (mkDisk a b lg io)) y -> holds g i (mkEst t x d (mkDisk a b lg' io)) y.
Proof.
  unfold holds. destruct (d_content y).
  - intros (A & gi & H & U & C). split; [exact A|]. exists gi, H. split; [|exact C]. destruct U. constructor; auto.
  - intros (A & gi & H & U & C). split; [exact A|]. exists gi, H. destruct U as (mm & U & K). split; [|exact C]. exists mm. split; [|exact K]. destruct U; constructor; auto.
Qed.

Lemma holds_head g i s y : holds g i s y -> dk_io (dk s) = [] /\ headed_index (dk s).
Proof.
  assert (X : forall m gi, 0 < nlen gi -> dk_i (dk s) = enc_ifs m 0 gi -> headed_index (dk s)).
  { intros m [|l gi] L E; [cbn [nlen] in L; lia|]. exists (enc_if m 0 l). rewrite E. split; [reflexivity|]. unfold enc_if. rewrite blen_app, blen_index_header. lia. }
  unfold holds. destruct (d_content y).
  - intros (_ & gi & H & U & _). split; [apply U|]. apply (X MODE_KV gi); [pose proof (ui_id _ _ _ _ U); lia|apply U].
  - intros (_ & gi & H & (mm & U & _) & _). split; [apply U|]. apply (X MODE_SEQ gi); [pose proof (si_id _ _ _ _ _ U); lia|apply U].
Qed.

Lemma fwrite_blen f off b : off + blen b <= blen (fwrite f off b).
Proof.
  assert (Z : forall k, blen (zeros k) = k) by (intros k; rewrite blen_length; unfold zeros; rewrite repeat_length; lia).
  unfold fwrite. rewrite !blen_app, nfirst_len, Z. lia.
Qed.

Lemma load_same_long name desc c : descriptor_load name desc = Some (c, desc) -> 15 <= blen desc.
Proof.
  intros E. destruct (N.leb_spec 15 (blen desc)) as [L|L]; [exact L|exfalso]. unfold descriptor_load in E. rewrite fread_short in E by lia.
  replace (blen desc =? 15) with false in E by lia. cbn [negb] in E. injection E as _ E.
  unfold descriptor_update in E. cbn [n_pass default_cfg] in E. apply (f_equal blen) in E.
  pose proof (fwrite_blen (fwrite desc (blen desc) (enc_nshdr (descriptor_header (default_cfg name)))) (blen desc + 15) (nfirst (nh_namelen (descriptor_header (default_cfg name))) (n_name (default_cfg name)))) as X. lia.
Qed.

Lemma reached_whole g w D : SrvInv g w D -> Forall (fun x => whole x /\ dk_io (snd x) = []) (stored_of w).
Proof.
  intros V. apply Forall_forall. intros x I. apply stored_in in I. destruct I as (i & r & S & ->).
  destruct (sv_live _ _ _ V i r S) as (y & _ & _ & U & _ & De & _). destruct (holds_head _ _ _ _ U) as (A & B).
  cbn [est_of dk] in A, B. cbn [snd whole]. split; [|exact A]. right. split; [exact (load_same_long _ _ _ De)|right; exact B].
Qed.

Lemma start_io m : forall i t l1 l2, start_left m i t l1 l2 -> Forall (fun x => dk_io (snd x) = []) l1 -> Forall (fun x => dk_io (snd x) = []) l2.
Proof.
  induction 1 as [i t l|i t name desc d rest rest' D S IH|i t name desc d t1 r rest rest' D S IH|i t name desc d t1 r j n rest D]; intros F; auto.
  - inversion F; subst. constructor; auto.
  - inversion F; subst. constructor; [|auto]. unfold namespace_load in D. destruct (descriptor_load name desc) as [[c f]|]; [|discriminate].
    destruct (store_open m i t d) as [s|] eqn:O; [|discriminate]. injection D as <- <-. cbn [snd r_dk] in *. rewrite (open_io _ _ _ _ _ O). assumption.
  - inversion F; subst. constructor; [reflexivity|assumption].
Qed.

Lemma cut_io g : forall l1 l2, starts_cut g l1 l2 -> Forall (fun x => dk_io (snd x) = []) l1 -> Forall (fun x => dk_io (snd x) = []) l2.
Proof. induction 1 as [l|l l1 l2 S W C IH]; intros F; [exact F|]. apply IH. eapply start_io; eauto. Qed.

Lemma load_io m : forall l i t t' rs, load_all m i l t = Some (t', rs) -> Forall (fun x => dk_io (snd x) = []) l ->
  Forall (fun o => match o with Some r => dk_io (r_dk r) = [] | None => True end) rs.
Proof.
  induction l as [|[[name desc] d] l IH]; intros i t t' rs; cbn [load_all]; [intros X _; injection X as _ <-; constructor|].
  intros H F. inversion F; subst. destruct (descriptor_load name desc) as [cf|] eqn:De; [|eapply IH; eauto].
  unfold namespace_load in H. rewrite De in H. destruct cf as [c f]. destruct (store_open m i t d) as [s|] eqn:O; [|discriminate].
  destruct (load_all m (i + 1) l (tb s)) as [[t2 rs2]|] eqn:L; [|discriminate]. injection H as _ <-.
  constructor; [|eapply IH; eauto]. cbn [r_dk]. rewrite (open_io _ _ _ _ _ O). assumption.
Qed.

Lemma same_slots l l' : Forall2 same_ns l l' -> forall i, same_ns (oget i l) (oget i l').
Proof.
  induction 1 as [|o o' l l' H _ IH]; intros i; unfold oget in *; cbn [nget]; [exact I|].
  destruct (i =? 0); [|apply IH]. destruct o; destruct o'; exact H.
Qed.

Lemma sv_same g w w' D : SrvInv g w D -> same_world w w' ->
  Forall (fun o => match o with Some r => dk_io (r_dk r) = [] | None => True end) (w_slots w') -> SrvInv g w' D.
Proof.
  intros V (T & F & E & C) Io. assert (S : forall i, same_ns (slot i w) (slot i w')) by (intros i; rewrite !slot_oget; apply same_slots; exact F).
  assert (Iw : forall i r, slot i w' = Some r -> dk_io (r_dk r) = []).
  { intros i r Sl. rewrite slot_oget in Sl. unfold oget in Sl. destruct (nget i (w_slots w')) as [o|] eqn:G; [|discriminate]. subst o.
    rewrite Forall_forall in Io. exact (Io (Some r) (nget_In _ _ _ G)). }
  assert (Sx : forall i r', slot i w' = Some r' -> exists r, slot i w = Some r /\ same_ns (Some r) (Some r')).
  { intros i r' Sl. pose proof (S i) as X. rewrite Sl in X. destruct (slot i w) as [r|]; [exists r; auto|destruct X]. }
  assert (Sy : forall i r, slot i w = Some r -> exists r', slot i w' = Some r' /\ same_ns (Some r) (Some r')).
  { intros i r Sl. pose proof (S i) as X. rewrite Sl in X. destruct (slot i w') as [r'|]; [exists r'; auto|destruct X]. }
  destruct V as [V1 V2 V3 V4 V5 V6]. split.
  - intros i r' Sl. destruct (Sx i r' Sl) as (r & Sr & A1 & A2 & A3 & A4 & A5 & A6). destruct (V1 i r Sr) as (x & X1 & X2 & X3 & X4 & X5).
    rewrite A1, A2. exists x. split; [exact X1|]. split; [exact X2|]. split; [|split; assumption].
    destruct (holds_head _ _ _ _ X3) as (Io1 & _). cbn [est_of dk] in Io1. pose proof (Iw _ _ Sl) as Io2.
    unfold est_of in *. rewrite T, A3, A4. destruct (r_dk r) as [a b lg io]. destruct (r_dk r') as [a' b' lg' io']. cbn [dk_i dk_d dk_io] in *. subst a' b' io io'.
    eapply holds_log. exact X3.
  - intros n x Dn. destruct (V2 n x Dn) as (i & r & Sr & Nr). destruct (Sy i r Sr) as (r' & Sr' & A1 & _). exists i, r'. rewrite A1. auto.
  - intros i j r r' Si Sj En. destruct (Sx i r Si) as (ri & Sri & A1 & _). destruct (Sx j r' Sj) as (rj & Srj & B1 & _). rewrite A1, B1 in En. exact (V3 i j ri rj Sri Srj En).
  - destruct V4 as (r & Sr & Nr). destruct (Sy 0 r Sr) as (r' & Sr' & A1 & _). exists r'. rewrite A1. auto.
  - rewrite E, V5. clear - F. f_equal. unfold ns_names. induction F as [|o o' l l' H _ IH]; [reflexivity|]. cbn [flat_map]. rewrite IH. f_equal.
    destruct o as [r|]; destruct o' as [r'|]; cbn [same_ns] in H; try contradiction; [|reflexivity]. destruct H as (H & _). rewrite H. reflexivity.
  - intros i Sl. rewrite T. apply V6. pose proof (S i) as X. rewrite Sl in X. destruct (slot i w); [destruct X|reflexivity].
Qed.

Theorem start_theorem g es0 outs0 w0 w ord l' :
  server_ok g -> first_boot g = Some w0 -> all_covered g es0 w0 -> run_sevents g es0 w0 = Some (outs0, w) ->
  SpecServer.covered g (SRestart ord) w -> starts_cut g ord l' ->
  exists D w1, dir_run g es0 w0 outs0 (only_default g) D /\ boot g l' = Some w1 /\
    forall es outs w2, all_covered g es w1 -> run_sevents g es w1 = Some (outs, w2) ->
      exists D2, dir_run g es w1 outs (after_restart D) D2 /\
        (forall n, D2 n <> None <-> exists i r, slot i w2 = Some r /\ n_name (r_cfg r) = n).
Proof.
  intros G B A R Cv C. destruct (server_run g es0 outs0 w0 w G B A R) as (D & Dr & V). exists D.
  destruct (restart_step g ord w D V Cv) as (wa & Ba & Va). pose proof Cv as (Pm & _).
  assert (W : Forall (fun x => whole x /\ dk_io (snd x) = []) ord).
  { apply Forall_forall. intros x I. pose proof (reached_whole g w D V) as F. rewrite Forall_forall in F. apply F. exact (Permutation_in _ Pm I). }
  assert (W1 : Forall whole ord) by (eapply Forall_impl; [|exact W]; intros x H; apply H).
  assert (W2 : Forall (fun x : stored => dk_io (snd x) = []) ord) by (eapply Forall_impl; [|exact W]; intros x H; apply H).
  pose proof (starts_same g ord l' G W1 C) as K. rewrite Ba in K. destruct (boot g l') as [w1|] eqn:B1; [|contradiction]. exists w1. split; [exact Dr|]. split; [reflexivity|].
  assert (V1 : SrvInv g w1 (after_restart D)).
  { eapply sv_same; [exact Va|exact K|]. pose proof (cut_io g _ _ C W2) as Io. unfold boot in B1. destruct l' as [|[[name desc] d] l']; [discriminate|].
    destruct (descriptor_load name desc); [|discriminate]. destruct (load_all (g_mode (v_set g)) 0 _ empty_table) as [[t rs]|] eqn:L; [|discriminate]. injection B1 as <-. exact (load_io _ _ _ _ _ _ L Io). }
  intros es outs w2 A2 R2. destruct (events_run g es G w1 _ outs w2 V1 A2 R2) as (D2 & X & V2). exists D2. split; [exact X|].
  intros n. split.
  - intros H. destruct (D2 n) as [x|] eqn:Dn; [|congruence]. exact (sv_have _ _ _ V2 n x Dn).
  - intros (i & r & S & <-). destruct (sv_live _ _ _ V2 i r S) as (x & Dx & _). congruence.
Qed.

(* ---- for the examples ---- *)

(* the start which dies at (j, n) of the namespace number k *)
Fixpoint start_at (m i : N) (t : table) (l : list stored) (k j : nat) (n : N) : list stored :=
  match l with
  | [] => []
  | (name, desc, d) :: rest =>
      match descriptor_load name desc with
      | None => (name, desc, d) :: start_at m i t rest k j n
      | Some _ =>
          match namespace_load m i name desc d t with
          | None => l
          | Some (t1, r) =>
              match k with
              | O => (name, r_desc r, crash_disk d (persisted (new_writes d (r_dk r)) j n)) :: rest
              | S k' => (name, r_desc r, r_dk r) :: start_at m (i + 1) t1 rest k' j n
              end
          end
      end
  end.

Lemma start_at_ok m j n : forall l i t k, start_left m i t l (start_at m i t l k j n).
Proof.
  induction l as [|[[name desc] d] l IH]; intros i t k; cbn [start_at]; [constructor|].
  destruct (descriptor_load name desc) eqn:D; [|apply sl_skip; [exact D|apply IH]].
  destruct (namespace_load m i name desc d t) as [[t1 r]|] eqn:L; [|constructor].
  destruct k as [|k]; [eapply sl_cut; exact L|eapply sl_done; [exact L|apply IH]].
Qed.

Definition unbornb (d : disk) : bool :=
  match dk_d d, dk_i d with [], [] => true | [], [[]] => true | _, _ => false end.

Definition wholeb (x : stored) : bool :=
  match x with
  | (name, desc, d) =>
      match desc with [] => (blen name <=? 128) && unbornb d | _ => false end ||
      (15 <=? blen desc) && (unbornb d || match nget 0 (dk_i d) with Some f => 29 <=? blen f | None => false end)
  end.

Lemma unbornb_ok d : unbornb d = true -> unborn d.
Proof.
  unfold unbornb, unborn. destruct (dk_d d); [|discriminate]. destruct (dk_i d) as [|[|] [|]]; try discriminate; auto.
Qed.

Lemma wholeb_ok l : forallb wholeb l = true -> Forall whole l.
Proof.
  intros H. rewrite forallb_forall in H. apply Forall_forall. intros [[name desc] d] I. specialize (H _ I). cbn [wholeb whole] in *.
  apply orb_true_iff in H. destruct H as [H|H].
  - left. destruct desc; [|discriminate]. apply andb_true_iff in H. destruct H as (A & B). split; [reflexivity|]. split; [lia|apply unbornb_ok; exact B].
  - right. apply andb_true_iff in H. destruct H as (A & B). split; [lia|]. apply orb_true_iff in B. destruct B as [B|B]; [left; apply unbornb_ok; exact B|right].
    destruct (nget 0 (dk_i d)) as [f|] eqn:F; [|discriminate]. exists f. split; [exact F|lia].
Qed.

Lemma first_theorem g l' : server_ok g -> starts_cut g [(str "default", [], empty_disk)] l' ->
  exists w w', first_boot g = Some w /\ boot g l' = Some w' /\ same_world w w'.
Proof.
  intros G C. destruct (first_ok g G) as (w & B & _). pose proof (starts_same g [(str "default", [], empty_disk)] l' G) as K.
  change (boot g [(str "default", [], empty_disk)]) with (first_boot g) in K. rewrite B in K.
  assert (W : Forall whole [(str "default", [], empty_disk)]) by (apply wholeb_ok; vm_compute; reflexivity). specialize (K W C).
  destruct (boot g l') as [w'|]; [|contradiction]. exists w, w'. auto.
Qed.
