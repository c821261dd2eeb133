(* PROOFS for C54: crashes of the server. *)
From Coq Require Import Strings.String Strings.Byte List NArith ZArith Bool Lia ZifyBool ZifyN ZifyNat Sorting.Permutation.
From Verif Require Import Bytes BytesFacts Layout LayoutFacts Store Text TextFacts Commands SpecKV SpecSeq Machine Reach CrashModel CrashSpec SeqReach
  TableFacts FrameFacts Ghost UserInv UserLoad UserSteps UserReq UserRun CrashPre CrashFacts DataFacts CheckFacts
  SeqInv SeqMap SeqLoad SeqSteps SeqReq SeqRun SeqFacts Sha1 Dispatch Namespace System Resp Server ServerCrash
  SpecAuth AuthFacts SpecServer IsolFacts SrvInv SrvRun NamesFacts SpecSrvCrash.
From Verif Require StartCut.
Import ListNotations.
Open Scope N_scope.
Local Notation length := List.length.

(* ---- the descriptor ---- *)

Lemma desc_apply_commit c f : desc_apply (desc_writes c) f = namespace_commit c f.
Proof. unfold desc_apply, desc_writes, namespace_commit, descriptor_update. destruct (n_pass c); reflexivity. Qed.

Lemma desc_persisted_all ws j n : (length ws <= j)%nat -> desc_persisted ws j n = ws.
Proof.
  intro H. unfold desc_persisted. rewrite firstn_all2 by exact H. rewrite (proj2 (nth_error_None ws j)) by exact H. apply app_nil_r.
Qed.

Lemma fwrite_same a b r n : fwrite (a ++ b ++ r) (blen a) (nfirst n b) = a ++ b ++ r.
Proof.
  rewrite fwrite_seq. f_equal. pose proof (nfirst_nskip n b) as E. revert E. generalize (nfirst n b) (nskip n b). intros b1 b2 <-.
  rewrite <- !app_assoc. f_equal. apply nskip_app_exact'. reflexivity.
Qed.

Lemma hdr_lens c : conf_ok c -> nh_namelen (descriptor_header c) = blen (n_name c) /\
  nh_passlen (descriptor_header c) = match n_pass c with Some p => blen p | None => 0 end.
Proof.
  intros (Hn & _ & Hp). unfold descriptor_header. cbn [nh_namelen nh_passlen]. unfold u8. rewrite !N.mod_small; [split; reflexivity| |lia].
  destruct (n_pass c); [|lia]. destruct Hp. lia.
Qed.

(* with no password the header is enough *)
Lemma head_loads c rest : conf_ok c -> n_pass c = None -> desc_ok c (enc_nshdr (descriptor_header c) ++ rest).
Proof.
  intros Co Np. split; [|unfold desc_form; rewrite Np; exact I].
  destruct (hdr_lens c Co) as (Hnl & Hpl). destruct Co as (Hn & Hm & _). rewrite Np in Hpl. set (h := descriptor_header c) in *.
  destruct (flags_ok (n_public c) (n_worm c)) as (F0 & F1 & F2).
  assert (Dh : dec_nshdr (enc_nshdr h) = h).
  { rewrite <- (app_nil_r (enc_nshdr h)). apply dec_enc_nshdr; try rewrite Hnl; try rewrite Hpl; try reflexivity; try lia; [exact Hm|exact F0]. }
  assert (R : fread (enc_nshdr h ++ rest) 0 15 = enc_nshdr h) by (apply (fread_app [] (enc_nshdr h)); symmetry; apply blen_enc_nshdr).
  unfold descriptor_load. rewrite R, blen_enc_nshdr. cbn [N.eqb negb Pos.eqb].
  rewrite Dh. change (nh_version h) with NAMESPACE_CURRENT_VERSION. cbn [N.eqb negb Pos.eqb NAMESPACE_CURRENT_VERSION].
  change (nh_flags h) with (4 + (if n_public c then 1 else 0) + (if n_worm c then 2 else 0)). rewrite F1, F2, Hpl. cbn [N.eqb].
  change (nh_maxsize h) with (n_maxsize c). unfold unlocked. rewrite Np. reflexivity.
Qed.

(* header, name and password in place *)
Lemma placed_loads c p rest : conf_ok c -> n_pass c = Some p -> desc_ok c (enc_nshdr (descriptor_header c) ++ n_name c ++ p ++ rest).
Proof.
  intros Co Np. set (f := _ ++ _). assert (E : namespace_commit c f = f).
  { rewrite <- desc_apply_commit. unfold desc_apply, desc_writes. destruct (hdr_lens c Co) as (Hnl & Hpl). rewrite Hnl, Hpl, Np. cbn [app fold_left fst snd].
    unfold f. set (h := enc_nshdr _). assert (Lh : blen h = 15) by apply blen_enc_nshdr.
    rewrite fwrite_head, nskip_app_exact' by reflexivity. rewrite <- Lh at 1. rewrite (fwrite_same h). rewrite app_assoc.
    replace (15 + blen (n_name c)) with (blen (h ++ n_name c)) by (rewrite blen_app; lia). rewrite fwrite_same. reflexivity. }
  rewrite <- E. apply commit_ok. exact Co.
Qed.

Lemma desc_cut c c' desc j n : conf_ok c' -> n_name c' = n_name c -> desc_ok c desc -> (j = O -> n = 0) ->
  n_pass c' = n_pass c \/ n_pass c' = None \/ j = O \/ (3 <= j)%nat ->
  let f := desc_apply (desc_persisted (desc_writes c') j n) desc in (j = O /\ f = desc) \/ desc_ok c' f.
Proof.
  intros Co Nm (_ & De) J0 P f. destruct j as [|j].
  { left. split; [reflexivity|]. unfold f, desc_persisted. rewrite (J0 eq_refl). reflexivity. }
  right. clear J0. destruct (hdr_lens c' Co) as (Hnl & Hpl).
  assert (Nf : nfirst (blen (n_name c')) (n_name c') = n_name c') by (apply nfirst_own; reflexivity).
  assert (Lh : blen (enc_nshdr (descriptor_header c')) = 15) by apply blen_enc_nshdr.
  destruct (n_pass c') as [p|] eqn:Np.
  - destruct (le_lt_dec 3 (S j)) as [L|L].
    { unfold f. rewrite desc_persisted_all by (unfold desc_writes; rewrite Np; cbn [app length]; lia). rewrite desc_apply_commit. apply commit_ok. exact Co. }
    destruct P as [P|[P|[P|P]]]; try discriminate; try lia. unfold desc_form in De. rewrite <- P in De. destruct De as (rest & De).
    assert (E : f = enc_nshdr (descriptor_header c') ++ n_name c' ++ p ++ rest); [|rewrite E; apply placed_loads; assumption].
    unfold f, desc_writes, desc_persisted. rewrite Hnl, Hpl, Np, Nf. set (h := enc_nshdr (descriptor_header c')) in *.
    assert (E1 : fwrite desc 0 h = h ++ n_name c' ++ p ++ rest).
    { rewrite fwrite_head, De, Nm. f_equal. apply nskip_app_exact'. rewrite blen_enc_nshdr. symmetry. exact Lh. }
    assert (E2 : forall m, fwrite (h ++ n_name c' ++ p ++ rest) 15 (nfirst m (n_name c')) = h ++ n_name c' ++ p ++ rest) by (intro m; rewrite <- Lh; apply fwrite_same).
    assert (E3 : fwrite (h ++ n_name c' ++ p ++ rest) 15 (n_name c') = h ++ n_name c' ++ p ++ rest) by (specialize (E2 (blen (n_name c'))); rewrite Nf in E2; exact E2).
    assert (E4 : forall m, fwrite (h ++ n_name c' ++ p ++ rest) (15 + blen (n_name c')) (nfirst m (nfirst (blen p) p)) = h ++ n_name c' ++ p ++ rest).
    { intro m. rewrite (nfirst_own p) by reflexivity. rewrite app_assoc. replace (15 + blen (n_name c')) with (blen (h ++ n_name c')) by (rewrite blen_app; lia).
      apply fwrite_same. }
    destruct j as [|j]; [|destruct j; [|lia]]; unfold desc_apply; cbn [app firstn nth_error]; destruct (n =? 0);
      cbn [app fold_left fst snd]; rewrite E1; rewrite ?E2, ?E3, ?E4; reflexivity.
  - clear P De. assert (E : exists rest, f = enc_nshdr (descriptor_header c') ++ rest); [|destruct E as (rest & E); rewrite E; apply head_loads; assumption].
    unfold f, desc_writes, desc_persisted, desc_apply. rewrite Hnl, Np, Nf. set (h := enc_nshdr (descriptor_header c')) in *.
    cbn [app firstn nth_error]. destruct j as [|j].
    + cbn [app firstn nth_error fold_left fst snd]. rewrite fwrite_head. destruct (n =? 0); cbn [fold_left fst snd]; [eexists; reflexivity|].
      apply fwrite_after. lia.
    + cbn [firstn nth_error]. replace (firstn j ([] : list (N * bytes))) with ([] : list (N * bytes)) by (destruct j; reflexivity).
      replace (nth_error ([] : list (N * bytes)) j) with (@None (N * bytes)) by (destruct j; reflexivity).
      cbn [app fold_left fst snd]. rewrite fwrite_head. apply fwrite_after. lia.
Qed.

(* the descriptor of a new namespace *)
Lemma desc_new name j n : blen name <= 128 -> (j = O -> n = 0) ->
  exists d, descriptor_load name (desc_apply (desc_persisted (desc_writes (fresh_conf name)) j n) []) = Some (fresh_conf name, d) /\ desc_ok (fresh_conf name) d.
Proof.
  intros L J. destruct j as [|j].
  { rewrite (J eq_refl). apply load_first. exact L. }
  assert (X : desc_ok (fresh_conf name) (desc_apply (desc_persisted (desc_writes (fresh_conf name)) (S j) n) [])).
  { assert (E : exists rest, desc_apply (desc_persisted (desc_writes (fresh_conf name)) (S j) n) [] = enc_nshdr (descriptor_header (fresh_conf name)) ++ rest);
      [|destruct E as (rest & E); rewrite E; apply head_loads; [apply fresh_conf_ok; exact L|reflexivity]].
    assert (Lh : blen (enc_nshdr (descriptor_header (fresh_conf name))) = 15) by apply blen_enc_nshdr.
    unfold desc_writes, desc_persisted, desc_apply. cbn [n_pass fresh_conf app firstn nth_error]. destruct j as [|j].
    + cbn [app firstn nth_error fold_left fst snd]. rewrite fwrite_head. destruct (n =? 0); cbn [fold_left fst snd]; [eexists; reflexivity|].
      apply fwrite_after. fold (fresh_conf name). lia.
    + cbn [firstn nth_error]. replace (firstn j ([] : list (N * bytes))) with ([] : list (N * bytes)) by (destruct j; reflexivity).
      replace (nth_error ([] : list (N * bytes)) j) with (@None (N * bytes)) by (destruct j; reflexivity).
      cbn [app fold_left fst snd]. rewrite fwrite_head. apply fwrite_after. fold (fresh_conf name). lia. }
  eexists. split; [exact (proj1 X)|exact X].
Qed.

(* ---- the files ---- *)

(* some index file holds a record *)
Definition wide (fs : list bytes) : Prop := exists f b, nget f fs = Some b /\ 29 < blen b.

Lemma fwrite_longer f o b : blen f <= blen (fwrite f o b).
Proof.
  unfold fwrite. rewrite !blen_app, blen_nfirst.
  assert (L : blen (nskip (o + blen b) f) = blen f - (o + blen b)) by (rewrite nskip_skipn, !blen_length, skipn_length; lia). rewrite L. lia.
Qed.

Lemma wide_write w fs : wide (fst fs) -> wide (fst (apply_write w fs)).
Proof.
  intros (f & b & G & L). destruct w as [i|i|i o c|i o c]; cbn [apply_write fst]; try (exists f, b; split; assumption).
  - unfold mkfile. destruct (_ =? _); [|exists f, b; split; assumption]. exists f, b. split; [|exact L].
    rewrite nget_nth in *. rewrite nth_error_app1; [exact G|]. apply nth_error_Some. congruence.
  - unfold wrfile. destruct (nget i (fst fs)) as [b0|] eqn:E; [|exists f, b; split; assumption].
    destruct (N.eq_dec f i) as [->|Ne].
    + rewrite G in E. injection E as <-. exists i, (fwrite b o c). split; [|pose proof (fwrite_longer b o c); lia].
      rewrite nget_nset, N.eqb_refl. apply nget_lt in G. now replace (i <? nlen (fst fs)) with true by lia.
    + exists f, b. split; [|exact L]. rewrite nget_nset. now replace (f =? i) with false by lia.
Qed.

Lemma wide_writes V : forall fs, wide (fst fs) -> wide (fst (apply_writes V fs)).
Proof. induction V as [|w V IH]; intros fs H; [exact H|]. rewrite apply_writes_cons. apply IH. apply wide_write. exact H. Qed.

Lemma flat_wide m gi : forall f, flat f gi <> [] <-> wide (enc_ifs m f gi).
Proof.
  induction gi as [|l gi IH]; intro f; cbn [flat enc_ifs].
  { split; [intro H; now contradiction H|]. intros (k & b & G & _). discriminate. }
  split.
  - intro H. destruct l as [|it l].
    + cbn [place app] in H. apply IH in H. destruct H as (k & b & G & L). exists (k + 1), b. split; [|exact L]. cbn [nget].
      replace (k + 1 =? 0) with false by lia. replace (N.pred (k + 1)) with k by lia. exact G.
    + exists 0. eexists. split; [reflexivity|]. rewrite blen_enc_if. cbn [isz]. pose proof (blen_item_pos it). unfold itsz. lia.
  - intros (k & b & G & L) E. cbn [nget] in G. destruct (N.eqb_spec k 0).
    + injection G as <-. rewrite blen_enc_if in L. destruct l as [|it l]; [cbn [isz] in L; lia|]. cbn [place app] in E. discriminate.
    + assert (E' : flat (f + 1) gi = []) by (apply app_eq_nil in E; apply E). apply (proj2 (IH (f + 1))); [|exact E'].
      exists (N.pred k), b. split; [exact G|exact L].
Qed.

Lemma settled_files d gi H : SFInv (dk_i d) (dk_d d) gi H -> disk_settled d -> settled_g gi.
Proof.
  intros F S g l Eg. unfold disk_settled in S. rewrite (sf_files _ _ _ _ F) in S. rewrite nlen_enc_ifs in S. subst gi. rewrite nlen_app in S. cbn [nlen] in S.
  destruct S as [S|(f & S1 & S2)].
  - right. destruct g; auto. cbn [nlen] in S. lia.
  - left. intros ->. replace (nlen g + N.succ 0 - 1) with (nlen g) in S1 by lia.
    rewrite nget_enc_ifs in S1. apply some_inj in S1. subst f. rewrite blen_enc_if in S2. cbn [isz] in S2. lia.
Qed.

Lemma holds_mode_of g i s x : holds g i s x -> match d_content x with CKv _ => x_mode (ix s) = MODE_KV | CSeq _ => x_mode (ix s) = MODE_SEQ end.
Proof.
  unfold holds. intro U. destruct (d_content x); destruct U as (_ & gi & H & U & _).
  - apply U.
  - destruct U as (m & U & _). apply U.
Qed.

(* a request on the data is cut *)
Lemma holds_cut g i s x p now q c j n : server_ok g -> holds g i s x -> req_wf q -> nlen (dk_i (dk s)) < 2 ^ 32 ->
  (x_mode (ix s) = MODE_SEQ -> req_calm (v_set g) p now q c s) ->
  let W := new_writes (dk s) (dk (snd (run_req (v_set g) p now q c s))) in
  let d := crash_disk (dk s) (persisted W j n) in
  (x_mode (ix s) = MODE_SEQ -> between_writes W j n /\ disk_settled d) ->
  (x_mode (ix s) <> MODE_SEQ -> CrashSpec.covered (dk_i (dk s), dk_d (dk s)) W j n) ->
  exists ct, content_crash p now c q (d_content x) ct /\ disk_holds g d (mkDent (d_used x) ct (d_conf x)).
Proof.
  intros (_ & Hg) U Wf L Ca W d Sq Kv. change (2 ^ 32) with 4294967296 in L. pose proof (holds_mode_of _ _ _ _ U) as Md.
  unfold holds in U. destruct (d_content x) as [m|st] eqn:X.
  - destruct U as (M & gi & H & U & <- & F).
    destruct (req_ok (v_set g) i s gi H p now q c U (conj M Hg) Wf L) as (_ & (W0 & W1 & W2 & W3 & W4) & _).
    assert (EW : W = W0) by (apply new_writes_eq; exact W1).
    assert (Cv : cpre (files (dk s)) W0 (persisted W0 j n)).
    { rewrite <- EW. apply covered_cpre; [rewrite EW; exact W2|]. apply Kv. rewrite Md. discriminate. }
    destruct (W4 _ Cv) as (gi' & H' & (L1 & L2 & L3) & D & N' & Mm). rewrite <- EW in *.
    exists (CKv (livem (flat 0 gi') H')). split.
    + cbn [content_crash]. destruct Mm as [Mm|[Mm|(k0 & Mm1 & Mm2 & Mm3)]]; [left; exact Mm|right; left; exact Mm|right; right].
      destruct q; try discriminate. injection Mm1 as ->. eauto 8.
    + split; [reflexivity|]. cbn [d_content d_used]. split; [exact M|]. exists gi', H'. unfold d, crash_disk. cbn [dk_i dk_d].
      split; [exact L1|]. split; [exact L2|]. split; [exact L3|]. split; [reflexivity|]. intros Us. specialize (F Us).
      apply (flat_wide MODE_KV). rewrite <- (fi_files _ _ _ _ L1). apply wide_writes. cbn [files fst].
      rewrite (fi_files _ _ _ _ (ui_f _ _ _ _ U)). apply flat_wide. exact F.
  - destruct U as (M & gi & H & (mm & U & A) & <- & F). destruct (Ca Md) as (Wq & Ha & FL & Ad). rewrite (si_next _ _ _ _ _ U) in Ha.
    destruct (sreq_ok (v_set g) i s mm gi H p now q c U A Hg Wq L Ha (settles_spec _ _ _ _ _ _ _ _ _ _ U Ad)) as (_ & (W0 & W1 & W2 & W3 & W4) & _).
    assert (EW : W = W0) by (apply new_writes_eq; exact W1). destruct (Sq Md) as (Bw & Ds).
    assert (Cv : spre (files (dk s)) W0 (persisted W0 j n)) by (rewrite <- EW; apply between_spre; [rewrite EW; exact W2|exact Bw]).
    destruct (W4 _ Cv) as (gi' & H' & (L1 & L2 & L3) & D & N' & Mm). rewrite <- EW in *.
    exists (CSeq (sq_of gi' H')). split; [exact Mm|]. split; [reflexivity|]. cbn [d_content d_used]. split; [exact M|]. exists gi', H'. unfold d, crash_disk. cbn [dk_i dk_d].
    split; [exact L1|]. split; [exact L2|]. split; [exact L3|]. split; [apply (settled_files d gi' H' L1 Ds)|]. split; [reflexivity|].
    intros Us. specialize (F Us). pose proof (sq_next_mono p now c q (sq_of gi H)) as Mo. destruct Mm as [Mm|[Mm|(_ & Mm)]]; rewrite Mm; try exact F; lia.
Qed.

(* nothing is written *)
Lemma disk_holds_files g d d' x : dk_i d' = dk_i d -> dk_d d' = dk_d d -> dk_io d' = [] -> disk_holds g d x -> disk_holds g d' x.
Proof. intros E1 E2 E3 (_ & H). split; [exact E3|]. rewrite E1, E2. exact H. Qed.

Lemma cut_nothing d d' j n : dk_log d' = dk_log d -> dk_i (crash_disk d (persisted (new_writes d d') j n)) = dk_i d /\
  dk_d (crash_disk d (persisted (new_writes d d') j n)) = dk_d d.
Proof.
  intro E. assert (W : new_writes d d' = []) by (unfold new_writes; rewrite E; apply skipn_all). rewrite W.
  unfold persisted. rewrite firstn_nil. replace (nth_error (@nil dwrite) j) with (@None dwrite) by (destruct j; reflexivity). split; reflexivity.
Qed.

(* ---- one namespace ---- *)

Lemma holds_io g i s x : holds g i s x -> dk_io (dk s) = [].
Proof.
  unfold holds. destruct (d_content x); intros (_ & gi & H & U & _).
  - apply U.
  - destruct U as (m & U & _). apply U.
Qed.

(* the same files *)
Lemma holds_found g i s x d : holds g i s x -> dk_i d = dk_i (dk s) -> dk_d d = dk_d (dk s) -> dk_io d = [] ->
  (x_mode (ix s) = MODE_SEQ -> disk_settled d) -> disk_holds g d x.
Proof.
  intros U E1 E2 E3 Se. split; [exact E3|]. rewrite E1, E2. pose proof (holds_mode_of _ _ _ _ U) as Md. unfold holds in U. destruct (d_content x) as [m|st].
  - destruct U as (M & gi & H & U & R & F). split; [exact M|]. exists gi, H. split; [apply U|].
    split; [pose proof (ui_id _ _ _ _ U); lia|]. split; [left; split; apply U|]. auto.
  - destruct U as (M & gi & H & (mm & U & A) & R & F). split; [exact M|]. exists gi, H. split; [apply U|].
    split; [pose proof (si_id _ _ _ _ _ U); lia|]. split; [left; split; apply U|]. split; [|auto].
    apply (settled_files d gi H); [rewrite E1, E2; apply U|apply Se; exact Md].
Qed.

(* a namespace found as it is in w *)
Lemma entry_keep g w D i r d : SrvInv g w D -> slot i w = Some r -> dk_i d = dk_i (r_dk r) -> dk_d d = dk_d (r_dk r) -> dk_io d = [] ->
  (in_sequential r -> disk_settled d) -> stored_ok g D (n_name (r_cfg r), r_desc r, d).
Proof.
  intros V S E1 E2 E3 Se. destruct (sv_live _ _ _ V i r S) as (x & Dx & Cx & U & Co & De). exists x. split; [exact Dx|]. rewrite <- Cx in *.
  apply disk_boots; auto. exact (holds_found g i (est_of w r) x d U E1 E2 E3 Se).
Qed.

Lemma sv_io g w D i r : SrvInv g w D -> slot i w = Some r -> dk_io (r_dk r) = [].
Proof. intros V S. destruct (sv_live _ _ _ V i r S) as (x & _ & _ & U & _). exact (holds_io _ _ _ _ U). Qed.

Lemma desc_none j n f : desc_apply (desc_persisted [] j n) f = f.
Proof. unfold desc_persisted. rewrite firstn_nil. destruct j; reflexivity. Qed.

(* the files stay as they are, at any point of the writing *)
Definition still (r r' : nsrec) : Prop :=
  r_desc r' = r_desc r /\ dk_io (r_dk r') = dk_io (r_dk r) /\ dk_i (r_dk r') = dk_i (r_dk r) /\ dk_d (r_dk r') = dk_d (r_dk r) /\
  forall j n, let d := crash_disk (r_dk r) (persisted (new_writes (r_dk r) (r_dk r')) j n) in dk_i d = dk_i (r_dk r) /\ dk_d d = dk_d (r_dk r).

Lemma still_same r r' : r_desc r' = r_desc r -> r_dk r' = r_dk r -> still r r'.
Proof. intros E1 E2. unfold still. rewrite E1, E2. do 4 (split; [reflexivity|]). intros j n. apply (cut_nothing (r_dk r) (r_dk r) j n eq_refl). Qed.

Lemma still_refl r : still r r.
Proof. apply still_same; reflexivity. Qed.

(* the event does not change the files of the namespace i *)
Definition quiet (w w' : world) (i : N) : Prop :=
  forall r r', slot i w = Some r -> slot i w' = Some r' -> still r r'.

Lemma entry_quiet g w w' D k j n i r : SrvInv g w D -> slot i w = Some r -> quiet w w' i ->
  (in_sequential r -> disk_settled (snd (crash_entry k j n i r (slot i w')))) ->
  stored_ok g D (crash_entry k j n i r (slot i w')).
Proof.
  intros V S Q Se. pose proof (sv_io _ _ _ _ _ V S) as Io. unfold crash_entry in *. destruct (slot i w') as [r'|] eqn:S'.
  2:{ apply (entry_keep g w D i r); auto. }
  destruct (Q r r' S S') as (Q1 & Q2 & Q3 & Q4 & Q5). destruct (i <? k).
  { rewrite Q1. apply (entry_keep g w D i r); auto. congruence. }
  destruct (i =? k); [|apply (entry_keep g w D i r); auto].
  unfold ns_cut in *. cbn [fst snd] in *. rewrite Q1, bseqb_refl. rewrite desc_none. destruct (Q5 j n) as (C1 & C2).
  replace (if Nat.leb _ j then r_desc r else r_desc r) with (r_desc r) by (destruct (Nat.leb _ j); reflexivity).
  apply (entry_keep g w D i r); auto.
Qed.

(* the files of a namespace which is open are such that opening them again changes nothing *)
Lemma enc_ifs_get m gi : forall f i b, nget i (enc_ifs m f gi) = Some b -> exists l, b = enc_if m (f + i) l.
Proof.
  induction gi as [|l gi IH]; intros f i b; cbn [enc_ifs nget]; [discriminate|]. destruct (N.eqb_spec i 0) as [->|].
  - intros E. injection E as <-. exists l. rewrite N.add_0_r. reflexivity.
  - intros E. destruct (IH _ _ _ E) as (l' & ->). exists l'. f_equal. lia.
Qed.

Lemma holds_canon g i s x : holds g i s x -> StartCut.canon (dk s).
Proof.
  assert (X : forall m gi, 0 < nlen gi -> dk_i (dk s) = enc_ifs m 0 gi -> nlen (dk_d (dk s)) = nlen gi -> dhdr_ok (dk_d (dk s)) -> StartCut.canon (dk s)).
  { intros m gi L E Ld Hd. split; [rewrite E, nlen_enc_ifs; exact L|]. split; [rewrite E, nlen_enc_ifs; exact Ld|]. split; [exact Hd|].
    intros k f. rewrite E. intros F. apply enc_ifs_get in F. destruct F as (l & ->). unfold enc_if, index_header, enc_ihdr. cbn [ih_magic ih_version ih_created ih_opened ih_fileid ih_mode].
    exists (str "IDX0" ++ le 4 ZDB_IDXFILE_VERSION ++ le 8 0), (le 4 (0 + k) ++ le 1 m ++ enc_items l). split.
    - split; [reflexivity|]. split; [reflexivity|]. rewrite !blen_app, !blen_le. lia.
    - change (zeros 8) with (le 8 0). rewrite <- !app_assoc. reflexivity. }
  unfold holds. destruct (d_content x).
  - intros (_ & gi & H & U & _). apply (X MODE_KV gi); [pose proof (ui_id _ _ _ _ U); lia|apply U|apply U|apply U].
  - intros (_ & gi & H & (mm & U & _) & _). apply (X MODE_SEQ gi); [pose proof (si_id _ _ _ _ _ U); lia|apply U|apply U|apply U].
Qed.

(* ---- what the start finds ---- *)

Lemma crash_names k j n w' : forall l i, map (fun s : stored => fst (fst s)) (crash_list k j n w' i l) = ns_names l.
Proof.
  induction l as [|[r|] l IH]; intro i; [reflexivity| |apply IH]. cbn [crash_list map]. rewrite IH. unfold ns_names. cbn [flat_map app]. f_equal.
  unfold crash_entry. destruct (slot i w'); [|reflexivity]. destruct (i <? k); [reflexivity|]. destruct (i =? k); reflexivity.
Qed.

Lemma crash_in k j n w' s : forall l i, In s (crash_list k j n w' i l) -> exists m r, oget m l = Some r /\ s = crash_entry k j n (i + m) r (slot (i + m) w').
Proof.
  induction l as [|[r|] l IH]; intros i H; [destruct H| |].
  - destruct H as [<-|H].
    + exists 0, r. rewrite N.add_0_r. split; reflexivity.
    + destruct (IH _ H) as (m & r' & O & E). exists (m + 1), r'. rewrite oget_cons. replace (_ =? 0) with false by lia.
      replace (N.pred (m + 1)) with m by lia. replace (i + (m + 1)) with (i + 1 + m) by lia. auto.
  - destruct (IH _ H) as (m & r' & O & E). exists (m + 1), r'. rewrite oget_cons. replace (_ =? 0) with false by lia.
    replace (N.pred (m + 1)) with m by lia. replace (i + (m + 1)) with (i + 1 + m) by lia. auto.
Qed.

Lemma crash_boot g w w' D D1 k j n (ord : list stored) : SrvInv g w D -> (forall m, D1 m <> None -> D m <> None) ->
  (forall i r, slot i w = Some r -> stored_ok g D1 (crash_entry k j n i r (slot i w'))) ->
  Permutation ord (crash_disks (PRun k j n) w w') -> (exists desc d l, ord = (str "default", desc, d) :: l) ->
  exists w1, boot g ord = Some w1 /\ SrvInv g w1 (after_restart D1).
Proof.
  intros V Dm F Pm Ed. cbn [crash_disks] in Pm.
  assert (Nm : Permutation (map (fun s : stored => fst (fst s)) ord) (ns_names (w_slots w))).
  { rewrite <- (crash_names k j n w' (w_slots w) 0). apply Permutation_map. exact Pm. }
  apply boot_ok.
  - eapply Permutation_NoDup; [apply Permutation_sym; exact Nm|]. apply names_nodup. intros i i' r r'. apply (sv_uniq _ _ _ V).
  - intros m x Dx. eapply Permutation_in; [apply Permutation_sym; exact Nm|]. apply names_in.
    destruct (D m) as [y|] eqn:E; [|exfalso; apply (Dm m); [congruence|exact E]]. exact (sv_have _ _ _ V m y E).
  - exact Ed.
  - apply Forall_forall. intros s I. apply (Permutation_in _ Pm) in I. apply crash_in in I. destruct I as (m & r & O & ->).
    rewrite N.add_0_l. apply F. exact O.
Qed.

(* the event wrote to the namespace t only *)
Lemma crash_one g w w' D D1 k j n t rt (ord : list stored) : SrvInv g w D -> slot t w = Some rt -> (forall i, i <> t -> quiet w w' i) ->
  (forall m, m <> n_name (r_cfg rt) -> D1 m = D m) -> stored_ok g D1 (crash_entry k j n t rt (slot t w')) ->
  found_settled (PRun k j n) w w' ->
  Permutation ord (crash_disks (PRun k j n) w w') -> (exists desc d l, ord = (str "default", desc, d) :: l) ->
  exists w1, boot g ord = Some w1 /\ SrvInv g w1 (after_restart D1).
Proof.
  intros V St Q Do Ok Se. apply (crash_boot g w w' D D1); [exact V| |].
  - intros m H E. destruct (sv_live _ _ _ V t rt St) as (x & Dx & _). destruct (list_eq_dec Byte.byte_eq_dec m (n_name (r_cfg rt))) as [->|Ne]; [congruence|].
    rewrite (Do m Ne) in H. contradiction.
  - intros i r S. destruct (N.eq_dec i t) as [->|Ne]; [rewrite St in S; injection S as <-; exact Ok|].
    destruct (entry_quiet g w w' D k j n i r V S (Q i Ne) (Se i r S)) as (x & Dx & B). exists x. split; [|exact B]. rewrite Do; [exact Dx|].
    assert (E : fst (fst (crash_entry k j n i r (slot i w'))) = n_name (r_cfg r)).
    { unfold crash_entry. destruct (slot i w'); [|reflexivity]. destruct (i <? k); [reflexivity|]. destruct (i =? k); reflexivity. }
    rewrite E. intro C. apply Ne. exact (sv_uniq _ _ _ V _ _ _ _ S St C).
Qed.

Lemma crash_none g w w' D k j n (ord : list stored) : SrvInv g w D -> (forall i, quiet w w' i) -> found_settled (PRun k j n) w w' ->
  Permutation ord (crash_disks (PRun k j n) w w') -> (exists desc d l, ord = (str "default", desc, d) :: l) ->
  exists w1, boot g ord = Some w1 /\ SrvInv g w1 (after_restart D).
Proof.
  intros V Q Se. apply (crash_boot g w w' D D); auto. intros i r S. apply entry_quiet with (w := w); auto.
Qed.

(* ---- requests ---- *)

Lemma slot_put i o w : slot i w <> None -> forall j t e c, slot j (mkWorld t (nset i o (w_slots w)) e c) = if j =? i then o else slot j w.
Proof.
  intros S j t e c. destruct (slot i w) as [r|] eqn:E; [|congruence]. rewrite !slot_oget in *. cbn [w_slots]. rewrite oget_nset. apply oget_lt in E.
  rewrite (N.eqb_sym i). destruct (N.eqb_spec j i) as [->|]; [|reflexivity]. replace (i <? _) with true by lia. reflexivity.
Qed.

Lemma quiet_refl w w' : w_slots w' = w_slots w -> forall i, quiet w w' i.
Proof. intros E i r r' S S'. unfold slot in *. rewrite E in S'. rewrite S in S'. injection S' as <-. apply still_refl. Qed.

(* what a request writes *)
Inductive wrote (g : server) (v : env) (cl : client) (i : N) (c : cmd) (a : list bytes) (w w' : world) : Prop :=
| wr_none : (forall m, quiet w w' m) -> (c <> CNsnew -> forall m, slot m w = None -> slot m w' = None) -> wrote g v cl i c a w w'
| wr_data r q : slot i w = Some r -> req_of c a = Some q -> is_data c = true ->
    (let s := snd (run_req (v_set g) (perm_of cl) (v_sec v) q (r_cfg r) (est_of w r)) in
     forall m, slot m w' = if m =? i then Some (mkNs (r_cfg r) (r_desc r) (ix s) (dt s) (dk s)) else slot m w) -> wrote g v cl i c a w w'
| wr_conf t r c' : c = CNsset -> slot t w = Some r -> n_name (r_cfg r) = text (arg 1 a) ->
    (forall m, slot m w' = if m =? t then Some (mkNs c' (namespace_commit c' (r_desc r)) (r_ix r) (r_dt r) (r_dk r)) else slot m w) -> wrote g v cl i c a w w'
| wr_mode t r sq : c = CNsset -> slot t w = Some r -> n_name (r_cfg r) = text (arg 1 a) -> g_mode (v_set g) = MODE_MIX -> namespace_is_fresh (r_ix r) = true ->
    (let s := namespace_set_mode (if sq : bool then MODE_SEQ else MODE_KV) (est_of w r) in
     forall m, slot m w' = if m =? t then Some (mkNs (r_cfg r) (namespace_commit (r_cfg r) (r_desc r)) (ix s) (dt s) (dk s)) else slot m w) -> wrote g v cl i c a w w'.

Lemma wrote_same g v cl i c a w w' : w_slots w' = w_slots w -> wrote g v cl i c a w w'.
Proof. intro E. apply wr_none; [apply quiet_refl; exact E|]. intros _ m S. unfold slot in *. rewrite E. exact S. Qed.

Lemma guard_done (p : perm) a n (k : res) w rep st w' :
  match admin_authorized p with Some err => Done err SUCCESS w | None =>
  match args_validate a n with Some err => Done err SUCCESS w | None =>
  match args_namespace a 1 with Some err => Done err SUCCESS w | None => k end end end = Done rep st w' -> k = Done rep st w' \/ w' = w.
Proof. intro H. destr_res H; auto; injection H as _ _ <-; auto. Qed.

Lemma reload_wrote g v cl i0 c a w D i r w' : SrvInv g w D -> slot i w = Some r -> namespace_reload g i r w = Some w' -> wrote g v cl i0 c a w w'.
Proof.
  intros V S H. unfold namespace_reload in H. destruct (store_open _ i _ (r_dk r)) as [s|] eqn:O; [|discriminate]. injection H as <-.
  destruct (sv_live _ _ _ V i r S) as (x & _ & _ & U & _). pose proof (holds_canon _ _ _ _ U) as C. cbn [est_of dk] in C.
  destruct (StartCut.open_idle _ _ _ _ _ C O) as (Cut & Di & Dd). pose proof (StartCut.open_io _ _ _ _ _ O) as Io.
  assert (Sl : forall m, slot m (put_est i r s w) = if m =? i then Some (mkNs (r_cfg r) (r_desc r) (ix s) (dt s) (dk s)) else slot m w)
    by (intro m; unfold put_est; apply slot_put; congruence).
  apply wr_none.
  - intros m r1 r2 S1 S2. rewrite Sl in S2. destruct (N.eqb_spec m i) as [->|].
    + rewrite S in S1. injection S1 as <-. injection S2 as <-. unfold still. cbn [r_desc r_dk]. auto.
    + rewrite S1 in S2. injection S2 as <-. apply still_refl.
  - intros _ m Sm. rewrite Sl. destruct (N.eqb_spec m i) as [->|]; [congruence|exact Sm].
Qed.

Lemma handle_wrote g v fd cl i r c a w h rep st w' D : SrvInv g w D -> slot i w = Some r -> lookup_handler (arg 0 a) = Some (h, c) ->
  handle g v fd cl i r c a w = Done rep st w' -> wrote g v cl i c a w w'.
Proof.
  intros V S L H. destruct (is_data c) eqn:Da.
  { pose proof (handle_data g v fd cl i r c a w h Da L S) as Hd. destruct (req_of c a) as [q|] eqn:Q.
    - cbv zeta in Hd. rewrite H in Hd. injection Hd as _ _ ->. apply (wr_data g v cl i c a w _ r q S Q Da). cbv zeta. intro m.
      unfold put_est. apply slot_put. congruence.
    - destruct Hd as (rp & Hd & _). rewrite H in Hd. injection Hd as _ _ ->. apply wrote_same. reflexivity. }
  destruct c; try discriminate Da;
    try (unfold handle in H; done_inv H; apply wrote_same; reflexivity); try (unfold handle in H; told_step H; apply wrote_same; reflexivity).
  - unfold handle, command_wait in H. destr_res H; done_inv H; apply wrote_same; reflexivity.
  - unfold handle in H. destruct (admin_authorized _); done_inv H; apply wrote_same; reflexivity.
  - unfold handle in H. destruct (admin_authorized _); done_inv H; apply wrote_same; reflexivity.
  - unfold handle, command_auth in H. destr_res H; done_inv H; apply wrote_same; reflexivity.
  - unfold handle in H. destruct (admin_authorized _); done_inv H; apply wrote_same; reflexivity.
  - unfold handle in H. destruct (command_index _ _ _) as [[rp s']|] eqn:E; [|discriminate]. done_inv H.
    assert (Dk : dk s' = r_dk r).
    { unfold command_index, command_index_dirty in E. destr_res E; injection E as <- <-; reflexivity. }
    assert (Sl : forall m, slot m (put_est i r s' w) = if m =? i then Some (mkNs (r_cfg r) (r_desc r) (ix s') (dt s') (dk s')) else slot m w)
      by (intro m; unfold put_est; apply slot_put; congruence).
    apply wr_none.
    + intros m r1 r2 S1 S2. rewrite Sl in S2. destruct (N.eqb_spec m i) as [->|].
      * rewrite S in S1. injection S1 as <-. injection S2 as <-. apply still_same; [reflexivity|exact Dk].
      * rewrite S1 in S2. injection S2 as <-. apply still_refl.
    + intros _ m Sm. rewrite Sl. destruct (N.eqb_spec m i) as [->|]; [congruence|exact Sm].
  - unfold handle in H. destruct (v_release g); done_inv H; apply wrote_same; reflexivity.
  - unfold handle, command_nsnew in H. apply guard_done in H. destruct H as [H| ->]; [|apply wrote_same; reflexivity].
    cbv zeta in H. destr_res H; done_inv H; try (apply wrote_same; reflexivity).
    apply wr_none; [|congruence]. intros m r1 r2 S1 S2. rewrite slot_oget in S1, S2. cbn [w_slots] in S2. rewrite push_at in S2 by reflexivity.
    destruct (N.eqb_spec m (free_slot 0 (w_slots w))) as [->|]; [rewrite free_none in S1; discriminate|]. rewrite S1 in S2. injection S2 as <-. apply still_refl.
  - unfold handle, command_nsdel in H. apply guard_done in H. destruct H as [H| ->]; [|apply wrote_same; reflexivity].
    cbv zeta in H. destr_res H; done_inv H; try (apply wrote_same; reflexivity).
    match goal with A : namespace_get _ _ = Some (?k, ?rk) |- _ => apply get_slot in A; destruct A as (A1 & A2) end.
    apply wr_none.
    + intros m r1 r2 S1 S2. rewrite slot_put in S2 by congruence. destruct (m =? _); [discriminate|]. rewrite S1 in S2. injection S2 as <-. apply still_refl.
    + intros _ m Sm. rewrite slot_put by congruence. destruct (m =? _); [reflexivity|exact Sm].
  - unfold handle, command_nsset in H. apply guard_done in H. destruct H as [H| ->]; [|apply wrote_same; reflexivity].
    destruct (args_overflow _ 2 _); [done_inv H; apply wrote_same; reflexivity|]. destruct (args_overflow _ 3 _); [done_inv H; apply wrote_same; reflexivity|].
    destruct (sprint_max _) as [cm|]; [|discriminate]. cbv zeta in H. destruct (namespace_get _ w) as [[k rk]|] eqn:G; [|done_inv H; apply wrote_same; reflexivity].
    apply get_slot in G. destruct G as (G & Nk). rewrite text_cstr in Nk. destruct (bseqb cm (str "mode")).
    + pose proof (nsset_mode_spec g (cstr (arg 3 a)) (est_of w rk)) as M. destruct (nsset_mode _ _ _) as [err|s']; [done_inv H; apply wrote_same; reflexivity|].
      destruct M as (Gm & Fr & sq & _ & ->). done_inv H. apply (wr_mode g v cl i CNsset a w _ k rk sq eq_refl G Nk Gm Fr). cbv zeta. intro m. unfold put_est.
      cbn [r_cfg r_desc]. apply slot_put. congruence.
    + destruct (nsset_apply _ _ _ _) as [err|c']; [done_inv H; apply wrote_same; reflexivity|]. done_inv H.
      apply (wr_conf g v cl i CNsset a w _ k rk c' eq_refl G Nk). intro m. unfold put_slot. apply slot_put. congruence.
  - unfold handle, command_select in H. destr_res H; done_inv H; apply wrote_same; reflexivity.
  - unfold handle, command_reload in H. apply guard_done in H. destruct H as [H| ->]; [|apply wrote_same; reflexivity].
    destruct (namespace_get _ w) as [[k rk]|] eqn:G; [|done_inv H; apply wrote_same; reflexivity]. apply get_slot in G. destruct G as (G & _).
    destruct (namespace_reload g k rk w) as [w1|] eqn:E; [|discriminate]. done_inv H. exact (reload_wrote g v cl i CReload a w D k rk _ V G E).
  - unfold handle, command_flush in H. destruct (_ || _); [done_inv H; apply wrote_same; reflexivity|]. destruct (cleanable _); [discriminate|].
    destruct (namespace_reload g i r w) as [w1|] eqn:E; [|discriminate]. done_inv H. exact (reload_wrote g v cl i CFlush a w D i r _ V S E).
Qed.

Lemma nsset_others g v cl me a rep D D' m : request_spec g v cl me CNsset a rep D D' -> m <> text (arg 1 a) -> D' m = D m.
Proof.
  cbv beta iota delta [request_spec]. cbv zeta. intros H N. destruct (_ && _ && _ && _); [|destruct H as (_ & ->); reflexivity].
  destruct (D (text (arg 1 a))) as [x|]; [|destruct H as (_ & ->); reflexivity]. destruct (bseqb (text (arg 2 a)) (str "mode")).
  - destruct H as [(_ & ->)|(_ & _ & _ & sq & _ & ->)]; [reflexivity|]. apply dset_other. exact N.
  - destruct (setting _ _ _); destruct H as (_ & ->); [|reflexivity]. apply dset_other. exact N.
Qed.

Lemma data_others g v cl me c a rep D D' m q : is_data c = true -> req_of c a = Some q -> request_spec g v cl me c a rep D D' -> m <> me -> D' m = D m.
Proof.
  intros Da Q H N. assert (E : exists x, D me = Some x /\ exists y, D' = dset me (Some y) D).
  { destruct c; try discriminate Da; cbn [request_spec is_data] in H; rewrite Q in H; destruct H as (x & Dx & H);
      destruct (content_step _ _ _ _ _) as [r ct]; destruct H as (_ & ->); exists x; (split; [exact Dx|eexists; reflexivity]). }
  destruct E as (x & _ & y & ->). apply dset_other. exact N.
Qed.

(* before and after *)
Lemma entry_sides g w w' D D' k j n t r r' : SrvInv g w D -> SrvInv g w' D' -> slot t w = Some r -> slot t w' = Some r' ->
  n_name (r_cfg r') = n_name (r_cfg r) -> (in_sequential r' -> disk_settled (r_dk r')) -> found_settled (PRun k j n) w w' -> t <> k ->
  stored_ok g (if t <? k then D' else D) (crash_entry k j n t r (slot t w')).
Proof.
  intros V V' S S' En Se' Se Tk. specialize (Se t r S). rewrite S' in *. unfold crash_entry in *. destruct (t <? k).
  - rewrite <- En. apply (entry_keep g w' D' t r'); auto. exact (sv_io _ _ _ _ _ V' S').
  - replace (t =? k) with false in * by lia. apply (entry_keep g w D t r); auto. exact (sv_io _ _ _ _ _ V S).
Qed.

Lemma settled_one d : nlen (dk_i d) = 1 -> disk_settled d.
Proof. intro H. left. exact H. Qed.

(* a setting is being changed *)
Lemma entry_conf g w w' D D' k j n t r c' : SrvInv g w D -> SrvInv g w' D' -> slot t w = Some r ->
  slot t w' = Some (mkNs c' (namespace_commit c' (r_desc r)) (r_ix r) (r_dt r) (r_dk r)) -> n_name c' = n_name (r_cfg r) ->
  point_ok (PRun k j n) w w' -> found_settled (PRun k j n) w w' ->
  stored_ok g D (crash_entry k j n t r (slot t w')) \/ stored_ok g D' (crash_entry k j n t r (slot t w')).
Proof.
  intros V V' S S' En Po Se. destruct (N.eq_dec t k) as [<-|Tk].
  2:{ pose proof (entry_sides g w w' D D' k j n t r _ V V' S S' En) as X. unfold in_sequential in X. cbn [r_ix r_dk r_cfg] in X.
      specialize (Se t r S) as Se1. rewrite S' in Se1. unfold crash_entry in Se1. replace (t =? k) with false in Se1 by lia.
      destruct (t <? k); [right|left]; apply X; auto. }
  destruct (cut_nothing (r_dk r) (r_dk r) j n eq_refl) as (C1 & C2). specialize (Se t r S). specialize (Po r _ S S'). destruct Po as (_ & _ & Po).
  rewrite S' in *. unfold crash_entry, ns_cut in *. rewrite N.ltb_irrefl, N.eqb_refl in *. cbn [fst snd r_desc r_dk r_cfg] in *.
  assert (W0 : new_writes (r_dk r) (r_dk r) = []) by (unfold new_writes; apply skipn_all). rewrite W0 in *. cbn [List.length Nat.leb] in *. rewrite Nat.sub_0_r, Nat.add_0_l in *.
  destruct (bseqb (r_desc r) _) eqn:B.
  { left. rewrite desc_none. apply (entry_keep g w D t r); auto. }
  destruct Po as (P1 & P2); [intro E; rewrite E, bseqb_refl in B; discriminate|].
  destruct (sv_live _ _ _ V t r S) as (x & Dx & Cx & U & Co & De). destruct (sv_live _ _ _ V' t _ S') as (x' & Dx' & Cx' & U' & Co' & _). cbn [r_cfg r_desc] in *.
  destruct (desc_cut (r_cfg r) c' (r_desc r) j n Co' En De P1) as [(J & E)|E].
  { destruct P2 as [P2|[P2|[P2|P2]]]; auto. right. right. left. lia. }
  - left. rewrite E. apply (entry_keep g w D t r); auto.
  - right. exists x'. cbn [fst]. rewrite <- En. split; [exact Dx'|]. rewrite <- Cx' in *. apply disk_boots; auto.
    apply (holds_found g t _ x' _ U'); auto.
Qed.

Lemma switch_cut md mode s j n : (md = MODE_KV \/ md = MODE_SEQ) -> (mode = MODE_KV \/ mode = MODE_SEQ) -> dk_i (dk s) = [index_header 0 md] -> dk_io (dk s) = [] ->
  let d := crash_disk (dk s) (persisted (new_writes (dk s) (dk (namespace_set_mode mode s))) j n) in
  dk_d d = dk_d (dk s) /\ (dk_i d = [index_header 0 md] \/ dk_i d = [index_header 0 mode]).
Proof.
  intros Hmd Hm I Io d.
  assert (L : new_writes (dk s) (dk (namespace_set_mode mode s)) = [WrI 0 0 (index_header 0 mode)]).
  { apply new_writes_eq. cbn [namespace_set_mode dk]. unfold index_switch_mode, ifile. rewrite I. cbn [nget N.eqb].
    destruct Hmd as [->| ->], Hm as [->| ->];
      match goal with |- context [if ?b then _ else _] => let v := eval vm_compute in b in change b with v end; cbn iota;
      unfold try_write; rewrite Io; unfold do_write; cbn [snd dk_log]; f_equal; vm_compute; reflexivity. }
  unfold d. rewrite L. unfold persisted. destruct j as [|j].
  - cbn [firstn nth_error app]. unfold torn. destruct (n =? 0).
    + unfold crash_disk. cbn [apply_writes fold_left dk_i dk_d fst snd]. split; [reflexivity|left; exact I].
    + unfold crash_disk. cbn [apply_writes fold_left apply_write dk_i dk_d fst snd]. split; [reflexivity|]. rewrite I. unfold wrfile. cbn [nget N.eqb nset].
      assert (A : exists a x y, index_header 0 md = a ++ [x] /\ index_header 0 mode = a ++ [y]).
      { exists (nfirst 28 (index_header 0 MODE_KV)). destruct Hmd as [->| ->], Hm as [->| ->]; eexists _, _; split; vm_compute; reflexivity. }
      destruct A as (a & x & y & E1 & E2). destruct (fwrite_over_cut [] a x y [] [] n) as [E|E]; cbv zeta in E; cbn [app] in E; rewrite !app_nil_r in E;
        rewrite <- E1, <- E2 in E; cbn [blen] in E; rewrite E; auto.
  - cbn [firstn nth_error]. replace (match nth_error [] j with Some w => torn n w | None => [] end) with (@nil dwrite) by (destruct j; reflexivity).
    rewrite firstn_nil. unfold crash_disk. cbn [app apply_writes fold_left apply_write dk_i dk_d fst snd]. split; [reflexivity|]. right. rewrite I. unfold wrfile. cbn [nget N.eqb nset].
    destruct Hmd as [->| ->], Hm as [->| ->]; vm_compute; reflexivity.
Qed.

(* the mode is being changed *)
Lemma entry_mode g w w' D D' k j n t r sq : SrvInv g w D -> SrvInv g w' D' -> slot t w = Some r -> namespace_is_fresh (r_ix r) = true ->
  (let s := namespace_set_mode (if sq : bool then MODE_SEQ else MODE_KV) (est_of w r) in
   slot t w' = Some (mkNs (r_cfg r) (namespace_commit (r_cfg r) (r_desc r)) (ix s) (dt s) (dk s))) ->
  point_ok (PRun k j n) w w' -> found_settled (PRun k j n) w w' ->
  stored_ok g D (crash_entry k j n t r (slot t w')) \/ stored_ok g D' (crash_entry k j n t r (slot t w')).
Proof.
  intros V V' S Fr S' Po Se. cbv zeta in S'. set (mode := if sq then MODE_SEQ else MODE_KV) in *.
  assert (Hm : mode = MODE_KV \/ mode = MODE_SEQ) by (unfold mode; destruct sq; auto).
  destruct (sv_live _ _ _ V t r S) as (x & Dx & Cx & U & Co & De). destruct (sv_live _ _ _ V' t _ S') as (x' & Dx' & Cx' & U' & Co' & De'). cbn [r_cfg r_desc] in *.
  destruct (holds_fresh g t (est_of w r) x U Fr) as (_ & F & md & Hmd & I).
  destruct (switch_ok (x_set_mode mode (r_ix r)) (r_dk r) md Hmd Hm I (fr_io _ _ F)) as (S1 & S2 & S3).
  change (x_mode (x_set_mode mode (r_ix r))) with mode in S1.
  destruct (N.eq_dec t k) as [<-|Tk].
  2:{ pose proof (entry_sides g w w' D D' k j n t r _ V V' S S' eq_refl) as X. cbn [r_dk] in X.
      destruct (t <? k); [right|left]; apply X; auto; intros _; apply settled_one; cbn [namespace_set_mode dk est_of ix]; rewrite S1; reflexivity. }
  specialize (Po r _ S S'). destruct Po as (_ & _ & Po). rewrite S' in *. unfold crash_entry, ns_cut. rewrite N.ltb_irrefl, N.eqb_refl. cbn [r_desc r_dk r_cfg] in *.
  set (W := new_writes (r_dk r) _) in *. set (f := if Nat.leb _ j then _ else _). set (d := crash_disk _ _).
  assert (Df : desc_ok (r_cfg r) f).
  { unfold f. destruct (Nat.leb (List.length W) j) eqn:Lj; [|exact De]. apply Nat.leb_le in Lj. destruct (bseqb (r_desc r) _) eqn:B; [rewrite desc_none; exact De|].
    destruct Po as (P1 & _); [intro E; rewrite E, bseqb_refl in B; discriminate|].
    destruct (desc_cut (r_cfg r) (r_cfg r) (r_desc r) (j - List.length W) n Co eq_refl De) as [(_ & E)|E]; auto.
    - intro J. apply P1. lia.
    - rewrite E. exact De. }
  destruct (switch_cut md mode (est_of w r) j n Hmd Hm I (fr_io _ _ F)) as (E2 & E1). cbv zeta in E1, E2. change (dk (est_of w r)) with (r_dk r) in *. fold W d in E1, E2.
  destruct E1 as [E1|E1].
  - left. exists x. cbn [fst]. split; [exact Dx|]. rewrite <- Cx in *. apply disk_boots; auto.
    apply (holds_found g t (est_of w r) x d U); [rewrite E1; symmetry; exact I|exact E2|reflexivity|]. intros _. apply settled_one. rewrite E1. reflexivity.
  - right. exists x'. cbn [fst]. split; [exact Dx'|]. rewrite <- Cx' in *. apply disk_boots; auto.
    apply (holds_found g t _ x' d U'); [rewrite E1; symmetry; exact S1|rewrite E2; symmetry; exact S2|reflexivity|].
    intros _. apply settled_one. rewrite E1. reflexivity.
Qed.

(* a request on the data *)
Lemma entry_data g v cl w w' D D' k j n t r q : server_ok g -> SrvInv g w D -> SrvInv g w' D' -> slot t w = Some r ->
  (let s := snd (run_req (v_set g) (perm_of cl) (v_sec v) q (r_cfg r) (est_of w r)) in
   slot t w' = Some (mkNs (r_cfg r) (r_desc r) (ix s) (dt s) (dk s))) ->
  req_wf q -> room_left r -> (in_sequential r -> req_calm (v_set g) (perm_of cl) (v_sec v) q (r_cfg r) (est_of w r)) ->
  point_ok (PRun k j n) w w' -> found_settled (PRun k j n) w w' ->
  stored_ok g D (crash_entry k j n t r (slot t w')) \/ stored_ok g D' (crash_entry k j n t r (slot t w')) \/
  exists x ct, D (n_name (r_cfg r)) = Some x /\ content_crash (perm_of cl) (v_sec v) (d_conf x) q (d_content x) ct /\
    stored_ok g (dset (n_name (r_cfg r)) (Some (mkDent (d_used x) ct (d_conf x))) D) (crash_entry k j n t r (slot t w')).
Proof.
  intros G V V' S S' Wf Rm Ca Po Se. cbv zeta in S'.
  destruct (sv_live _ _ _ V t r S) as (x & Dx & Cx & U & Co & De).
  destruct (N.eq_dec t k) as [<-|Tk].
  2:{ pose proof (entry_sides g w w' D D' k j n t r _ V V' S S' eq_refl) as X.
      specialize (Se t r S) as Se1. rewrite S' in Se1. unfold crash_entry in Se1. replace (t =? k) with false in Se1 by lia. cbn [r_dk] in *.
      destruct (t <? k) eqn:Lt.
      2:{ left. unfold crash_entry. rewrite S', Lt. replace (t =? k) with false by lia. apply (entry_keep g w D t r); auto. exact (sv_io _ _ _ _ _ V S). }
      right. left. apply X; auto. intro Q. apply Se1. unfold in_sequential in *. cbn [r_ix] in Q.
      destruct (holds_req g t (est_of w r) x (perm_of cl) (v_sec v) q (r_cfg r) G U Wf Rm Ca) as (_ & U2). apply holds_mode_of in U2. apply holds_mode_of in U.
      cbn [d_content] in U2. destruct (d_content x); cbn [content_step] in U2; [destruct (kv_step _ _ _ _ _)|destruct (sq_step _ _ _ _ _)]; cbn [snd] in U2; [rewrite U2 in Q; discriminate|exact U]. }
  right. right. specialize (Po r _ S S'). specialize (Se t r S). rewrite S' in *. unfold crash_entry, ns_cut in *. rewrite N.ltb_irrefl, N.eqb_refl in *. cbn [fst snd r_desc r_dk r_cfg] in *.
  destruct Po as (P1 & P2 & _). rewrite bseqb_refl, desc_none.
  destruct (holds_cut g t (est_of w r) x (perm_of cl) (v_sec v) q (r_cfg r) j n G U Wf Rm Ca) as (ct & Cc & Dh); [intro Q; split; [apply P1|apply Se]; exact Q|exact P2|].
  exists x, ct. rewrite Cx in *. split; [exact Dx|]. split; [exact Cc|]. eexists. cbn [fst]. rewrite dset_same. split; [reflexivity|].
  replace (if Nat.leb _ j then r_desc r else r_desc r) with (r_desc r) by (destruct (Nat.leb _ j); reflexivity).
  apply disk_boots; auto.
Qed.

Lemma wrote_ext g v cl i c a w w' w0 w1 : w_tb w0 = w_tb w -> w_slots w0 = w_slots w -> w_slots w1 = w_slots w' ->
  wrote g v cl i c a w0 w1 -> wrote g v cl i c a w w'.
Proof.
  intros T A B H. assert (S0 : forall m, slot m w0 = slot m w) by (intro m; unfold slot; rewrite A; reflexivity).
  assert (S1 : forall m, slot m w1 = slot m w') by (intro m; unfold slot; rewrite B; reflexivity).
  assert (Eo : forall r, est_of w0 r = est_of w r) by (intro r; unfold est_of; rewrite T; reflexivity).
  destruct H as [H1 H2|r q H1 H2 H3 H4|t r c' H1 H2 H3 H4|t r sq H1 H2 H3 H4 H5 H6].
  - apply wr_none.
    + intros m r r'. rewrite <- S0, <- S1. apply H1.
    + intros N m. rewrite <- S0, <- S1. apply H2. exact N.
  - rewrite S0 in H1. apply (wr_data g v cl i c a w w' r q H1 H2 H3). cbv zeta in *. intro m. rewrite <- S1, H4, Eo, S0. reflexivity.
  - rewrite S0 in H2. apply (wr_conf g v cl i c a w w' t r c' H1 H2 H3). intro m. rewrite <- S1, H4, S0. reflexivity.
  - rewrite S0 in H2. apply (wr_mode g v cl i c a w w' t r sq H1 H2 H3 H4 H5). cbv zeta in *. intro m. rewrite <- S1, H6, Eo, S0. reflexivity.
Qed.

Lemma quiet_other w w' t r' i : (forall m, slot m w' = if m =? t then Some r' else slot m w) -> i <> t -> quiet w w' i.
Proof. intros H N r r2 S S2. rewrite H in S2. replace (i =? t) with false in S2 by lia. rewrite S in S2. injection S2 as <-. apply still_refl. Qed.

(* the process dies in the writes of a request *)
Lemma request_cut g v cl i r c a w w' rep D D' k j n (ord : list stored) : server_ok g -> SrvInv g w D -> SrvInv g w' D' ->
  slot i w = Some r -> wrote g v cl i c a w w' -> ok_here g v cl c a r w -> request_spec g v cl (n_name (r_cfg r)) c a rep D D' ->
  point_ok (PRun k j n) w w' -> found_settled (PRun k j n) w w' ->
  Permutation ord (crash_disks (PRun k j n) w w') -> (exists desc d l, ord = (str "default", desc, d) :: l) ->
  exists D1 w1, request_crash g v cl (n_name (r_cfg r)) c a D D1 /\ boot g ord = Some w1 /\ SrvInv g w1 (after_restart D1).
Proof.
  intros G V V' S Wr Ok Sp Po Se Pm Ed.
  destruct Wr as [H1 _|r0 q H1 H2 H3 H4|t rt c' H1 H2 H3 H4|t rt sq H1 H2 H3 H4 H5 H6].
  - destruct (crash_none g w w' D k j n ord V H1 Se Pm Ed) as (w1 & B & V1). exists D, w1. split; [left; reflexivity|auto].
  - rewrite S in H1. injection H1 as <-. cbv zeta in H4. destruct Ok as (Ok & _). destruct (Ok q H2) as (Wf & Rm & Ca).
    pose proof (H4 i) as Si. rewrite N.eqb_refl in Si.
    assert (Go : forall D1, (forall m, m <> n_name (r_cfg r) -> D1 m = D m) -> stored_ok g D1 (crash_entry k j n i r (slot i w')) ->
      exists w1, boot g ord = Some w1 /\ SrvInv g w1 (after_restart D1)).
    { intros D1 Do Es. apply (crash_one g w w' D D1 k j n i r ord V S); auto. intros m N. exact (quiet_other w w' i _ m H4 N). }
    destruct (entry_data g v cl w w' D D' k j n i r q G V V' S Si Wf Rm Ca Po Se) as [E|[E|(x & ct & Dx & Cc & E)]].
    + destruct (Go D) as (w1 & B & V1); auto. exists D, w1. split; [left; reflexivity|auto].
    + destruct (Go D') as (w1 & B & V1); [|exact E|].
      { intros m N. exact (data_others g v cl _ c a rep D D' m q H3 H2 Sp N). }
      exists D', w1. split; [right; left; exists rep; exact Sp|auto].
    + destruct (Go (dset (n_name (r_cfg r)) (Some (mkDent (d_used x) ct (d_conf x))) D)) as (w1 & B & V1); [intros m N; apply dset_other; exact N|exact E|].
      eexists _, w1. split; [right; right; exists q, x, ct; split; [exact H2|]; split; [exact Dx|]; split; [exact Cc|reflexivity]|auto].
  - pose proof (H4 t) as St. rewrite N.eqb_refl in St. subst c.
    destruct (sv_live _ _ _ V' t _ St) as (x' & Dx' & _). cbn [r_cfg] in Dx'.
    assert (En : n_name c' = n_name (r_cfg rt)).
    { destruct (sv_live _ _ _ V t rt H2) as (x & Dx & _). rewrite H3 in *. destruct (list_eq_dec Byte.byte_eq_dec (n_name c') (text (arg 1 a))) as [E|E]; [exact E|].
      exfalso. rewrite (nsset_others _ _ _ _ _ _ _ _ _ Sp E) in Dx'. destruct (sv_have _ _ _ V _ _ Dx') as (u & ru & Su & Nu).
      assert (U : u <> t). { intros ->. rewrite H2 in Su. injection Su as <-. congruence. }
      apply U. refine (sv_uniq _ _ _ V' u t ru _ _ St Nu). rewrite H4. replace (u =? t) with false by lia. exact Su. }
    assert (Go : forall D1, (forall m, m <> n_name (r_cfg rt) -> D1 m = D m) -> stored_ok g D1 (crash_entry k j n t rt (slot t w')) ->
      exists w1, boot g ord = Some w1 /\ SrvInv g w1 (after_restart D1)).
    { intros D1 Do Es. apply (crash_one g w w' D D1 k j n t rt ord V H2); auto. intros m N. exact (quiet_other w w' t _ m H4 N). }
    destruct (entry_conf g w w' D D' k j n t rt c' V V' H2 St En Po Se) as [E|E].
    + destruct (Go D) as (w1 & B & V1); auto. exists D, w1. split; [left; reflexivity|auto].
    + destruct (Go D') as (w1 & B & V1); [|exact E|].
      { intros m N. rewrite H3 in N. exact (nsset_others _ _ _ _ _ _ _ _ _ Sp N). }
      exists D', w1. split; [right; left; exists rep; exact Sp|auto].
  - pose proof (H6 t) as St. cbv zeta in St. rewrite N.eqb_refl in St. subst c.
    assert (Go : forall D1, (forall m, m <> n_name (r_cfg rt) -> D1 m = D m) -> stored_ok g D1 (crash_entry k j n t rt (slot t w')) ->
      exists w1, boot g ord = Some w1 /\ SrvInv g w1 (after_restart D1)).
    { intros D1 Do Es. apply (crash_one g w w' D D1 k j n t rt ord V H2); auto. intros m N. exact (quiet_other w w' t _ m H6 N). }
    destruct (entry_mode g w w' D D' k j n t rt sq V V' H2 H5 St Po Se) as [E|E].
    + destruct (Go D) as (w1 & B & V1); auto. exists D, w1. split; [left; reflexivity|auto].
    + destruct (Go D') as (w1 & B & V1); [|exact E|].
      { intros m N. rewrite H3 in N. exact (nsset_others _ _ _ _ _ _ _ _ _ Sp N). }
      exists D', w1. split; [right; left; exists rep; exact Sp|auto].
Qed.

(* ---- a new namespace ---- *)

Lemma new_none w : forall l i, (forall m, slot (i + m) w = None -> oget m l = None) -> new_slots w i l = [].
Proof.
  induction l as [|o l IH]; intros i H; [reflexivity|]. cbn [new_slots]. rewrite IH.
  - rewrite app_nil_r. specialize (H 0). rewrite N.add_0_r in H. destruct (slot i w); [reflexivity|]. specialize (H eq_refl). cbn in H. rewrite H. reflexivity.
  - intros m S. specialize (H (m + 1)). replace (i + (m + 1)) with (i + 1 + m) in H by lia. specialize (H S). rewrite oget_cons in H.
    replace (m + 1 =? 0) with false in H by lia. replace (N.pred (m + 1)) with m in H by lia. exact H.
Qed.

Lemma new_one w k r : slot k w = None -> forall l i, (forall m, oget m l = if i + m =? k then Some r else slot (i + m) w) -> i <= k ->
  new_slots w i l = if k <? i + nlen l then [r] else [].
Proof.
  intros Sk. induction l as [|o l IH]; intros i H Ik; cbn [new_slots nlen]; [replace (k <? i + 0) with false by lia; reflexivity|].
  pose proof (H 0) as H0. rewrite N.add_0_r in H0. assert (Ho : o = if i =? k then Some r else slot i w) by (rewrite <- H0; cbn; destruct o; reflexivity).
  assert (Ht : forall m, oget m l = if i + 1 + m =? k then Some r else slot (i + 1 + m) w).
  { intro m. specialize (H (m + 1)). rewrite oget_cons in H. replace (m + 1 =? 0) with false in H by lia. replace (N.pred (m + 1)) with m in H by lia.
    replace (i + (m + 1)) with (i + 1 + m) in H by lia. exact H. }
  destruct (N.eqb_spec i k) as [->|N].
  - rewrite Sk, Ho. rewrite new_none.
    + replace (k <? _) with true by lia. reflexivity.
    + intros m S. rewrite Ht, S. replace (k + 1 + m =? k) with false by lia. reflexivity.
  - rewrite (IH (i + 1) Ht) by lia. replace (i + 1 + nlen l) with (i + N.succ (nlen l)) by lia. rewrite Ho. destruct (slot i w); reflexivity.
Qed.

Lemma new_push w w' r : w_slots w' = push_slot (free_slot 0 (w_slots w)) r (w_slots w) -> new_slots w 0 (w_slots w') = [r].
Proof.
  intro E. rewrite E. set (k := free_slot 0 (w_slots w)).
  rewrite (new_one w k r); [| |intro m; rewrite N.add_0_l, slot_oget; apply push_at; reflexivity|lia].
  - replace (k <? _) with true; [reflexivity|]. symmetry. apply N.ltb_lt. pose proof (push_at k r k (w_slots w) eq_refl) as P. rewrite N.eqb_refl in P.
    apply oget_lt in P. lia.
  - rewrite slot_oget. apply free_none.
Qed.

Definition fresh_mode (g : server) : N := if g_mode (v_set g) =? MODE_SEQ then MODE_SEQ else MODE_KV.

Lemma fresh_log g i t s : server_ok g -> TInv t i [] -> store_open (g_mode (v_set g)) i t empty_disk = Some s -> new_writes empty_disk (dk s) = fresh_writes (fresh_mode g).
Proof.
  intros (M & _) T O. apply new_writes_eq. unfold fresh_mode. destruct M as [M|[M|M]]; rewrite M in *.
  - destruct (open_fresh MODE_KV i t empty_disk (or_introl eq_refl) eq_refl eq_refl eq_refl T) as (s' & O' & _ & _ & L). rewrite O in O'. injection O' as <-. exact L.
  - destruct (sopen_fresh i t empty_disk eq_refl eq_refl eq_refl T) as (s' & O' & _ & _ & L). rewrite O in O'. injection O' as <-. exact L.
  - destruct (open_fresh MODE_MIX i t empty_disk (or_intror eq_refl) eq_refl eq_refl eq_refl T) as (s' & O' & _ & _ & L). rewrite O in O'. injection O' as <-. exact L.
Qed.

Lemma first_file g name dd : server_ok g -> dd = [] \/ (exists n, dd = [nfirst n (data_header 0)]) ->
  disk_holds g (mkDisk [index_header 0 (fresh_mode g)] dd [] []) (new_entry g name).
Proof.
  intros (M & _) Hd. split; [reflexivity|]. cbn [dk_i dk_d].
  assert (Do : dd_openable dd (nlen [@nil item])).
  { destruct Hd as [->|(n & ->)].
    - right. left. split; [reflexivity|]. intros f b H. discriminate.
    - right. right. exists [], n. split; [reflexivity|]. split; [reflexivity|]. intros f b H. discriminate. }
  unfold new_entry, fresh_mode. cbn [d_content d_used]. destruct (N.eqb_spec (g_mode (v_set g)) MODE_SEQ) as [E|E]; cbn [empty_content].
  - split; [left; exact E|]. exists [[]], []. split.
    + constructor; cbn [flat place app chain]; auto.
      * cbn [nlen]. lia.
      * intros i y Hy. cbn [nget] in Hy. discriminate.
      * intros h l Hg. apply (app_inj_tail [] h) in Hg. destruct Hg as [_ <-]. cbn [nlen]. lia.
    + split; [reflexivity|]. split; [exact Do|]. split; [|split; [reflexivity|discriminate]].
      intros h l Eg. destruct h as [|a h]; [|destruct h; discriminate]. now right.
  - split; [destruct M as [M|[M|M]]; [left; exact M|contradiction|right; exact M]|]. exists [[]], []. split.
    + constructor; cbn [flat place app live_last chain]; auto.
      * cbn [nlen]. lia.
      * intros h l Hg. apply (app_inj_tail [] h) in Hg. destruct Hg as [_ <-]. cbn [isz]. lia.
    + split; [reflexivity|]. split; [exact Do|]. split; [reflexivity|discriminate].
Qed.

Lemma first_cut g name j n : server_ok g -> between_writes (fresh_writes (fresh_mode g)) j n ->
  let d := crash_disk empty_disk (persisted (fresh_writes (fresh_mode g)) j n) in d = empty_disk \/ disk_holds g d (new_entry g name).
Proof.
  intros G (B1 & B2) d.
  assert (Hm : fresh_mode g = MODE_KV \/ fresh_mode g = MODE_SEQ) by (unfold fresh_mode; destruct (_ =? MODE_SEQ); auto).
  assert (Hd : d = empty_disk \/ exists dd, d = mkDisk [index_header 0 (fresh_mode g)] dd [] [] /\ (dd = [] \/ exists n, dd = [nfirst n (data_header 0)])).
  { unfold d. clear d. generalize dependent (fresh_mode g). intros md B1 B2 Hm.
    assert (W1 : fwrite [] 0 (index_header 0 md) = index_header 0 md) by (destruct Hm as [->| ->]; vm_compute; reflexivity).
    assert (W2 : fwrite (index_header 0 md) 0 (index_header 0 md) = index_header 0 md) by (destruct Hm as [->| ->]; vm_compute; reflexivity).
    assert (W3 : forall b, fwrite [] 0 b = b).
    { intro b. unfold fwrite. replace (nskip (0 + blen b) []) with (@nil byte) by (rewrite nskip_skipn, skipn_nil; reflexivity). rewrite app_nil_r. reflexivity. }
    unfold fresh_writes, persisted in *.
    destruct j as [|[|[|[|[|[|j]]]]]]; cbn [nth_error firstn app] in *; try contradiction.
    - left. unfold torn. destruct (n =? 0); reflexivity.
    - right. subst n. cbn [torn N.eqb app]. exists []. split; [|left; reflexivity]. unfold crash_disk. cbn [apply_writes fold_left apply_write empty_disk dk_i dk_d fst snd mkfile wrfile nlen N.eqb app nget nset].
      rewrite W1. reflexivity.
    - right. exists []. split; [|left; reflexivity]. unfold torn. destruct (n =? 0); unfold crash_disk; cbn [app apply_writes fold_left apply_write empty_disk dk_i dk_d fst snd mkfile wrfile nlen N.eqb nget nset];
        rewrite W1, W2; reflexivity.
    - right. exists [nfirst n (data_header 0)]. split; [|right; exists n; reflexivity]. unfold torn. destruct (N.eqb_spec n 0) as [->|];
        unfold crash_disk; cbn [app apply_writes fold_left apply_write empty_disk dk_i dk_d fst snd mkfile wrfile nlen N.eqb N.succ nget nset];
        rewrite W1, W2, ?W3, ?nfirst_0; reflexivity.
    - right. exists [data_header 0]. split; [|right; exists 28; vm_compute; reflexivity].
      replace (match nth_error [] j with Some w => torn n w | None => [] end) with (@nil dwrite) by (destruct j; reflexivity). rewrite firstn_nil.
      unfold crash_disk; cbn [app apply_writes fold_left apply_write empty_disk dk_i dk_d fst snd mkfile wrfile nlen N.eqb N.succ nget nset].
      rewrite W1, W2, W3. reflexivity. }
  destruct Hd as [->|(dd & -> & Hd)]; [left; reflexivity|right]. apply first_file; assumption.
Qed.

Lemma new_boots g r name j n : server_ok g -> blen name <= 128 -> r_cfg r = fresh_conf name -> new_writes empty_disk (r_dk r) = fresh_writes (fresh_mode g) ->
  (j = O -> n = 0) -> ((2 <= j)%nat -> between_writes (new_writes empty_disk (r_dk r)) (j - 2) n) -> boots g (crash_new j n r) (new_entry g name).
Proof.
  intros G L Cr Lg J Bw. unfold crash_new. rewrite Cr, Lg in *. change (List.length (desc_writes (fresh_conf name))) with 2%nat. cbn [fst snd].
  split; [reflexivity|]. split; [apply fresh_conf_ok; exact L|]. intros k t T. cbn [fst snd]. change (n_name (fresh_conf name)) with name.
  destruct (desc_new name j n L J) as (f & Lf & Df). unfold namespace_load. rewrite Lf.
  set (d := if Nat.leb 2 j then _ else empty_disk).
  assert (Hd : d = empty_disk \/ disk_holds g d (new_entry g name)).
  { unfold d. destruct (Nat.leb 2 j) eqn:E; [|left; reflexivity]. apply Nat.leb_le in E. apply first_cut; [exact G|]. apply Bw. exact E. }
  assert (O : exists s, store_open (g_mode (v_set g)) k t d = Some s /\ tframe k t (tb s) /\ holds g k s (new_entry g name)).
  { destruct Hd as [->|Hd]; [|exact (disk_open g k t d _ Hd T)]. destruct (holds_new g k t name G T) as (s & O1 & O2 & O3). exists s. rewrite O2.
    split; [exact O1|]. split; [apply tframe_refl|exact O3]. }
  destruct O as (s & O1 & O2 & O3). rewrite O1. eexists _, _. split; [reflexivity|]. cbn [r_cfg r_desc r_ix r_dt r_dk]. split; [exact O2|]. split; [reflexivity|]. split; [exact Df|].
  destruct s. exact O3.
Qed.

Lemma stored_live g w D : SrvInv g w D -> (forall i r, slot i w = Some r -> in_sequential r -> disk_settled (r_dk r)) -> Forall (stored_ok g D) (stored_of w).
Proof.
  intros V Se. apply Forall_forall. intros s I. apply stored_in in I. destruct I as (i & r & S & ->). apply (entry_keep g w D i r); auto. exact (sv_io _ _ _ _ _ V S).
  intro Q. exact (Se i r S Q).
Qed.

(* nothing is new *)
Lemma crash_old g w w' D j n (ord : list stored) : SrvInv g w D -> (forall m, slot m w = None -> slot m w' = None) -> found_settled (PNew j n) w w' ->
  Permutation ord (crash_disks (PNew j n) w w') -> (exists desc d l, ord = (str "default", desc, d) :: l) ->
  exists w1, boot g ord = Some w1 /\ SrvInv g w1 (after_restart D).
Proof.
  intros V Nn Se Pm Ed. cbn [crash_disks] in Pm. rewrite new_none in Pm; [|intros m S; rewrite N.add_0_l in S; apply Nn in S; exact S].
  cbn [map] in Pm. rewrite app_nil_r in Pm. apply boot_ok.
  - eapply Permutation_NoDup; [apply Permutation_map; apply Permutation_sym; exact Pm|]. rewrite stored_names. apply names_nodup. intros i i' r r'. apply (sv_uniq _ _ _ V).
  - intros m x Dm. eapply Permutation_in; [apply Permutation_map; apply Permutation_sym; exact Pm|]. rewrite stored_names. apply names_in. exact (sv_have _ _ _ V m x Dm).
  - exact Ed.
  - eapply Permutation_Forall; [apply Permutation_sym; exact Pm|]. apply stored_live; [exact V|]. exact Se.
Qed.

Lemma forall_stored g D name y l : (forall s, In s l -> fst (fst s) <> name) -> Forall (stored_ok g D) l -> Forall (stored_ok g (dset name y D)) l.
Proof.
  intros N F. apply Forall_forall. intros s I. rewrite Forall_forall in F. destruct (F s I) as (x & Dx & B). exists x. split; [|exact B].
  rewrite dset_other by (apply N; exact I). exact Dx.
Qed.

Lemma crash_added g w w' D j n r name (ord : list stored) : server_ok g -> SrvInv g w D -> blen name <= 128 -> D name = None ->
  r_cfg r = fresh_conf name -> new_writes empty_disk (r_dk r) = fresh_writes (fresh_mode g) ->
  w_slots w' = push_slot (free_slot 0 (w_slots w)) r (w_slots w) ->
  point_ok (PNew j n) w w' -> found_settled (PNew j n) w w' ->
  Permutation ord (crash_disks (PNew j n) w w') -> (exists desc d l, ord = (str "default", desc, d) :: l) ->
  exists w1, boot g ord = Some w1 /\ SrvInv g w1 (after_restart (dset name (Some (new_entry g name)) D)).
Proof.
  intros G V Ln Gd Cr Lg Ps Po Se Pm Ed. set (k := free_slot 0 (w_slots w)) in *.
  pose proof (new_push w w' r Ps) as Np. cbn [crash_disks] in Pm. rewrite Np in Pm. cbn [map] in Pm. destruct Po as (P1 & P2).
  assert (Sk : slot k w = None) by (rewrite slot_oget; apply free_none).
  assert (Sk' : slot k w' = Some r) by (rewrite slot_oget, Ps, push_at by reflexivity; rewrite N.eqb_refl; reflexivity).
  assert (Bo : boots g (crash_new j n r) (new_entry g name)) by (apply new_boots; [exact G|exact Ln|exact Cr|exact Lg|exact P1|intro J; exact (P2 k r Sk Sk' J)]).
  assert (Fs : ~ In name (ns_names (w_slots w))).
  { intro I. apply names_in in I. destruct I as (u & ru & Su & Nu). destruct (sv_live _ _ _ V u ru Su) as (x & Dx & _). rewrite Nu, Gd in Dx. discriminate. }
  assert (Cn : fst (fst (crash_new j n r)) = name) by (unfold crash_new; cbn [fst]; rewrite Cr; reflexivity).
  assert (Nm : Permutation (map (fun s : stored => fst (fst s)) ord) (ns_names (w_slots w) ++ [name])).
  { rewrite <- Cn, <- stored_names. change [fst (fst (crash_new j n r))] with (map (fun s : stored => fst (fst s)) [crash_new j n r]). rewrite <- map_app. apply Permutation_map. exact Pm. }
  generalize dependent (crash_new j n r). intros sn Pm Bo Cn. apply boot_ok.
  - eapply Permutation_NoDup; [apply Permutation_sym; exact Nm|]. eapply Permutation_NoDup; [apply Permutation_cons_append|]. constructor; [exact Fs|].
    apply names_nodup. intros i i' r1 r1'. apply (sv_uniq _ _ _ V).
  - intros m x Dm. eapply Permutation_in; [apply Permutation_sym; exact Nm|]. apply in_app_iff. unfold dset in Dm. destruct (bseqb m name) eqn:E.
    + apply bseqb_eq in E. subst m. right. left. reflexivity.
    + left. apply names_in. exact (sv_have _ _ _ V m x Dm).
  - exact Ed.
  - eapply Permutation_Forall; [apply Permutation_sym; exact Pm|]. apply Forall_app. split.
    + apply forall_stored; [|apply stored_live; [exact V|exact Se]]. intros s0 I E. apply Fs. rewrite <- stored_names, <- E. apply (in_map (fun s : stored => fst (fst s)) _ _ I).
    + constructor; [|constructor]. exists (new_entry g name). rewrite Cn. split; [apply dset_same|exact Bo].
Qed.

Lemma ns_load_fresh g k name t : server_ok g -> TInv t k [] -> blen name <= 128 ->
  exists r, namespace_load (g_mode (v_set g)) k name [] empty_disk t = Some (t, r) /\ r_cfg r = fresh_conf name /\
    new_writes empty_disk (r_dk r) = fresh_writes (fresh_mode g).
Proof.
  intros G T L. destruct (load_first name L) as (desc & A & B). destruct (holds_new g k t name G T) as (s & O & Et & U).
  unfold namespace_load. rewrite A, O. exists (mkNs (fresh_conf name) desc (ix s) (dt s) (dk s)). rewrite Et. split; [reflexivity|].
  split; [reflexivity|]. cbn [r_dk]. exact (fresh_log g k t s G T O).
Qed.

(* what NSNEW does *)
Lemma nsnew_does g v cl me a w w' rep st D : server_ok g -> SrvInv g w D -> command_nsnew g (perm_of cl) a w = Done rep st w' -> w' = w \/
  exists name r, request_spec g v cl me CNsnew a rep D (dset name (Some (new_entry g name)) D) /\ blen name <= 128 /\ D name = None /\
    r_cfg r = fresh_conf name /\ new_writes empty_disk (r_dk r) = fresh_writes (fresh_mode g) /\ w_slots w' = push_slot (free_slot 0 (w_slots w)) r (w_slots w).
Proof.
  intros G V H. unfold command_nsnew in H. apply guard_spec in H. cbn [perm_of p_admin] in H. cbv beta iota delta [request_spec]. cbv zeta.
  destruct H as [(F & H)|(F & E & ->)]; [|auto].
  rewrite text_cstr in H. rewrite valid_allowed in H. destruct (allowed_name _) eqn:Al; cbn [negb] in H; [|done_inv H; auto].
  pose proof (get_dir g w D (text (arg 1 a)) V) as Gd. destruct (namespace_get _ w) as [[i r]|]; [done_inv H; auto|].
  destruct (_ =? 0); [discriminate|].
  assert (Fm : form 2 a = true) by (destruct (c_admin cl); [exact F|discriminate]). pose proof (form_short _ _ Fm) as Ln.
  assert (T : TInv (w_tb w) (free_slot 0 (w_slots w)) []) by (apply (sv_free _ _ _ V); exact (free_none _)).
  destruct (ns_load_fresh g (free_slot 0 (w_slots w)) (text (arg 1 a)) (w_tb w) G T Ln) as (r & L & Cr & Lg).
  rewrite L in H. done_inv H. right. exists (text (arg 1 a)), r. cbn [w_slots].
  split; [|split; [exact Ln|split; [exact Gd|split; [exact Cr|split; [exact Lg|reflexivity]]]]].
  unfold absent. rewrite Fm, Gd. cbn [andb]. destruct (c_admin cl); [|discriminate F]. cbn [andb]. split; reflexivity.
Qed.

Lemma nsnew_cut g v cl me a w w' rep st D j n (ord : list stored) : server_ok g -> SrvInv g w D -> command_nsnew g (perm_of cl) a w = Done rep st w' ->
  point_ok (PNew j n) w w' -> found_settled (PNew j n) w w' ->
  Permutation ord (crash_disks (PNew j n) w w') -> (exists desc d l, ord = (str "default", desc, d) :: l) ->
  exists D1 w1, request_crash g v cl me CNsnew a D D1 /\ boot g ord = Some w1 /\ SrvInv g w1 (after_restart D1).
Proof.
  intros G V H Po Se Pm Ed. destruct (nsnew_does g v cl me a w w' rep st D G V H) as [->|(name & r & Sp & Ln & Gd & Cr & Lg & Ps)].
  - destruct (crash_old g w w D j n ord V (fun m S => S) Se Pm Ed) as (w1 & B & V1). exists D, w1. split; [left; reflexivity|auto].
  - destruct (crash_added g w w' D j n r name ord G V Ln Gd Cr Lg Ps Po Se Pm Ed) as (w1 & B & V1). eexists _, w1. split; [right; left; exists rep; exact Sp|auto].
Qed.

(* ---- the periodic check ---- *)

Lemma jump_dk s t : dk (jump_next (set_tb t s)) = dk (jump_next s).
Proof.
  reflexivity.
Qed.

Lemma rotate_slots old : forall ks w, NoDup ks -> forall m,
  slot m (files_rotate old ks w) = slot m w \/
  exists r t, slot m w = Some r /\ In m old /\
    let s := jump_next (mkEst t (r_ix r) (r_dt r) (r_dk r)) in slot m (files_rotate old ks w) = Some (mkNs (r_cfg r) (r_desc r) (ix s) (dt s) (dk s)).
Proof.
  induction ks as [|k ks IH]; intros w Nd m; cbn [files_rotate]; [left; reflexivity|]. inversion Nd as [|? ? Nk Nks]; subst.
  set (w1 := match slot k w with Some r => _ | None => w end).
  assert (Sk : forall w u, ~ In u ks -> slot u (files_rotate old ks w) = slot u w).
  { clear. intro w. revert w. induction ks as [|k ks IH]; intros w u N; cbn [files_rotate]; [reflexivity|]. rewrite IH by (intro; apply N; right; assumption).
    destruct (slot k w) as [r|] eqn:S; [|reflexivity]. destruct (_ && _); [|reflexivity]. unfold put_est. rewrite slot_put by congruence.
    destruct (N.eqb_spec u k) as [->|]; [exfalso; apply N; left; reflexivity|reflexivity]. }
  destruct (N.eq_dec m k) as [->|M].
  - rewrite Sk by exact Nk. unfold w1. destruct (slot k w) as [r|] eqn:S; [|left; congruence]. destruct (x_updated _ && _) eqn:U; [|left; congruence].
    apply andb_true_iff in U. destruct U as (_ & U). apply existsb_exists in U. destruct U as (y & Y & E). apply N.eqb_eq in E. subst y.
    right. exists r, (w_tb w). split; [reflexivity|]. split; [exact Y|]. cbv zeta. unfold put_est. rewrite slot_put by congruence. rewrite N.eqb_refl. reflexivity.
  - assert (E : slot m w1 = slot m w).
    { unfold w1. destruct (slot k w) as [r|] eqn:S; [|reflexivity]. destruct (_ && _); [|reflexivity]. unfold put_est. rewrite slot_put by congruence.
      replace (m =? k) with false by lia. reflexivity. }
    destruct (IH w1 Nks m) as [H|(r & t & H1 & H2 & H3)]; rewrite ?E in *; [left; exact H|right; exists r, t; auto].
Qed.

Lemma idle_slots g now old w out st w' : idle g now old w = SDone out st w' -> forall m, slot m w' = slot m w \/
  exists r t, slot m w = Some r /\ In m old /\
    let s := jump_next (mkEst t (r_ix r) (r_dt r) (r_dk r)) in slot m w' = Some (mkNs (r_cfg r) (r_desc r) (ix s) (dt s) (dk s)).
Proof.
  intros H m. unfold idle in H. destruct (watch_timeout _ _ _) as [o l]. injection H as <- <- <-. destruct (v_rotate g); [|left; reflexivity].
  exact (rotate_slots old _ (mkWorld (w_tb w) (w_slots w) (w_eff w) l) (upto_nodup _ 0) m).
Qed.

Lemma jump_content p now c ct ct' : content_crash p now c QJump ct ct' -> p_admin p = true -> ct' = ct.
Proof.
  intros H A. destruct ct as [m|st], ct' as [m'|st']; cbn [content_crash] in H; try contradiction.
  - unfold kv_crash in H. cbn [kv_step snd] in H. destruct H as [->|[->|(k & v & ts & H & _)]]; [reflexivity|reflexivity|discriminate].
  - unfold sq_crash in H. cbn [sq_step snd] in H. destruct H as [->|[->|(H1 & H2)]]; [reflexivity|reflexivity|].
    destruct st, st'. cbn in H1, H2. subst. reflexivity.
Qed.

Lemma idle_cut g now old w w' out st D k j n (ord : list stored) : server_ok g -> SrvInv g w D -> SpecServer.covered g (SIdle now old) w ->
  idle g now old w = SDone out st w' -> point_ok (PRun k j n) w w' -> found_settled (PRun k j n) w w' ->
  Permutation ord (crash_disks (PRun k j n) w w') -> (exists desc d l, ord = (str "default", desc, d) :: l) ->
  exists w1, boot g ord = Some w1 /\ SrvInv g w1 (after_restart D).
Proof.
  intros G V Cv H Po Se Pm Ed. pose proof (idle_step g now old w D out st w' G V Cv H) as V'. pose proof (idle_slots g now old w out st w' H) as Sl.
  apply (crash_boot g w w' D D k j n ord V); auto. intros i r S. destruct (Sl i) as [Q|(r0 & t & S0 & Io & Q)].
  - apply (entry_quiet g w w' D k j n i r V S); [|exact (Se i r S)]. intros r1 r2 S1 S2. rewrite Q in S2. rewrite S1 in S2. injection S2 as <-. apply still_refl.
  - rewrite S in S0. injection S0 as <-. cbv zeta in Q. set (s' := jump_next _) in Q.
    destruct (sv_live _ _ _ V i r S) as (x & Dx & Cx & U & Co & De). destruct (sv_live _ _ _ V' i _ Q) as (x' & Dx' & _ & U' & _ & _). cbn [r_cfg] in Dx'.
    rewrite Dx in Dx'. injection Dx' as <-. destruct (Cv i r Io S) as (Rm & St). pose proof (Se i r S) as Se1.
    destruct (N.eq_dec i k) as [<-|Ik].
    2:{ pose proof (entry_sides g w w' D D k j n i r _ V V' S Q eq_refl) as X. replace (if i <? k then D else D) with D in X by (destruct (i <? k); reflexivity).
        destruct (i <? k) eqn:Lt.
        - apply X; auto. unfold in_sequential. cbn [r_ix r_dk]. intro Md. rewrite Q in Se1. unfold crash_entry in Se1. rewrite Lt in Se1. cbn [snd r_dk] in Se1. apply Se1.
          pose proof (holds_mode_of _ _ _ _ U) as M1. pose proof (holds_mode_of _ _ _ _ U') as M2. unfold in_sequential. cbn [est_of ix r_ix] in M1, M2.
          destruct (d_content x); [rewrite M2 in Md; discriminate|exact M1].
        - unfold crash_entry in *. rewrite Q, Lt in *. replace (i =? k) with false in * by lia. apply (entry_keep g w D i r); auto; exact (sv_io _ _ _ _ _ V S). }
    specialize (Po r _ S Q). destruct Po as (P1 & P2 & _). rewrite Q in *. unfold crash_entry, ns_cut in *. rewrite N.ltb_irrefl, N.eqb_refl in *. cbn [fst snd r_desc r_dk] in *.
    rewrite bseqb_refl, desc_none. replace (if Nat.leb _ j then r_desc r else r_desc r) with (r_desc r) by (destruct (Nat.leb _ j); reflexivity).
    assert (Es : dk s' = dk (snd (run_req (v_set g) (mkPerm true true) 0 QJump (default_cfg []) (est_of w r)))) by (symmetry; exact (jump_dk (mkEst t (r_ix r) (r_dt r) (r_dk r)) (w_tb w))).
    rewrite Es in *.
    destruct (holds_cut g i (est_of w r) x (mkPerm true true) 0 QJump (default_cfg []) j n G U I Rm) as (ct & Cc & Dh).
    + intro E. split; [exact I|]. split; [constructor|]. split; [exact Rm|]. intros _. apply St. exact E.
    + intro E. split; [apply P1|apply Se1]; exact E.
    + exact P2.
    + apply jump_content in Cc; [|reflexivity]. subst ct. exists x. cbn [fst]. split; [exact Dx|]. rewrite <- Cx in *. apply disk_boots; auto.
Qed.

(* ---- events and histories ---- *)

Lemma new_ext w0 w l (H : forall m, slot m w0 = slot m w) : forall i, new_slots w0 i l = new_slots w i l.
Proof. induction l as [|o l IH]; intro i; cbn [new_slots]; [reflexivity|]. rewrite H, IH. reflexivity. Qed.

Lemma crash_step g e pt (ord : list stored) w D : server_ok g -> SrvInv g w D -> kcovered g (KCrash e pt ord) w ->
  exists D1 w1, crash_event g e w D D1 /\ boot g ord = Some w1 /\ SrvInv g w1 (after_restart D1).
Proof.
  intros G V (Cv & Md & K). destruct (run_sevent g e w) as [out st w'|] eqn:R; [|contradiction]. destruct K as (Pm & Ed & Po & Se).
  assert (Same : w_slots w' = w_slots w -> exists D1 w1, crash_event g e w D D1 /\ boot g ord = Some w1 /\ SrvInv g w1 (after_restart D1)).
  { intro E. assert (X : exists w1, boot g ord = Some w1 /\ SrvInv g w1 (after_restart D)).
    { destruct pt as [k j n|j n].
      - exact (crash_none g w w' D k j n ord V (quiet_refl w w' E) Se Pm Ed).
      - apply (crash_old g w w' D j n ord V); auto. intros m. unfold slot. rewrite E. auto. }
    destruct X as (w1 & X). exists D, w1. split; [left; reflexivity|exact X]. }
  destruct e as [fd|fd|fd v argv|now old|o]; cbn [run_sevent may_die] in *.
  - unfold connect in R. destruct (client_at fd w); [discriminate|]. injection R as <- <- <-. apply Same. reflexivity.
  - unfold close in R. injection R as <- <- <-. apply Same. reflexivity.
  - pose proof (request_step g v fd argv w D out st w' G V Cv R) as (D' & De & V'). apply request_inv in R. destruct R as (cl & C & H).
    destruct H as [(-> & ->)|(rep & w2 & o1 & Di & P & ->)]; [apply Same; reflexivity|].
    apply posthandler_world in P. destruct P as (P1 & P2 & P3 & _).
    apply dispatch_inv in Di. destruct Di as [(N & -> & E)|(i & r & Ci & S & Di)]; [apply Same; exact P2|].
    destruct Di as [(L & -> & E)|(h & c & L & Di)]; [apply Same; exact P2|].
    set (a := effective cl argv) in *.
    set (cl' := c_set_exec (Some h) cl) in *. set (w0 := put_client fd cl' w) in *.
    assert (V0 : SrvInv g w0 D) by (apply (sv_ext g w); auto).
    pose proof (handle_wrote g v fd cl' i r c a w0 h rep st w2 D V0 S L Di) as Wr.
    assert (Wr' : wrote g v cl' i c a w w') by (apply (wrote_ext g v cl' i c a w w' w0 w2); auto).
    assert (Ok : ok_here g v cl' c a r w) by exact (Cv cl i r h c C Ci S L).
    destruct De as (cl0 & C0 & De). rewrite C in C0. injection C0 as <-. destruct De as [(De & _)|(rep0 & rest & Eo & De)]; [discriminate|].
    injection Eo as <- <-. rewrite Ci in De. destruct De as (r0 & S0 & De). rewrite S in S0. injection S0 as <-. fold a in De. rewrite L in De.
    assert (X : exists D1 w1, request_crash g v cl (n_name (r_cfg r)) c a D D1 /\ boot g ord = Some w1 /\ SrvInv g w1 (after_restart D1)).
    { destruct Po as [(cl0 & h0 & c0 & C0 & L0 & Rc)|Po].
      { rewrite C in C0. injection C0 as <-. fold a in L0. rewrite L in L0. injection L0 as <- <-.
        destruct Wr' as [H1 H2|r1 q H1 H2 H3 H4|t rt c' H1 H2 H3 H4|t rt sq H1 H2 H3 H4 H5 H6];
          [|exfalso; destruct Rc as [->| ->]; discriminate|exfalso; destruct Rc as [->| ->]; discriminate|exfalso; destruct Rc as [->| ->]; discriminate].
        assert (Y : exists w1, boot g ord = Some w1 /\ SrvInv g w1 (after_restart D)).
        { destruct pt as [k j n|j n]; [exact (crash_none g w w' D k j n ord V H1 Se Pm Ed)|].
          apply (crash_old g w w' D j n ord V); auto. apply H2. destruct Rc as [->| ->]; discriminate. }
        destruct Y as (w1 & Y). exists D, w1. split; [left; reflexivity|exact Y]. }
      destruct pt as [k j n|j n].
      - exact (request_cut g v cl' i r c a w w' rep D D' k j n ord G V V' S Wr' Ok De Po Se Pm Ed).
      - assert (Nn : c = CNsnew \/ forall m, slot m w = None -> slot m w' = None).
        { destruct Wr' as [H1 H2|r1 q H1 H2 H3 H4|t rt c' H1 H2 H3 H4|t rt sq H1 H2 H3 H4 H5 H6].
          - destruct c; try (left; reflexivity); right; apply H2; discriminate.
          - right. intros m Sm. rewrite H4. destruct (N.eqb_spec m i) as [->|]; [congruence|exact Sm].
          - right. intros m Sm. rewrite H4. destruct (N.eqb_spec m t) as [->|]; [congruence|exact Sm].
          - right. intros m Sm. rewrite H6. destruct (N.eqb_spec m t) as [->|]; [congruence|exact Sm]. }
        destruct Nn as [->|Nn].
        + unfold handle in Di.
          assert (Sl : forall m, slot m w0 = slot m w) by reflexivity. assert (Sl' : forall m, slot m w2 = slot m w') by (intro m; unfold slot; rewrite P2; reflexivity).
          apply (nsnew_cut g v cl' _ a w0 w2 rep st D j n ord G V0 Di).
          * destruct Po as (A & B). split; [exact A|]. intros m r'. rewrite Sl'. apply B.
          * exact Se.
          * cbn [crash_disks] in *. rewrite <- P2, (new_ext w0 w _ Sl). exact Pm.
          * exact Ed.
        + destruct (crash_old g w w' D j n ord V Nn Se Pm Ed) as (w1 & B & V1). exists D, w1. split; [left; reflexivity|auto]. }
    destruct X as (D1 & w1 & X1 & X2). exists D1, w1. split; [|exact X2]. right. exists cl, i, r, h, c. auto.
  - destruct Po as [[]|Po]. assert (X : exists w1, boot g ord = Some w1 /\ SrvInv g w1 (after_restart D)).
    { destruct pt as [k j n|j n].
      - exact (idle_cut g now old w w' out st D k j n ord G V Cv R Po Se Pm Ed).
      - apply (crash_old g w w' D j n ord V); auto. intros m Sm. destruct (idle_slots g now old w out st w' R m) as [E|(r & t & E & _)]; congruence. }
    destruct X as (w1 & X). exists D, w1. split; [left; reflexivity|exact X].
  - contradiction.
Qed.

Lemma kevents_run g es : server_ok g -> forall w D outs w', SrvInv g w D -> all_kcovered g es w -> run_kevents g es w = Some (outs, w') ->
  exists D', kdir_run g es w outs D D' /\ SrvInv g w' D'.
Proof.
  intro G. induction es as [|e es IH]; intros w D outs w' V Cv H; cbn [run_kevents all_kcovered] in *.
  - injection H as <- <-. exists D. split; [reflexivity|exact V].
  - destruct Cv as (C1 & C2). destruct (run_kevent g e w) as [[out w1]|] eqn:E; [|discriminate].
    destruct (run_kevents g es w1) as [[o w2]|] eqn:R; [|discriminate]. injection H as <- <-.
    destruct e as [e|e pt ord]; cbn [run_kevent kcovered kdir_run] in *.
    + destruct (run_sevent g e w) as [o1 st w1'|] eqn:E1; [|discriminate]. injection E as <- <-.
      destruct (event_step g e w D o1 st w1' G V C1 E1) as (D1 & A & V1). destruct (IH w1' D1 o w2 V1 C2 R) as (D2 & B & V2).
      exists D2. split; [|exact V2]. exists st, w1', D1. auto.
    + destruct (crash_step g e pt ord w D G V C1) as (D1 & w1' & A & B & V1). rewrite B in E. injection E as <- <-.
      destruct (IH w1' (after_restart D1) o w2 V1 C2 R) as (D2 & B2 & V2). exists D2. split; [|exact V2]. exists w1', D1. auto.
Qed.

Lemma crash_server_run g es outs w0 w : server_ok g -> first_boot g = Some w0 -> all_kcovered g es w0 -> run_kevents g es w0 = Some (outs, w) ->
  exists D, kdir_run g es w0 outs (only_default g) D /\ SrvInv g w D.
Proof.
  intros G B Cv R. destruct (first_ok g G) as (w1 & B1 & V). rewrite B in B1. injection B1 as <-. exact (kevents_run g es G w0 _ outs w V Cv R).
Qed.

(* the server always starts again *)
Lemma crash_restarts g es outs w0 w e pt ord : server_ok g -> first_boot g = Some w0 -> all_kcovered g es w0 -> run_kevents g es w0 = Some (outs, w) ->
  kcovered g (KCrash e pt ord) w -> exists w1, run_kevent g (KCrash e pt ord) w = Some ([], w1).
Proof.
  intros G B Cv R K. destruct (crash_server_run g es outs w0 w G B Cv R) as (D & _ & V). destruct (crash_step g e pt ord w D G V K) as (D1 & w1 & _ & Bt & _).
  exists w1. cbn [run_kevent]. rewrite Bt. reflexivity.
Qed.

(* ---- one crash leaves the other namespaces alone ---- *)

Lemma request_spec_others g v cl me c a rep D D' n : request_spec g v cl me c a rep D D' ->
  (is_data c = true -> n <> me) -> (c = CNsset \/ c = CNsnew \/ c = CNsdel -> n <> text (arg 1 a)) -> D' n = D n.
Proof.
  intros H A B. unfold request_spec in H.
  destruct c; cbn [is_data] in *; try (rewrite H; reflexivity); try (destruct H as [-> _]; reflexivity);
    try (destruct (req_of _ a) as [q|]; [|destruct H as [_ ->]; reflexivity];
         destruct H as (x & _ & H); destruct (content_step _ _ _ _ _) as [r0 ct]; destruct H as (_ & ->);
         apply dset_other; apply A; reflexivity).
  all: try (destruct (_ && _); [destruct H as (_ & ->); apply dset_other; apply B; auto|destruct H as (_ & ->); reflexivity]).
  destruct (_ && _); [|destruct H as (_ & ->); reflexivity]. destruct (D (text (arg 1 a))) as [x|]; [|destruct H as (_ & ->); reflexivity].
  destruct (bseqb _ _).
  - destruct H as [(_ & ->)|(_ & _ & _ & sq & _ & ->)]; [reflexivity|]. apply dset_other. apply B. auto.
  - destruct (setting _ _ _); destruct H as (_ & ->); [apply dset_other; apply B; auto|reflexivity].
Qed.

(* ---- the hypotheses, computed ---- *)

Definition mki_b (w : option dwrite) : bool := match w with Some (MkI _) => true | _ => false end.
Definition after_mki_b (W : list dwrite) (j : nat) : bool := match j with O => false | S i => mki_b (nth_error W i) end.
Definition between_b (W : list dwrite) (j : nat) (n : N) : bool :=
  match nth_error W j with Some (WrI _ _ _) => n =? 0 | _ => true end && negb (after_mki_b W j).
Definition covered_crash_b (fs : list bytes * list bytes) (W : list dwrite) (j : nat) (n : N) : bool :=
  match nth_error W j with
  | Some (WrI f off b) => (n =? 0) || (off + blen b <=? index_size f (apply_writes (firstn j W) fs))
  | _ => true
  end && negb (after_mki_b W j).

Lemma after_mki_ok W j : negb (after_mki_b W j) = true -> match j with O => True | S i => match nth_error W i with Some (MkI _) => False | _ => True end end.
Proof. destruct j as [|i]; [auto|]. cbn [after_mki_b]. destruct (nth_error W i) as [[]|]; cbn [mki_b negb]; auto. discriminate. Qed.

Lemma between_b_ok W j n : between_b W j n = true -> between_writes W j n.
Proof.
  unfold between_b, between_writes. intro H. apply andb_true_iff in H. destruct H as (A & B). split; [|apply after_mki_ok; exact B].
  destruct (nth_error W j) as [[]|]; auto. apply N.eqb_eq. exact A.
Qed.

Lemma covered_crash_ok fs W j n : covered_crash_b fs W j n = true -> CrashSpec.covered fs W j n.
Proof.
  unfold covered_crash_b, CrashSpec.covered. intro H. apply andb_true_iff in H. destruct H as (A & B). split; [|apply after_mki_ok; exact B].
  destruct (nth_error W j) as [[]|]; auto. apply orb_true_iff in A. destruct A as [A|A]; [left|right]; lia.
Qed.

Definition same_pass_b (a b : option bytes) : bool :=
  match a, b with Some x, Some y => bseqb x y | None, None => true | _, _ => false end.
Definition point_b (pt : point) (w w' : world) : bool :=
  match pt with
  | PRun k j n =>
      match slot k w, slot k w' with
      | Some r, Some r' =>
          let W := new_writes (r_dk r) (r_dk r') in
          (if seq_b r then between_b W j n else covered_crash_b (dk_i (r_dk r), dk_d (r_dk r)) W j n) &&
          (bseqb (r_desc r') (r_desc r) ||
           (negb (Nat.eqb j (length W)) || (n =? 0)) &&
           (same_pass_b (n_pass (r_cfg r')) (n_pass (r_cfg r)) || match n_pass (r_cfg r') with None => true | _ => false end ||
            Nat.leb j (length W) || Nat.leb (length W + 3) j))
      | _, _ => true
      end
  | PNew j n => (negb (Nat.eqb j 0) || (n =? 0)) &&
      forallb (fun r' => negb (Nat.leb 2 j) || between_b (new_writes empty_disk (r_dk r')) (j - 2) n) (new_slots w 0 (w_slots w'))
  end.

Lemma new_slots_in w r' : forall l b i, nget i l = Some (Some r') -> slot (b + i) w = None -> In r' (new_slots w b l).
Proof.
  induction l as [|o l IH]; intros b i H S; [apply nget_lt in H; cbn in H; lia|]. cbn [new_slots]. apply in_or_app.
  destruct (N.eq_dec i 0) as [->|Hi].
  - left. cbn in H. injection H as ->. rewrite N.add_0_r in S. rewrite S. left. reflexivity.
  - right. apply (IH (b + 1) (i - 1)); [|replace (b + 1 + (i - 1)) with (b + i) by lia; exact S].
    cbn [nget] in H. replace (i =? 0) with false in H by lia. replace (i - 1) with (N.pred i) by lia. exact H.
Qed.

Lemma point_b_ok pt w w' : point_b pt w w' = true -> point_ok pt w w'.
Proof.
  destruct pt as [k j n|j n]; cbn [point_b point_ok]; intro H.
  - intros r r' S S'. rewrite S, S' in H. cbv zeta in *. apply andb_true_iff in H. destruct H as (A & B). unfold in_sequential. unfold seq_b in A. split; [|split].
    + intro E. rewrite E in A. apply between_b_ok. exact A.
    + intro E. destruct (x_mode (r_ix r) =? MODE_SEQ) eqn:E1; [apply N.eqb_eq in E1; contradiction|]. apply covered_crash_ok. exact A.
    + intro E. destruct (bseqb (r_desc r') (r_desc r)) eqn:E1; [apply bseqb_eq in E1; contradiction|]. cbn [orb] in B. apply andb_true_iff in B. destruct B as (B & C). split.
      * intro J. rewrite J, Nat.eqb_refl in B. apply N.eqb_eq. exact B.
      * apply orb_true_iff in C. destruct C as [C|C]; [|right; right; right; apply Nat.leb_le; exact C].
        apply orb_true_iff in C. destruct C as [C|C]; [|right; right; left; apply Nat.leb_le; exact C].
        apply orb_true_iff in C. destruct C as [C|C]; [left|right; left; destruct (n_pass (r_cfg r')); [discriminate|reflexivity]].
        unfold same_pass_b in C. destruct (n_pass (r_cfg r')), (n_pass (r_cfg r)); try discriminate; [apply bseqb_eq in C; subst|]; reflexivity.
  - apply andb_true_iff in H. destruct H as (A & B). split.
    + intros ->. apply N.eqb_eq. exact A.
    + intros i r' S S' J. rewrite forallb_forall in B. rewrite slot_oget in S'. unfold oget in S'. destruct (nget i (w_slots w')) as [o|] eqn:E; [|discriminate]. subst o.
      specialize (B r' (new_slots_in w r' _ 0 i E S)). apply orb_true_iff in B. destruct B as [B|B]; [|apply between_b_ok; exact B].
      apply Nat.leb_le in J. rewrite J in B. discriminate.
Qed.

Definition dk_settled_b (d : disk) : bool :=
  (nlen (dk_i d) =? 1) || match nget (nlen (dk_i d) - 1) (dk_i d) with Some f => 29 <? blen f | None => false end.
Definition found_b (pt : point) (w w' : world) : bool :=
  forallb (fun i => match slot i w with
    | Some r => calm_or r (dk_settled_b (match pt with PRun k j n => snd (crash_entry k j n i r (slot i w')) | PNew _ _ => r_dk r end))
    | None => true end) (upto (length (w_slots w)) 0).

Lemma upto_all n : forall i k, i <= k -> k < i + N.of_nat n -> In k (upto n i).
Proof.
  induction n as [|n IH]; intros i k A B; [lia|]. cbn [upto]. destruct (N.eq_dec i k) as [->|Ne]; [left; reflexivity|right; apply IH; lia].
Qed.

Lemma found_b_ok pt w w' : found_b pt w w' = true -> found_settled pt w w'.
Proof.
  intros H i r S Sq. unfold found_b in H. rewrite forallb_forall in H. assert (I : In i (upto (length (w_slots w)) 0)).
  { rewrite slot_oget in S. unfold oget in S. destruct (nget i (w_slots w)) eqn:E; [|discriminate]. apply nget_lt in E. rewrite nlen_length in E. apply upto_all; lia. }
  specialize (H i I). rewrite S in H. apply (calm_or_ok _ _ H) in Sq. unfold dk_settled_b in Sq. unfold disk_settled.
  apply orb_true_iff in Sq. destruct Sq as [E|E]; [left; lia|right]. destruct (nget _ _) as [f|]; [|discriminate]. exists f. split; [reflexivity|lia].
Qed.

Definition may_die_b (e : sevent) : bool := match e with SRestart _ => false | _ => true end.

Lemma may_die_ok e : may_die_b e = true -> may_die e.
Proof. destruct e; cbn [may_die_b may_die]; auto; discriminate. Qed.

Definition reopens_b (e : sevent) (w : world) : bool :=
  match e with
  | SRequest fd v argv => match client_at fd w with None => false | Some cl =>
      match lookup_handler (arg 0 (effective cl argv)) with Some (_, CReload) | Some (_, CFlush) => true | _ => false end end
  | _ => false
  end.

Lemma reopens_ok e w : reopens_b e w = true -> reopens e w.
Proof.
  destruct e; cbn [reopens_b reopens]; try discriminate. destruct (client_at _ w) as [cl|]; [|discriminate]. intros H.
  destruct (lookup_handler _) as [[h c]|] eqn:L; [|discriminate]. exists cl, h, c. split; [reflexivity|]. split; [exact L|].
  destruct c; try discriminate H; auto.
Qed.

(* a history, with the crashes at the points given and the directories found in the order
   of the slots *)
Fixpoint kbuild (g : server) (l : list (sevent * option point)) (w : world) : list kevent :=
  match l with
  | [] => []
  | (e, o) :: t =>
      match run_sevent g e w with
      | SUndef => []
      | SDone _ _ w' =>
          match o with
          | None => KEv e :: kbuild g t w'
          | Some pt => let ord := crash_disks pt w w' in
              KCrash e pt ord :: match boot g ord with Some w1 => kbuild g t w1 | None => [] end
          end
      end
  end.

Fixpoint kcheck_b (g : server) (l : list (sevent * option point)) (w : world) : bool :=
  match l with
  | [] => true
  | (e, o) :: t => coveredb g e w &&
      match run_sevent g e w with
      | SUndef => false
      | SDone _ _ w' =>
          match o with
          | None => kcheck_b g t w'
          | Some pt => let ord := crash_disks pt w w' in
              may_die_b e && match ord with (n, _, _) :: _ => bseqb n (str "default") | [] => false end &&
              (reopens_b e w || point_b pt w w') && found_b pt w w' &&
              match boot g ord with Some w1 => kcheck_b g t w1 | None => false end
          end
      end
  end.

Lemma kcheck_ok g l : forall w, kcheck_b g l w = true -> all_kcovered g (kbuild g l w) w.
Proof.
  induction l as [|(e, o) l IH]; intros w H; cbn [kcheck_b kbuild] in *; [exact I|]. apply andb_true_iff in H. destruct H as (A & B).
  destruct (run_sevent g e w) as [out st w'|] eqn:R; [|discriminate]. destruct o as [pt|].
  - cbv zeta in *. apply andb_true_iff in B. destruct B as (B & Bt). apply andb_true_iff in B. destruct B as (B & Bs). apply andb_true_iff in B. destruct B as (B & Bp).
    apply andb_true_iff in B. destruct B as (Bm & Bd). cbn [all_kcovered run_kevent]. split.
    + cbn [kcovered]. split; [apply coveredb_ok; exact A|]. split; [apply may_die_ok; exact Bm|]. rewrite R. split; [apply Permutation_refl|].
      split; [|split; [apply orb_true_iff in Bp; destruct Bp as [Bp|Bp]; [left; apply reopens_ok|right; apply point_b_ok]; exact Bp|apply found_b_ok; exact Bs]].
      destruct (crash_disks pt w w') as [|((nm, de), d) t]; [discriminate|]. apply bseqb_eq in Bd. subst nm. exists de, d, t. reflexivity.
    + destruct (boot g (crash_disks pt w w')); [apply IH; exact Bt|exact I].
  - cbn [all_kcovered run_kevent]. split; [apply coveredb_ok; exact A|]. rewrite R. apply IH. exact B.
Qed.

Lemma crash_theorem g es outs w0 w : server_ok g -> first_boot g = Some w0 -> all_kcovered g es w0 -> run_kevents g es w0 = Some (outs, w) ->
  exists D, kdir_run g es w0 outs (only_default g) D /\
    D (str "default") <> None /\
    (forall n, D n <> None <-> exists i r, slot i w = Some r /\ n_name (r_cfg r) = n) /\
    (forall i r, slot i w = Some r -> exists x, D (n_name (r_cfg r)) = Some x /\ d_conf x = r_cfg r).
Proof.
  intros G B A R. destruct (crash_server_run g es outs w0 w G B A R) as (D & Dr & V). exists D. split; [exact Dr|].
  assert (M : forall n, D n <> None <-> exists i r, slot i w = Some r /\ n_name (r_cfg r) = n).
  { intro n. split.
    - intro H. destruct (D n) as [x|] eqn:E; [|congruence]. exact (sv_have _ _ _ V n x E).
    - intros (i & r & S & <-). destruct (sv_live _ _ _ V i r S) as (x & Dx & _). congruence. }
  split; [|split; [exact M|]].
  - apply M. destruct (sv_def _ _ _ V) as (r & S & N). exists 0, r. auto.
  - intros i r S. destruct (sv_live _ _ _ V i r S) as (x & Dx & Cx & _). exists x. auto.
Qed.

Lemma crash_spares g fd v argv w D D1 : crash_event g (SRequest fd v argv) w D D1 -> forall cl i r h c n,
  client_at fd w = Some cl -> c_ns cl = Some i -> slot i w = Some r -> lookup_handler (arg 0 (effective cl argv)) = Some (h, c) ->
  (is_data c = true -> n <> n_name (r_cfg r)) -> (c = CNsset \/ c = CNsnew \/ c = CNsdel -> n <> text (arg 1 (effective cl argv))) -> D1 n = D n.
Proof.
  intros H cl i r h c n C Ci S L A B. destruct H as [->|H]; [reflexivity|]. destruct H as (cl0 & i0 & r0 & h0 & c0 & C0 & Ci0 & S0 & L0 & H).
  rewrite C in C0. injection C0 as <-. rewrite Ci in Ci0. injection Ci0 as <-. rewrite S in S0. injection S0 as <-. rewrite L in L0. injection L0 as <- <-.
  destruct H as [->|[(rep & H)|(q & x & ct & Q & _ & _ & ->)]]; [reflexivity|exact (request_spec_others _ _ _ _ _ _ _ _ _ n H A B)|].
  apply dset_other. apply A. destruct c; cbn in *; try discriminate; reflexivity.
Qed.
