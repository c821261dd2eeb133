(* Data files only grow, whatever happens *)
From Coq Require Import List NArith ZArith Bool Strings.Byte Strings.String Lia ZifyBool ZifyN ZifyNat.
From Verif Require Import Bytes BytesFacts Layout LayoutFacts Store DataFacts Text Commands SpecKV Machine CrashModel SpecFiles.
Import ListNotations.
Open Scope N_scope.
Ltac Zify.zify_post_hook ::= Z.div_mod_to_equations.
Local Notation length := List.length.

(* a data file agrees with its header as far as it goes *)
Definition hfull (f : N) (b : bytes) : Prop := exists r, b = data_header f ++ r.
Definition hcmp (f : N) (b : bytes) : Prop := hfull f b \/ exists r, data_header f = b ++ r.
Definition hd_ok (ds : list bytes) : Prop := forall f b, nget f ds = Some b -> hcmp f b.
Definition full (ds : list bytes) (f : N) : Prop := forall b, nget f ds = Some b -> hfull f b.

Definition wsafe (ds : list bytes) (w : dwrite) : Prop :=
  match w with
  | WrD f off b =>
      forall file, nget f ds = Some file ->
        (off = blen file /\ hfull f file) \/ (off = 0 /\ (exists r, data_header f = b ++ r) /\ hcmp f file)
  | _ => True
  end.

Definition dap (w : dwrite) (ds : list bytes) : list bytes := snd (apply_write w ([], ds)).

Lemma snd_apply w i ds : snd (apply_write w (i, ds)) = dap w ds.
Proof. destruct w; reflexivity. Qed.

Lemma prefix_cmp (a b : bytes) r r2 : a ++ r = b ++ r2 -> blen a <= blen b -> exists y, b = a ++ y.
Proof.
  intros E L. exists (skipn (length a) b).
  rewrite <- (firstn_skipn (length a) b) at 1. f_equal.
  assert (F : firstn (length a) (a ++ r) = firstn (length a) (b ++ r2)) by now rewrite E.
  rewrite !firstn_app in F. rewrite Nat.sub_diag, firstn_all in F. cbn [firstn] in F. rewrite app_nil_r in F.
  rewrite !blen_length in L. replace (length a - length b)%nat with O in F by lia. cbn [firstn] in F.
  rewrite app_nil_r in F. congruence.
Qed.

Lemma fwrite_prefix f b file : (exists r, data_header f = b ++ r) -> hcmp f file ->
  exists x, fwrite file 0 b = file ++ x /\ hcmp f (file ++ x).
Proof.
  intros (r & E) [(r2 & ->)|(r2 & E2)].
  - exists []. rewrite app_nil_r. split.
    + rewrite E, <- app_assoc. apply (fwrite_app [] b b (r ++ r2)). reflexivity.
    + left. now exists r2.
  - destruct (N.le_ge_cases (blen b) (blen file)) as [L|L].
    + exists []. rewrite app_nil_r. split; [|right; eauto].
      destruct (prefix_cmp b file r r2) as (y & ->); [congruence|lia|]. apply (fwrite_app [] b b y). reflexivity.
    + destruct (prefix_cmp file b r2 r) as (y & ->); [congruence|lia|]. exists y. split.
      * unfold fwrite. rewrite nfirst_0, nskip_all.
        -- change (0 - blen file) with 0. cbn [zeros N.to_nat repeat app]. now rewrite app_nil_r.
        -- rewrite blen_app, blen_nlen. lia.
      * right. exists r. exact E.
Qed.

Lemma hd_ok_nset f b ds : hd_ok ds -> hcmp f b -> hd_ok (nset f b ds).
Proof.
  intros Hd Hc f' b' G. rewrite nget_nset in G. destruct (N.eqb_spec f' f) as [->|].
  - destruct (f <? nlen ds); congruence.
  - now apply Hd in G.
Qed.

Lemma hfull_app f b x : hfull f b -> hfull f (b ++ x).
Proof. intros (r & ->). exists (r ++ x). now rewrite app_assoc. Qed.

Lemma wsafe_step ds w : hd_ok ds -> wsafe ds w -> hd_ok (dap w ds) /\ dext ds (dap w ds).
Proof.
  intros Hd Hw. destruct w as [f|f|f off b|f off b]; cbn [dap apply_write snd fst]; auto using dext_refl.
  - unfold mkfile. destruct (N.eqb_spec f (nlen ds)) as [->|]; [|auto using dext_refl].
    split; [|apply dext_snoc]. intros f b G. destruct (N.lt_ge_cases f (nlen ds)) as [L|L].
    + rewrite nget_app1 in G by auto. now apply Hd in G.
    + rewrite nget_app2 in G by auto. apply nget_lt in G as X. cbn [nlen] in X.
      replace (f - nlen ds) with 0 in G by lia. cbn [nget] in G. injection G as <-.
      right. now exists (data_header f).
  - unfold wrfile. destruct (nget f ds) as [file|] eqn:G; [|auto using dext_refl].
    cbn [wsafe] in Hw. destruct (Hw _ G) as [(-> & F)|(-> & P & C)].
    + rewrite fwrite_end. split; [|now apply dext_nset].
      apply hd_ok_nset; auto. left. now apply hfull_app.
    + destruct (fwrite_prefix f b file P C) as (x & -> & C'). split; [|now apply dext_nset].
      now apply hd_ok_nset.
Qed.

Inductive safe : list bytes -> list dwrite -> list bytes -> Prop :=
| sf_nil ds : safe ds [] ds
| sf_cons ds w W ds' : wsafe ds w -> safe (dap w ds) W ds' -> safe ds (w :: W) ds'.

Lemma safe_app a V b W c : safe a V b -> safe b W c -> safe a (V ++ W) c.
Proof. induction 1; cbn [app]; auto. intros. constructor; auto. Qed.

Lemma safe_ok a W b : safe a W b -> hd_ok a -> hd_ok b /\ dext a b.
Proof.
  induction 1; intros Hd; auto using dext_refl.
  destruct (wsafe_step _ _ Hd H). destruct IHsafe; auto. split; auto. eapply dext_trans; eauto.
Qed.

Lemma snd_applies W i ds ds' : safe ds W ds' -> snd (apply_writes W (i, ds)) = ds'.
Proof.
  intros H. revert i. induction H; intros i; [reflexivity|]. unfold apply_writes in *. cbn [fold_left].
  rewrite (surjective_pairing (apply_write w (i, ds))). rewrite snd_apply. apply IHsafe.
Qed.

Lemma nfirst_pre n (b r h : bytes) : h = b ++ r -> exists r', h = nfirst n b ++ r'.
Proof. intros ->. exists (nskip n b ++ r). now rewrite app_assoc, nfirst_nskip. Qed.

Lemma wsafe_torn ds w n : wsafe ds w -> exists ds', safe ds (torn n w) ds'.
Proof.
  intros H. unfold torn. destruct (n =? 0); [eexists; constructor|].
  destruct w as [f|f|f off b|f off b]; try (eexists; constructor; fail).
  - eexists. constructor; [exact I|constructor].
  - eexists. constructor; [|constructor]. cbn [wsafe] in *. intros file G.
    destruct (H _ G) as [X|(A & (r & B) & C)]; auto. right. split; auto. split; auto.
    eapply nfirst_pre; eauto.
Qed.

Lemma safe_persisted ds W ds' : safe ds W ds' -> forall j n, exists ds'', safe ds (persisted W j n) ds''.
Proof.
  unfold persisted. induction 1; intros j n.
  - destruct j; cbn; eexists; constructor.
  - destruct j as [|j]; cbn [firstn nth_error app].
    + now apply wsafe_torn.
    + destruct (IHsafe j n) as (ds'' & S). exists ds''. constructor; auto.
Qed.

(* what an operation does to the data files, with its log *)
Definition op (d d' : disk) : Prop :=
  exists W, dk_log d' = dk_log d ++ W /\ safe (dk_d d) W (dk_d d').

Lemma op_refl d : op d d.
Proof. exists []. rewrite app_nil_r. split; [reflexivity|constructor]. Qed.

Lemma op_trans a b c : op a b -> op b c -> op a c.
Proof.
  intros (V & L1 & S1) (W & L2 & S2). exists (V ++ W). split; [now rewrite L2, L1, app_assoc|].
  eapply safe_app; eauto.
Qed.

Lemma op_do w d : wsafe (dk_d d) w -> op d (do_write w d).
Proof.
  intros H. exists [w]. split; [reflexivity|]. constructor; auto.
  unfold do_write. cbn [dk_d]. rewrite snd_apply. constructor.
Qed.

Lemma wsafe_cut ds w n : wsafe ds w -> wsafe ds (cut_write n w).
Proof.
  destruct w as [f|f|f off b|f off b]; cbn [cut_write wsafe]; auto. intros H file G.
  destruct (H _ G) as [X|(A & (r & B) & C)]; auto. right. split; auto. split; auto.
  eapply nfirst_pre; eauto.
Qed.

Lemma op_try w d ok d' : try_write w d = (ok, d') -> wsafe (dk_d d) w -> op d d'.
Proof.
  unfold try_write. intros E H. destruct (dk_io d) as [|[|n] io].
  - injection E as _ <-. now apply op_do.
  - injection E as _ <-. change (op (mkDisk (dk_i d) (dk_d d) (dk_log d) io) (do_write w (mkDisk (dk_i d) (dk_d d) (dk_log d) io))).
    now apply op_do.
  - injection E as _ <-. change (op (mkDisk (dk_i d) (dk_d d) (dk_log d) io) (do_write (cut_write n w) (mkDisk (dk_i d) (dk_d d) (dk_log d) io))).
    apply op_do. now apply wsafe_cut.
Qed.

(* index operations *)
Definition iop (s s' : est) : Prop := op (dk s) (dk s') /\ dk_d (dk s') = dk_d (dk s) /\ dt s' = dt s.

Lemma iop_refl s : iop s s.
Proof. split; [apply op_refl|auto]. Qed.

Lemma iop_trans a b c : iop a b -> iop b c -> iop a c.
Proof.
  intros (A1 & A2 & A3) (B1 & B2 & B3). split; [eapply op_trans; eauto|]. split; congruence.
Qed.

Lemma try_index f off b d ok d' : try_write (WrI f off b) d = (ok, d') -> op d d' /\ dk_d d' = dk_d d.
Proof.
  intros E. split; [eapply op_try; eauto; exact I|].
  unfold try_write in E. destruct (dk_io d) as [|[|n] io]; injection E as _ <-; reflexivity.
Qed.

Lemma iop_append s id e ok e' s' : index_append s id e = (ok, e', s') -> iop s s'.
Proof.
  unfold index_append. destruct (try_write _ _) as [k d1] eqn:E. apply try_index in E. destruct E as [E1 E2].
  destruct k; intros X; injection X as _ _ <-; (split; [exact E1|split; [exact E2|reflexivity]]).
Qed.

Lemma iop_delete_disk s e ok s' : index_entry_delete_disk s e = (ok, s') -> iop s s'.
Proof.
  unfold index_entry_delete_disk. destruct (ifile _ _) as [f|]; [|intros X; injection X as _ <-; apply iop_refl].
  destruct (_ =? _); [|intros X; injection X as _ <-; apply iop_refl].
  destruct (try_write _ _) as [k d1] eqn:E. apply try_index in E. destruct E as [E1 E2].
  destruct k; intros X; injection X as _ <-; (split; [exact E1|split; [exact E2|reflexivity]]).
Qed.

Lemma iop_overwrite s id e ok s' : index_seq_overwrite s id e = (ok, s') -> iop s s'.
Proof.
  unfold index_seq_overwrite. destruct (x_seq _) as [m|]; [|intros X; injection X as _ <-; apply iop_refl].
  destruct (index_seqmap_from_seq _ _) as [[st fid]|]; [|intros X; injection X as _ <-; apply iop_refl].
  destruct (ifile _ _) as [f|]; [|intros X; injection X as _ <-; apply iop_refl].
  destruct (_ =? _); [|intros X; injection X as _ <-; apply iop_refl].
  destruct (try_write _ _) as [k d1] eqn:E. apply try_index in E. destruct E as [E1 E2].
  destruct k; intros X; injection X as _ <-; (split; [exact E1|split; [exact E2|reflexivity]]).
Qed.

Lemma iop_mem s s' s2 : iop s s' -> dk s2 = dk s' -> dt s2 = dt s' -> iop s s2.
Proof. intros (A & B & C) D E. split; [now rewrite D|]. split; congruence. Qed.

Lemma iop_set s id e x r s' : index_set s id e x = (r, s') -> iop s s'.
Proof.
  unfold index_set, index_update_entry_memkey, index_update_entry_sequential, index_insert_entry_memkey,
    index_insert_entry_sequential. intros E.
  destruct x as [prev|]; destruct (_ =? _).
  - destruct (index_entry_delete_disk s prev) as [k s1] eqn:E1. apply iop_delete_disk in E1.
    destruct (update_memory_memkey _ _ _ _ _) as [[t1 x1] e1].
    destruct (index_append _ _ _) as [[k2 e2] s3] eqn:E2. apply iop_append in E2.
    injection E as _ <-. eapply iop_trans; [exact E1|]. eapply iop_mem; [|reflexivity|reflexivity].
    eapply iop_trans; [|exact E2]. eapply iop_mem; [apply iop_refl|reflexivity|reflexivity].
  - destruct (index_append _ _ _) as [[k2 e2] s1] eqn:E2. apply iop_append in E2.
    destruct k2; [|injection E as _ <-; exact E2].
    destruct (index_seq_overwrite _ _ _) as [k3 s2] eqn:E3. apply iop_overwrite in E3.
    injection E as _ <-. eapply iop_trans; [exact E2|]. eapply iop_mem; [exact E3|reflexivity|reflexivity].
  - destruct (index_append _ _ _) as [[k2 e2] s1] eqn:E2. apply iop_append in E2.
    destruct k2; [|injection E as _ <-; exact E2].
    destruct (insert_memory_memkey _ _ _ _) as [[t1 x1] e1]. injection E as _ <-.
    eapply iop_mem; [exact E2|reflexivity|reflexivity].
  - destruct (index_append _ _ _) as [[k2 e2] s1] eqn:E2. apply iop_append in E2.
    destruct k2; injection E as _ <-; [|exact E2]. eapply iop_mem; [exact E2|reflexivity|reflexivity].
Qed.

Lemma iop_delete s e ok s' : index_entry_delete s e = (ok, s') -> iop s s'.
Proof.
  unfold index_entry_delete. destruct (index_entry_delete_disk s e) as [k s1] eqn:E1. apply iop_delete_disk in E1.
  destruct k.
  - destruct (index_entry_delete_memory _ _ _) as [t1 x1]. intros X; injection X as _ <-.
    eapply iop_mem; [exact E1|reflexivity|reflexivity].
  - destruct (_ =? _); intros X; injection X as _ <-; [|exact E1].
    eapply iop_mem; [exact E1|reflexivity|reflexivity].
Qed.

(* the state of the data files of a live namespace *)
Definition dgood (s : est) : Prop := hd_ok (dk_d (dk s)) /\ full (dk_d (dk s)) (d_dataid (dt s)).

Definition dstep (s s' : est) : Prop := op (dk s) (dk s') /\ (dgood s -> dgood s').

(* [dgood] is needed to know that an append is safe *)
Definition gstep (s s' : est) : Prop := dgood s -> op (dk s) (dk s') /\ dgood s'.

Lemma gstep_refl s : gstep s s.
Proof. intros G. split; [apply op_refl|exact G]. Qed.

Lemma gstep_trans a b c : gstep a b -> gstep b c -> gstep a c.
Proof. intros A B G. destruct (A G) as [A1 A2]. destruct (B A2). split; auto. eapply op_trans; eauto. Qed.

Lemma iop_gstep s s' : iop s s' -> gstep s s'.
Proof. intros (A & B & C) (G1 & G2). split; [exact A|]. split; rewrite ?B, ?C; auto. Qed.

Lemma op_hd d d' : op d d' -> hd_ok (dk_d d) -> hd_ok (dk_d d') /\ dext (dk_d d) (dk_d d').
Proof. intros (W & _ & S) H. eapply safe_ok; eauto. Qed.

Lemma full_ext ds ds' f : full ds f -> dext ds ds' -> nlen ds' = nlen ds -> full ds' f.
Proof.
  intros F E L b G. destruct (nget_Some f ds) as (b0 & G0). { rewrite <- L. now apply nget_lt in G. }
  destruct (E _ _ G0) as (x & Ex). rewrite G in Ex. injection Ex as ->. apply hfull_app. auto.
Qed.

Lemma nlen_nset {A} n (x : A) l : nlen (nset n x l) = nlen l.
Proof. revert n; induction l; intros n; cbn [nset nlen]; auto. destruct (n =? 0); cbn [nlen]; auto. now rewrite IHl. Qed.

Lemma nlen_wrfile f off b ds : nlen (wrfile f off b ds) = nlen ds.
Proof. unfold wrfile. destruct (nget f ds); auto using nlen_nset. Qed.

Lemma try_data f off b d ok d' : try_write (WrD f off b) d = (ok, d') -> nlen (dk_d d') = nlen (dk_d d).
Proof.
  unfold try_write. destruct (dk_io d) as [|[|n] io]; intros E; injection E as _ <-;
    unfold do_write, cut_write; cbn [apply_write snd dk_d]; apply nlen_wrfile.
Qed.

Lemma append_safe d f b : full (dk_d d) f -> wsafe (dk_d d) (WrD f (dsize d f) b).
Proof. intros F file G. left. unfold dsize, dfile. rewrite G. split; auto. Qed.

Lemma try_append d f b ok d' : try_write (WrD f (dsize d f) b) d = (ok, d') -> hd_ok (dk_d d) -> full (dk_d d) f ->
  op d d' /\ hd_ok (dk_d d') /\ full (dk_d d') f.
Proof.
  intros E Hd F. pose proof (op_try _ _ _ _ E (append_safe _ _ _ F)) as O. split; [exact O|].
  destruct (op_hd _ _ O Hd) as [H1 H2]. split; [exact H1|]. eapply full_ext; eauto. eapply try_data; eauto.
Qed.

Lemma gstep_insert s q off s' : data_insert s q = (off, s') -> gstep s s'.
Proof.
  unfold data_insert. destruct (try_write _ _) as [k1 d1] eqn:E1. intros X (G1 & G2).
  destruct (try_append _ _ _ _ _ E1 G1 G2) as (A1 & A2 & A3).
  destruct k1.
  - destruct (try_write (WrD _ (dsize d1 _) _) _) as [k2 d2] eqn:E2.
    destruct (try_append _ _ _ _ _ E2 A2 A3) as (B1 & B2 & B3).
    assert (O : op (dk s) d2) by (eapply op_trans; eauto).
    destruct k2; injection X as _ <-; (split; [exact O|split; assumption]).
  - injection X as _ <-. split; [exact A1|split; assumption].
Qed.

Lemma gstep_ddelete s id ts ok s' : data_delete s id ts = (ok, s') -> gstep s s'.
Proof.
  unfold data_delete. destruct (data_insert _ _) as [off s1] eqn:E. intros X. injection X as _ <-.
  eapply gstep_insert; eauto.
Qed.

Lemma init_ok fid d : hd_ok (dk_d d) ->
  op d (data_initialize fid d) /\ hd_ok (dk_d (data_initialize fid d)) /\ full (dk_d (data_initialize fid d)) fid.
Proof.
  intros Hd. unfold data_initialize.
  pose proof (op_do (MkD fid) d I) as O1. destruct (op_hd _ _ O1 Hd) as [H1 _].
  set (d1 := do_write (MkD fid) d) in *.
  assert (W : wsafe (dk_d d1) (WrD fid 0 (data_header fid))).
  { intros file G. right. split; auto. split; [exists []; now rewrite app_nil_r|]. now apply H1. }
  pose proof (op_do _ d1 W) as O2. destruct (op_hd _ _ O2 H1) as [H2 _].
  split; [eapply op_trans; eauto|]. split; [exact H2|].
  intros b. unfold do_write at 1. cbn [apply_write snd dk_d]. unfold wrfile.
  destruct (nget fid (dk_d d1)) as [file|] eqn:G; [|congruence].
  rewrite nget_nset, N.eqb_refl. apply nget_lt in G as L. destruct (N.ltb_spec fid (nlen (dk_d d1))); [|lia].
  intros X. injection X as <-. destruct (H1 _ _ G) as [(r & ->)|(r & E)].
  - rewrite fwrite_hdr. now exists r.
  - exists []. unfold fwrite. rewrite nfirst_0, nskip_all.
    + reflexivity.
    + rewrite E, blen_app, blen_nlen. lia.
Qed.

Lemma dataid_open fid prev d : d_dataid (data_open_final fid prev d) = fid.
Proof. unfold data_open_final. destruct (dfile d fid); reflexivity. Qed.

Lemma gstep_jump s : gstep s (jump_next s).
Proof.
  intros (G1 & G2). unfold jump_next. set (s1 := index_jump_next s).
  assert (O1 : op (dk s) (dk s1) /\ dk_d (dk s1) = dk_d (dk s)).
  { unfold s1, index_jump_next. cbn [dk set_dk set_ix]. split; [|reflexivity].
    eapply op_trans; [|apply op_do; exact I]. apply op_do. exact I. }
  destruct O1 as [O1 D1]. unfold data_jump_next.
  destruct (init_ok (x_indexid (ix s1)) (dk s1)) as (A & B & C); [now rewrite D1|].
  cbn [dk set_dk set_dt dt]. split; [eapply op_trans; eauto|]. split; cbn [dk set_dk set_dt dt]; [exact B|].
  now rewrite dataid_open.
Qed.

Lemma gstep_userkey argv now ex s : gstep s (snd (set_handler_userkey argv now ex s)).
Proof.
  unfold set_handler_userkey. destruct (_ =? 0); [apply gstep_refl|].
  destruct (unchanged _ _ _); [apply gstep_refl|].
  destruct (data_insert _ _) as [off s1] eqn:E. apply gstep_insert in E.
  destruct (off =? 0); [exact E|]. destruct (index_set _ _ _ _) as [[r|] s2] eqn:E2; apply iop_set in E2;
    (eapply gstep_trans; [exact E|]; apply iop_gstep; exact E2).
Qed.

Lemma gstep_sequential argv now ex s : gstep s (snd (set_handler_sequential argv now ex s)).
Proof.
  unfold set_handler_sequential. destruct ex as [x|].
  - destruct (unchanged _ _ _); [apply gstep_refl|].
    destruct (data_insert _ _) as [off s1] eqn:E. apply gstep_insert in E.
    destruct (off =? 0); [exact E|]. destruct (index_set _ _ _ _) as [[r|] s2] eqn:E2; apply iop_set in E2;
      (eapply gstep_trans; [exact E|]; apply iop_gstep; exact E2).
  - destruct (negb _); [apply gstep_refl|].
    destruct (data_insert _ _) as [off s1] eqn:E. apply gstep_insert in E.
    destruct (off =? 0); [exact E|]. destruct (index_set _ _ _ _) as [[r|] s2] eqn:E2; apply iop_set in E2;
      (eapply gstep_trans; [exact E|]; apply iop_gstep; exact E2).
Qed.

Lemma gstep_set g p now argv c s : gstep s (snd (command_set g p now argv c s)).
Proof.
  unfold command_set. destruct (if argc argv =? 4 then _ else _); [apply gstep_refl|].
  destruct (_ <? _); [apply gstep_refl|]. destruct (negb (p_writable p)); [apply gstep_refl|].
  destruct (is_frozen c); [apply gstep_refl|]. destruct (is_locked c); [apply gstep_refl|]. cbn zeta.
  generalize (if blen (arg 1 argv) =? 0 then None else index_get s (arg 1 argv)) as ex. intros ex.
  destruct (match ex with Some _ => n_worm c | None => false end); [apply gstep_refl|].
  destruct (_ && _); [apply gstep_refl|].
  set (s1 := if g_datasize g <? _ then jump_next s else s).
  assert (S1 : gstep s s1) by (unfold s1; destruct (_ <? _); [apply gstep_jump|apply gstep_refl]).
  clearbody s1. destruct (x_mode (ix s) =? MODE_KV); (eapply gstep_trans; [exact S1|]); [apply gstep_userkey|apply gstep_sequential].
Qed.

Lemma gstep_del p now argv c s : gstep s (snd (command_del p now argv c s)).
Proof.
  unfold command_del. destruct (if argc argv =? 3 then _ else _); [apply gstep_refl|].
  destruct (_ <? _); [apply gstep_refl|]. destruct (negb (p_writable p)); [apply gstep_refl|].
  destruct (is_frozen c); [apply gstep_refl|]. destruct (is_locked c); [apply gstep_refl|].
  destruct (index_get s _) as [e|]; [|apply gstep_refl]. destruct (n_worm c); [apply gstep_refl|].
  cbn zeta. destruct (data_delete _ _ _) as [k s1] eqn:E. apply gstep_ddelete in E.
  destruct k; [|exact E]. destruct (index_entry_delete _ _) as [k2 s2] eqn:E2. apply iop_delete in E2.
  destruct k2; (eapply gstep_trans; [exact E|]; apply iop_gstep; exact E2).
Qed.

Lemma gstep_req g p now q c s : gstep s (snd (run_req g p now q c s)).
Proof.
  destruct q; cbn [run_req snd]; try apply gstep_refl.
  - apply gstep_set.
  - apply gstep_del.
  - unfold command_nsjump. destruct (admin_authorized p); [apply gstep_refl|apply gstep_jump].
Qed.

(* loading *)
Definition lst (r : lres) : option est :=
  match r with LExit | LUb => None | LDiscard s | LNew s | LOk s => Some s end.

Lemma load_body_d smode s h cr s' : lst (index_load_body smode s h cr) = Some s' -> dk_d (dk s') = dk_d (dk s).
Proof.
  unfold index_load_body. destruct (negb _); [discriminate|]. destruct (negb _); [discriminate|]. cbn zeta.
  destruct (_ && _); [discriminate|]. destruct (ifile _ _) as [f|]; [|discriminate].
  destruct (index_load_loop _ _ _ _ _) as [[t3 x3]|]; [|discriminate].
  destruct cr; cbn [lst]; intros X; injection X as <-; reflexivity.
Qed.

Lemma load_file_d smode s s' : lst (index_load_file smode s) = Some s' -> dk_d (dk s') = dk_d (dk s).
Proof.
  unfold index_load_file. cbn zeta. destruct (ifile _ _) as [f|]; [|discriminate].
  destruct (_ =? 29); [intros H; apply load_body_d in H; exact H|].
  destruct (0 <? blen _); [discriminate|]. destruct (0 <? _).
  - cbn [lst]. intros X; injection X as <-. reflexivity.
  - intros H; apply load_body_d in H; exact H.
Qed.

Lemma load_files_d smode n fid s s' : lst (index_load_files smode n fid s) = Some s' -> dk_d (dk s') = dk_d (dk s).
Proof.
  revert fid s. induction n as [|n IH]; intros fid s; cbn [index_load_files].
  - cbn [lst]. congruence.
  - destruct (index_load_file smode _) as [| |s1|s1|s1] eqn:E; try discriminate;
      pose proof (load_file_d smode (set_ix (index_set_id fid (ix s)) s) s1) as L; rewrite E in L; specialize (L eq_refl);
      cbn [dk set_ix] in L.
    + cbn [lst]. congruence.
    + cbn [lst]. congruence.
    + intros H. apply IH in H. congruence.
Qed.

Lemma open_d smode ns t d s : store_open smode ns t d = Some s -> hd_ok (dk_d d) -> dgood s /\ dext (dk_d d) (dk_d (dk s)).
Proof.
  unfold store_open. cbn zeta. intros E Hd.
  set (s0 := mkEst t (index_rehash (index_init_lazy smode ns)) (mkData 0 0) d) in *.
  assert (L : forall s1, lst (index_internal_load smode s0) = Some s1 -> dk_d (dk s1) = dk_d d).
  { intros s1. unfold index_internal_load. cbn zeta. destruct (0 <? _).
    - intros H. now apply load_files_d in H.
    - intros H. now apply load_file_d in H. }
  assert (X : forall s1, lst (index_internal_load smode s0) = Some s1 ->
     Some (data_init (x_indexid (ix s1)) (set_dk (do_write (MkI (x_indexid (ix s1))) (dk s1)) (set_ix (x_set_updated false (ix s1)) s1))) = Some s ->
     dgood s /\ dext (dk_d d) (dk_d (dk s))).
  { intros s1 Ls R. specialize (L s1 Ls). injection R as <-. unfold data_init.
    set (d2 := do_write (MkI (x_indexid (ix s1))) (dk s1)).
    assert (D2 : dk_d d2 = dk_d d) by (rewrite <- L; reflexivity).
    destruct (init_ok (x_indexid (ix s1)) d2) as (A & B & C); [now rewrite D2|].
    cbn [dk set_dk set_dt set_ix ix dt]. split; [split; cbn [dk set_dk set_dt set_ix ix dt]|].
    - exact B.
    - rewrite dataid_open. exact C.
    - rewrite <- D2. destruct (op_hd _ _ A) as [_ H]; [now rewrite D2|exact H]. }
  destruct (index_internal_load smode s0) as [| |s1|s1|s1]; try discriminate; eapply X; try reflexivity; exact E.
Qed.

Lemma life_grows s s' : life s s' -> dgood s -> dgood s' /\ dext (dk_d (dk s)) (dk_d (dk s')).
Proof.
  induction 1 as [s|g p now q c s s' L IH|g s s1 s' R L IH|g p now q j n c s s1 s' R L IH|io s s' L IH]; intros G.
  - auto using dext_refl.
  - destruct (gstep_req g p now q c s G) as [O G']. destruct (IH G') as [A B]. split; [exact A|].
    eapply dext_trans; [|exact B]. apply op_hd; [exact O|apply G].
  - unfold reopen in R. apply open_d in R; [|apply G]. destruct R as [G' E]. destruct (IH G') as [A B].
    split; [exact A|]. eapply dext_trans; eauto.
  - destruct (gstep_req g p now q c s G) as [(W & LW & SW) _]. unfold crash_req in R.
    assert (NW : new_writes (dk s) (dk (snd (run_req g p now q c s))) = W).
    { unfold new_writes. rewrite LW, skipn_app, Nat.sub_diag, skipn_all. reflexivity. }
    rewrite NW in R. destruct (safe_persisted _ _ _ SW j n) as (ds & P).
    pose proof (safe_ok _ _ _ P (proj1 G)) as [P1 P2].
    apply open_d in R.
    + unfold crash_disk in R. cbn [dk_d] in R. rewrite (snd_applies _ _ _ _ P) in R. destruct R as [G' E].
      destruct (IH G') as [A B]. split; [exact A|]. eapply dext_trans; [exact P2|]. eapply dext_trans; eauto.
    + unfold crash_disk. cbn [dk_d]. now rewrite (snd_applies _ _ _ _ P).
  - destruct (IH G) as [A B]. split; assumption.
Qed.

Lemma grown_dext ds ds' : dext ds ds' -> grown ds ds'.
Proof.
  intros E f b H. destruct (E (N.of_nat f) b) as (x & X); [now rewrite nget_nth, Nnat.Nat2N.id|].
  exists x. rewrite nget_nth, Nnat.Nat2N.id in X. exact X.
Qed.

Lemma only_grow m n t s0 s1 s2 : store_open m n t empty_disk = Some s0 -> life s0 s1 -> life s1 s2 ->
  grown (dk_d (dk s1)) (dk_d (dk s2)).
Proof.
  intros O L1 L2. destruct (open_d _ _ _ _ _ O) as [G _]; [intros f b H; discriminate|].
  destruct (life_grows _ _ L1 G) as [G1 _]. destruct (life_grows _ _ L2 G1) as [_ E]. now apply grown_dext.
Qed.
