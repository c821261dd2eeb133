(* Data files: records at a location, append-only extension, effect of the writes *)
From Coq Require Import List NArith ZArith Bool Strings.Byte Lia ZifyBool ZifyN ZifyNat.
From Verif Require Import Bytes BytesFacts Crc32 Crc32Facts Layout LayoutFacts Store CheckFacts.
Import ListNotations.
Open Scope N_scope.
Ltac Zify.zify_post_hook ::= Z.div_mod_to_equations.

(* the record r with value v lies at offset off of data file f *)
Definition data_at (d : list bytes) (f off : N) (r : drec) (v : bytes) : Prop :=
  exists pre post, nget f d = Some (pre ++ enc_drec r ++ v ++ post) /\ blen pre = off.

(* every file of d is a prefix of the same file of d' *)
Definition dext (d d' : list bytes) : Prop :=
  forall f file, nget f d = Some file -> exists x, nget f d' = Some (file ++ x).

Lemma dext_refl d : dext d d.
Proof. intros f file H. exists []. now rewrite app_nil_r. Qed.

Lemma dext_trans a b c : dext a b -> dext b c -> dext a c.
Proof.
  intros H1 H2 f file H. destruct (H1 _ _ H) as (x & Hx). destruct (H2 _ _ Hx) as (y & Hy).
  exists (x ++ y). now rewrite app_assoc.
Qed.

Lemma data_at_ext d d' f off r v : dext d d' -> data_at d f off r v -> data_at d' f off r v.
Proof.
  intros E (pre & post & H & Hl). destruct (E _ _ H) as (x & Hx).
  exists pre, (post ++ x). split; auto. rewrite Hx. now rewrite <- !app_assoc.
Qed.

Lemma dext_nset d fid file x : nget fid d = Some file -> dext d (nset fid (file ++ x) d).
Proof.
  intros H f file' H'. rewrite nget_nset. destruct (N.eqb_spec f fid) as [->|].
  - apply nget_lt in H as Hl. destruct (N.ltb_spec fid (nlen d)); [|lia].
    exists x. rewrite H in H'. injection H' as <-. reflexivity.
  - exists []. now rewrite app_nil_r.
Qed.

Lemma dext_snoc d x : dext d (d ++ [x]).
Proof.
  intros f file H. exists []. rewrite app_nil_r. rewrite nget_app1; auto. now apply nget_lt in H.
Qed.

Lemma dext_nlen d d' : dext d d' -> nlen d <= nlen d'.
Proof.
  intros H. destruct (N.eq_0_gt_0_cases (nlen d)) as [->|Hp]; [lia|].
  destruct (nget_Some (nlen d - 1) d) as (f & Hf); [lia|].
  apply H in Hf. destruct Hf as (x & Hx). apply nget_lt in Hx. lia.
Qed.

Lemma data_at_file d f off r v : data_at d f off r v ->
  exists file, nget f d = Some file /\ off + 18 + blen (dr_id r) + blen v <= blen file.
Proof.
  intros (pre & post & H & Hl). eexists; split; eauto.
  rewrite !blen_app, blen_enc_drec. lia.
Qed.

Lemma data_get_at d f off r v : drec_wf r -> dr_datalen r = blen v ->
  data_at (dk_d d) f off r v ->
  data_get d off (blen v) f (blen (dr_id r)) = Some v.
Proof.
  intros W Hl (pre & post & H & Ho). unfold data_get, dfile. rewrite H. unfold data_get_real.
  assert (R : fread (pre ++ enc_drec r ++ v ++ post) (off + 18 + blen (dr_id r)) (blen v) = v).
  { rewrite (app_assoc pre). replace (off + 18 + blen (dr_id r)) with (blen (pre ++ enc_drec r))
      by (rewrite blen_app, blen_enc_drec; lia).
    now apply fread_app. }
  destruct (N.eqb_spec (blen v) 0) as [E|E].
  - unfold data_length_from_offset. subst off.
    rewrite fread_prefix at 1 by (rewrite blen_enc_drec; lia).
    rewrite blen_nfirst, blen_enc_drec.
    destruct (N.eqb_spec (N.min 18 (18 + blen (dr_id r))) 18) as [_|n]; [|lia].
    rewrite dr_of_stored by auto. cbn [dr_datalen]. rewrite Hl, E. cbn.
    destruct v; [reflexivity|]. cbn [blen] in E. lia.
  - rewrite R. destruct (N.eqb_spec (blen v) 0); [lia|]. now rewrite N.eqb_refl.
Qed.

Lemma data_check_at d f off r v : drec_wf r -> dr_datalen r = blen v ->
  data_at (dk_d d) f off r v ->
  data_check d off f = Some (zdb_crc32 v =? dr_crc r).
Proof.
  intros W Hl (pre & post & H & <-). unfold data_check, dfile. rewrite H.
  now apply data_check_stored.
Qed.

(* every data file starts with its header *)
Definition dhdr_ok (d : list bytes) : Prop :=
  forall f file, nget f d = Some file -> exists rest, file = data_header f ++ rest.

Lemma blen_data_header f : blen (data_header f) = 28.
Proof. apply blen_enc_dhdr. reflexivity. Qed.

Lemma dhdr_ok_ext d d' : dhdr_ok d -> dext d d' -> nlen d' = nlen d -> dhdr_ok d'.
Proof.
  intros H E Hn f file' Hf. destruct (nget_Some f d) as (file & Hf0).
  { rewrite <- Hn. now apply nget_lt in Hf. }
  destruct (E _ _ Hf0) as (x & Hx). destruct (H _ _ Hf0) as (rest & ->).
  exists (rest ++ x). rewrite Hf in Hx. injection Hx as ->. now rewrite app_assoc.
Qed.

Lemma wrfile_end fid f b d : nget fid d = Some f -> wrfile fid (blen f) b d = nset fid (f ++ b) d.
Proof. intros H. unfold wrfile. rewrite H. now rewrite fwrite_end. Qed.

Lemma nset_nset {A} n (x y : A) l : nset n x (nset n y l) = nset n x l.
Proof.
  revert n; induction l; intros; cbn [nset]; auto.
  destruct (N.eqb_spec n 0); cbn [nset]; subst; auto.
  destruct (N.eqb_spec n 0); [lia|]. now rewrite IHl.
Qed.

Lemma nget_nset_same {A} n (x : A) l : n < nlen l -> nget n (nset n x l) = Some x.
Proof. intros. rewrite nget_nset, N.eqb_refl. destruct (N.ltb_spec n (nlen l)); [reflexivity|lia]. Qed.

(* data_insert without write errors *)
Definition ins_hdr (s : est) (q : dreq) : drec :=
  mkDrec (blen (q_id q)) (blen (q_data q)) (d_prev (dt s)) (q_crc q) (q_flags q) (q_ts q) (q_id q).

Definition ins_writes (s : est) (file : bytes) (q : dreq) : list dwrite :=
  let fid := d_dataid (dt s) in
  [WrD fid (blen file) (enc_drec (ins_hdr s q));
   WrD fid (blen file + blen (enc_drec (ins_hdr s q))) (q_data q)].

Definition ins_disk (s : est) (file : bytes) (q : dreq) : disk :=
  mkDisk (dk_i (dk s))
    (nset (d_dataid (dt s)) (file ++ enc_drec (ins_hdr s q) ++ q_data q) (dk_d (dk s)))
    (dk_log (dk s) ++ ins_writes s file q) [].

Lemma data_insert_ok s q file : dk_io (dk s) = [] -> dfile (dk s) (d_dataid (dt s)) = Some file ->
  data_insert s q = (blen file,
    mkEst (tb s) (ix s) (mkData (d_dataid (dt s)) (blen file)) (ins_disk s file q)).
Proof.
  intros Hio Hf. destruct s as [t x d k], k as [ki kd kl kio].
  cbn [dk_io dk_d dk_i dk_log dt dk tb ix] in *. subst kio.
  unfold data_insert, dsize, dfile in *. cbn [dk_io dk_d dk_i dk_log dt dk tb ix] in *. rewrite Hf.
  apply nget_lt in Hf as Hl.
  unfold try_write, do_write. cbn [apply_write fst snd dk_io dk_d dk_i dk_log].
  rewrite !(wrfile_end _ _ _ _ Hf). rewrite nget_nset_same by auto.
  rewrite (wrfile_end _ (file ++ _)) by (now apply nget_nset_same).
  rewrite nset_nset. unfold ins_disk, ins_writes, ins_hdr, set_dt, set_dk.
  cbn [dk_io dk_d dk_i dk_log dt dk tb ix].
  rewrite <- !app_assoc, blen_app. reflexivity.
Qed.

Lemma data_at_insert s q file : nget (d_dataid (dt s)) (dk_d (dk s)) = Some file ->
  data_at (dk_d (ins_disk s file q)) (d_dataid (dt s)) (blen file) (ins_hdr s q) (q_data q).
Proof.
  intros H. exists file, []. rewrite app_nil_r. split; auto. cbn [ins_disk dk_d].
  apply nget_nset_same. now apply nget_lt in H.
Qed.

Lemma dext_insert s q file : nget (d_dataid (dt s)) (dk_d (dk s)) = Some file ->
  dext (dk_d (dk s)) (dk_d (ins_disk s file q)).
Proof. intros H. cbn [ins_disk dk_d]. now apply dext_nset. Qed.

(* creation or reopening of a data file *)
Lemma fwrite_hdr h rest : fwrite (h ++ rest) 0 h = h ++ rest.
Proof. apply (fwrite_app [] h h rest). reflexivity. Qed.

Lemma nset_same {A} n (x : A) l : nget n l = Some x -> nset n x l = l.
Proof.
  revert n; induction l; intros n H; cbn [nset nget] in *; auto.
  destruct (n =? 0); [congruence|]. now rewrite IHl.
Qed.

Lemma data_init_disk_existing fid d file rest : nget fid (dk_d d) = Some file -> file = data_header fid ++ rest ->
  data_initialize fid d = mkDisk (dk_i d) (dk_d d)
    (dk_log d ++ [MkD fid; WrD fid 0 (data_header fid)]) (dk_io d).
Proof.
  intros H ->. unfold data_initialize, do_write. cbn [apply_write fst snd dk_io dk_d dk_i dk_log].
  unfold mkfile. apply nget_lt in H as Hl. destruct (N.eqb_spec fid (nlen (dk_d d))); [lia|].
  unfold wrfile. rewrite H, fwrite_hdr, nset_same by auto. now rewrite <- app_assoc.
Qed.

Lemma data_init_disk_new fid d : fid = nlen (dk_d d) ->
  data_initialize fid d = mkDisk (dk_i d) (dk_d d ++ [data_header fid])
    (dk_log d ++ [MkD fid; WrD fid 0 (data_header fid)]) (dk_io d).
Proof.
  intros ->. unfold data_initialize, do_write. cbn [apply_write fst snd dk_io dk_d dk_i dk_log].
  unfold mkfile. rewrite N.eqb_refl. unfold wrfile. rewrite nget_app_r, nset_app_r.
  rewrite <- app_assoc. change (fwrite [] 0) with (fwrite [] (blen [])). now rewrite fwrite_end.
Qed.

Lemma dhdr_ok_snoc d : dhdr_ok d -> dhdr_ok (d ++ [data_header (nlen d)]).
Proof.
  intros H f file Hf. destruct (N.lt_ge_cases f (nlen d)) as [Hl|Hl].
  - rewrite nget_app1 in Hf by auto. eauto.
  - rewrite nget_app2 in Hf by auto. apply nget_lt in Hf as Hx. cbn [nlen] in Hx.
    replace f with (nlen d) in * by lia. rewrite N.sub_diag in Hf. cbn [nget] in Hf.
    injection Hf as <-. exists []. now rewrite app_nil_r.
Qed.
