(* The index made again from the data files *)
From Coq Require Import Strings.String Strings.Byte List NArith ZArith Bool Lia ZifyBool ZifyN ZifyNat.
From Verif Require Import Bytes BytesFacts Crc32 Crc32Facts Layout LayoutFacts Store DataFacts CheckFacts Text TextFacts Commands SpecKV Machine Reach
  CrashModel SpecFiles SpecRebuild Rebuild FileFacts Ghost TableFacts UserInv UserLoad UserSteps UserReq UserRun KvFacts DataLog.
Import ListNotations.
Open Scope N_scope.
Ltac Zify.zify_post_hook ::= Z.div_mod_to_equations.
Local Notation length := List.length.

(* the state of the tool with the data files beside it *)
Definition vw (f : N) (dd : list bytes) (s : est) : est :=
  mkEst (tb s) (ix s) (mkData f 0) (mkDisk (dk_i (dk s)) dd (dk_log (dk s)) (dk_io (dk s))).

Lemma vw_get f dd s id : index_get (vw f dd s) id = index_get s id.
Proof. reflexivity. Qed.

Lemma vw_try f dd s w ok d : (exists i o b, w = WrI i o b) -> try_write w (dk s) = (ok, d) ->
  try_write w (dk (vw f dd s)) = (ok, mkDisk (dk_i d) dd (dk_log d) (dk_io d)).
Proof.
  intros (i & o & b & ->). destruct s as [t x dt [di d0 lg io]]. unfold try_write. cbn [vw dk dk_io].
  destruct io as [|[|n] io]; cbn [dk_i dk_d dk_log dk_io]; intros X; injection X as <- <-; reflexivity.
Qed.

Lemma vw_append f dd s id e : 
  index_append (vw f dd s) id e = let '(ok, e', s') := index_append s id e in (ok, e', vw f dd s').
Proof.
  unfold index_append. 
  change (ix (vw f dd s)) with (ix s). change (isize (dk (vw f dd s))) with (isize (dk s)). cbn zeta.
  match goal with |- context [try_write ?w (dk s)] => destruct (try_write w (dk s)) as [ok d] eqn:T;
    rewrite (vw_try f dd s w ok d) by eauto end.
  now destruct ok.
Qed.

Lemma vw_delete_disk f dd s e :
  index_entry_delete_disk (vw f dd s) e = let '(ok, s') := index_entry_delete_disk s e in (ok, vw f dd s').
Proof.
  unfold index_entry_delete_disk. change (ifile (dk (vw f dd s))) with (ifile (dk s)). cbn zeta.
  destruct (ifile (dk s) (e_indexid e)) as [b|]; [|reflexivity]. destruct (_ =? _); [|reflexivity].
  match goal with |- context [try_write ?w (dk s)] => destruct (try_write w (dk s)) as [ok d] eqn:T;
    rewrite (vw_try f dd s w ok d) by eauto end.
  now destruct ok.
Qed.

Lemma vw_delete f dd s e :
  index_entry_delete (vw f dd s) e = let '(ok, s') := index_entry_delete s e in (ok, vw f dd s').
Proof.
  unfold index_entry_delete. rewrite vw_delete_disk. destruct (index_entry_delete_disk s e) as [ok s'].
  change (tb (vw f dd s')) with (tb s'). change (ix (vw f dd s')) with (ix s'). change (ix (vw f dd s)) with (ix s).
  destruct ok; [destruct (index_entry_delete_memory _ _ _); reflexivity|]. now destruct (_ =? _).
Qed.

Lemma vw_set_kv f dd s id e ex : x_mode (ix s) = MODE_KV ->
  index_set (vw f dd s) id e ex = let '(r, s') := index_set s id e ex in (r, vw f dd s').
Proof.
  intros M. unfold index_set. change (ix (vw f dd s)) with (ix s). rewrite M, N.eqb_refl.
  destruct ex as [prev|].
  - unfold index_update_entry_memkey. rewrite vw_delete_disk. destruct (index_entry_delete_disk s prev) as [ok s1].
    change (tb (vw f dd s1)) with (tb s1). change (ix (vw f dd s1)) with (ix s1).
    destruct (update_memory_memkey _ _ _ _ _) as [[t1 x1] e1]. cbn zeta.
    change (set_ix x1 (set_tb t1 (vw f dd s1))) with (vw f dd (set_ix x1 (set_tb t1 s1))).
    rewrite vw_append. destruct (index_append _ _ _) as [[k e'] s3]. reflexivity.
  - unfold index_insert_entry_memkey. rewrite vw_append. destruct (index_append _ _ _) as [[k e'] s1].
    destruct k; [|reflexivity]. change (tb (vw f dd s1)) with (tb s1). change (ix (vw f dd s1)) with (ix s1).
    destruct (insert_memory_memkey _ _ _ _) as [[t1 x1] e1]. reflexivity.
Qed.

(* only the files and the number of the current file matter *)
Lemma uinv_view n s s' gi H : UInv n s gi H -> tb s' = tb s -> ix s' = ix s -> dk_i (dk s') = dk_i (dk s) -> dk_io (dk s') = dk_io (dk s) ->
  d_dataid (dt s') = d_dataid (dt s) -> dext (dk_d (dk s)) (dk_d (dk s')) -> nlen (dk_d (dk s')) = nlen (dk_d (dk s)) ->
  UInv n s' gi H.
Proof.
  intros [U1 U2 U3 U4 U5 U6 U7 U8 U9 U10 U11 U12 U13 U14 U15] E1 E2 E3 E4 E5 E6 E7.
  constructor; rewrite ?E1, ?E2, ?E3, ?E4, ?E5, ?E7; auto.
  - eapply finv_dext; eauto.
  - eapply dhdr_ok_ext; eauto.
Qed.

(* ---- one record ---- *)

(* the tool has handled the records done of the last of the given files *)
Definition RB (files : list (list row)) (f : N) (done : list row) (s : est) (m : kv) : Prop :=
  exists g l H, UInv 0 (vw f (files_bytes 0 files) s) (g ++ [l]) H /\ nlen g = f /\
    livem (flat 0 (g ++ [l])) H = m /\ 18 * isz l <= 34 * recs_size done.

Definition wok (m : kv) (w : wrote) : Prop :=
  (w_gone w = false -> 0 < blen (w_key w)) /\ (w_gone w = true -> kget (w_key w) m <> None).

Lemma row_ready fs done p w rest : wrote_wf w -> w_gone w = false ->
  data_ready (files_bytes 0 (fs ++ [done ++ (p, w) :: rest])) (nlen fs) (28 + recs_size done) (w_key w) (w_value w) (w_ts w).
Proof.
  intros W G. exists (w_drec p w). pose proof (w_drec_wf p w W) as WD. unfold w_drec, w_crc, w_flags in *. rewrite G in *.
  split; [exact WD|]. repeat (split; [reflexivity|]).
  exists (file_header (nlen fs) ++ recs_bytes done), (recs_bytes rest). rewrite nget_files, recs_app. cbn [recs_bytes].
  rewrite rec_enc. unfold w_drec, w_crc, w_flags. rewrite G, <- !app_assoc.
  split; [reflexivity|]. rewrite header_eq, blen_app, blen_data_header, blen_recs. reflexivity.
Qed.

Lemma rb_room fs l : room (files_bytes 0 (fs ++ [l])) (nlen fs) = recs_size l.
Proof. unfold room. rewrite nget_files, header_eq, blen_app, blen_data_header, blen_recs. lia. Qed.

Lemma isz_app a b : isz (a ++ b) = isz a + isz b.
Proof. induction a as [|x a IH]; cbn [app isz]; lia. Qed.

Lemma isz_flagged g1 l1 it l2 g2 g l g' l' : g ++ [l] = g1 ++ (l1 ++ it :: l2) :: g2 ->
  g' ++ [l'] = g1 ++ (l1 ++ flag it :: l2) :: g2 -> nlen g' = nlen g /\ isz l' = isz l.
Proof.
  intros E E'. destruct (cur_flag g1 l1 it l2 g2 g l (eq_sym E)) as (g0 & l0 & Q1 & Q2 & Q3).
  rewrite Q1 in E'. apply app_inj_tail in E'. destruct E' as [-> ->]. auto.
Qed.

Lemma row_set fs done p w rest f s m : nlen fs = f -> RB (fs ++ [done ++ (p, w) :: rest]) f done s m ->
  wrote_wf w -> w_gone w = false -> 28 + recs_size done <= 2147483648 -> wok m w ->
  exists e s1, index_set s (w_key w) (rebuild_request (ix s) f (28 + recs_size done) (w_drec p w)) (index_get s (w_key w)) = (Some e, s1) /\
    RB (fs ++ [done ++ (p, w) :: rest]) f (done ++ [(p, w)]) s1 (replay1 m w).
Proof.
  intros Hfs (g & l & H & U & Hg & Em & Hsz) W G Sm [K1 _]. specialize (K1 G).
  set (files := fs ++ [done ++ (p, w) :: rest]) in *.
  assert (M : x_mode (ix s) = MODE_KV) by exact (ui_mode _ _ _ _ U).
  pose proof (row_ready fs done p w rest W G) as RD. fold files in RD. rewrite Hfs in RD.
  pose proof (rb_room fs (done ++ (p, w) :: rest)) as RM. fold files in RM. rewrite Hfs in RM.
  rewrite rsize_app in RM. cbn [recs_size] in RM. unfold rec_size in RM.
  assert (Hf32 : f < 4294967296).
  { pose proof (fi_small _ _ _ _ (ui_f _ _ _ _ U)) as X. rewrite nlen_app in X. cbn [nlen] in X. lia. }
  pose proof W as (W1 & W2 & W3 & _).
  pose proof (lookup_spec 0 _ _ _ (w_key w) U) as LK. rewrite vw_get in LK.
  pose proof (vw_set_kv f (files_bytes 0 files) s (w_key w)
    (rebuild_request (ix s) f (28 + recs_size done) (w_drec p w)) (index_get s (w_key w)) M) as VS.
  unfold replay1. rewrite G.
  destruct (index_get s (w_key w)) as [e|] eqn:EG.
  - destruct LK as (x & v0 & Hin & Lx & Ix & -> & _).
    assert (Hm : f + 1 = nlen (g ++ [l])) by (rewrite nlen_app; cbn [nlen]; lia).
    assert (IS : isize (dk (vw f (files_bytes 0 files) s)) f = 29 + isz l).
    { unfold isize, ifile. rewrite (fi_files _ _ _ _ (ui_f _ _ _ _ U)), <- Hg, nget_enc_ifs. apply blen_enc_if. }
    destruct (uinv_index_update_any 0 _ _ _ x (w_key w) (w_value w) (w_ts w) (28 + recs_size done) f
      f (x_indexid (ix s)) U Hin Lx Ix Hm) as (e' & s2 & g' & l' & R1 & R2 & R3 & R4 & R5 & R6 & _ & _ & _ & R10); try lia.
    { exact RD. }
    { rewrite IS. cbn [vw dk dk_d]. rewrite RM. lia. }
    unfold rebuild_request, w_drec, w_crc, w_flags in VS |- *. rewrite G in *. cbn [dr_datalen dr_flags dr_crc dr_ts] in *.
    rewrite (u32_small (blen (w_value w))) in R1 by lia. rewrite R1 in VS.
    destruct (index_set s (w_key w) _ (Some (entry_of 0 x))) as [r s1]. injection VS as <- ->.
    exists e', s1. split; [reflexivity|].
    exists g', (l' ++ [new_item (vw f (files_bytes 0 files) s) (w_key w) (28 + recs_size done) (blen (w_value w)) (zdb_crc32 (w_value w)) f (w_ts w) (l_f x) (l_off x)]), (H ++ [(w_key w, (w_value w, w_ts w))]).
    split; [exact R2|]. split; [exact R3|]. split.
    { rewrite flat_snoc. rewrite livem_snoc; [|exact (forall2_length _ _ _ (fi_ver _ _ _ _ R10))|reflexivity]. unfold kput. now rewrite R6, Em. }
    rewrite isz_app, rsize_app. cbn [isz recs_size]. change (itsz (new_item _ _ _ _ _ _ _ _ _)) with (34 + blen (w_key w)). unfold rec_size. lia.
  - destruct (uinv_index_insert 0 _ g l H (w_key w) (w_value w) (w_ts w) (28 + recs_size done) f U LK K1) as (e' & s2 & R1 & R2 & _); try lia.
    { rewrite Hg. exact RD. }
    { rewrite Hg. cbn [vw dk dk_d]. rewrite RM. lia. }
    assert (RQ : index_set (vw f (files_bytes 0 files) s) (w_key w) (rebuild_request (ix s) f (28 + recs_size done) (w_drec p w)) None =
      index_set (vw f (files_bytes 0 files) s) (w_key w) (idxreq (28 + recs_size done) (blen (w_value w)) (zdb_crc32 (w_value w)) f (w_ts w)) None).
    { unfold rebuild_request, w_drec, w_crc, w_flags. rewrite G. cbn [dr_datalen dr_flags dr_crc dr_ts].
      unfold idxreq. rewrite (u32_small (blen (w_value w))), (u32_small f) by lia.
      unfold index_set. change (x_mode (ix (vw f (files_bytes 0 files) s))) with (x_mode (ix s)). rewrite M, N.eqb_refl. reflexivity. }
    rewrite RQ, R1 in VS. destruct (index_set s (w_key w) _ None) as [r s1]. injection VS as <- ->.
    exists e', s1. split; [reflexivity|].
    eexists g, _, _. split; [exact R2|]. split; [exact Hg|]. split.
    { rewrite flat_snoc. rewrite livem_snoc; [|exact (forall2_length _ _ _ (fi_ver _ _ _ _ (ui_f _ _ _ _ U)))|reflexivity].
      unfold kput. rewrite kdel_none; now rewrite <- Em. }
    rewrite isz_app, rsize_app. cbn [isz recs_size]. change (itsz (new_item _ _ _ _ _ _ _ _ _)) with (34 + blen (w_key w)). unfold rec_size. lia.
Qed.

Lemma row_del fs done p w rest f s m : nlen fs = f -> RB (fs ++ [done ++ (p, w) :: rest]) f done s m ->
  w_gone w = true -> wok m w ->
  exists e s1, index_get s (w_key w) = Some e /\ index_entry_delete s e = (true, s1) /\
    RB (fs ++ [done ++ (p, w) :: rest]) f (done ++ [(p, w)]) s1 (replay1 m w).
Proof.
  intros Hfs (g & l & H & U & Hg & Em & Hsz) G [_ K2]. specialize (K2 G).
  set (files := fs ++ [done ++ (p, w) :: rest]) in *.
  pose proof (lookup_spec 0 _ _ _ (w_key w) U) as LK. rewrite vw_get in LK.
  destruct (index_get s (w_key w)) as [e|]; [|now rewrite LK, Em in K2 || congruence].
  destruct LK as (x & v0 & Hin & Lx & Ix & -> & _).
  destruct (uinv_index_delete 0 _ _ _ x (w_key w) U Hin Lx Ix) as (s2 & gi' & R1 & R2 & R3 & (g1 & l1 & l2 & g2 & A & B & Q1 & _ & _ & Q4 & _) & R5 & _).
  pose proof (vw_delete f (files_bytes 0 files) s (entry_of 0 x)) as VS. rewrite R1 in VS.
  destruct (index_entry_delete s (entry_of 0 x)) as [ok s1] eqn:ED. injection VS as <- ->.
  exists (entry_of 0 x), s1. split; [reflexivity|]. split; [exact ED|].
  assert (Hm : f + 1 = nlen gi') by (rewrite R3, nlen_app; cbn [nlen]; lia).
  destruct (cur_split gi' f Hm) as (g' & l' & E' & Hg'). rewrite E' in Q4, R2, R5.
  destruct (isz_flagged _ _ _ _ _ _ _ _ _ Q1 Q4) as [_ Z].
  exists g', l', H. split; [exact R2|]. split; [exact Hg'|]. split.
  { unfold replay1. now rewrite G, R5, Em. }
  rewrite rsize_app. lia.
Qed.

(* ---- one file ---- *)
Fixpoint keep (limit : N) (rows : list row) : list wrote :=
  match rows with
  | [] => []
  | (_, w) :: t => if (0 <? limit) && (limit <? w_ts w) then [] else w :: keep limit t
  end.

Fixpoint replay_ok (m : kv) (ws : list wrote) : Prop :=
  match ws with
  | [] => True
  | w :: t => wok m w /\ replay_ok (replay1 m w) t
  end.

Lemma rb_header f rows : fread (file_header f ++ recs_bytes rows) 0 28 = file_header f.
Proof. unfold fread. rewrite nskip_0. apply nfirst_app_exact'. reflexivity. Qed.

Lemma rb_valid f rows : data_file_valid (file_header f ++ recs_bytes rows) = true.
Proof. unfold data_file_valid. rewrite rb_header. reflexivity. Qed.


Lemma keep_pass limit fs f : nlen fs = f -> forall rows done s m fuel,
  Forall (fun x : row => wrote_wf (snd x)) rows -> small (28 + recs_size done) rows ->
  RB (fs ++ [done ++ rows]) f done s m -> replay_ok m (keep limit rows) -> (length rows < fuel)%nat ->
  exists s1, rebuild_pass fuel limit f (file_header f ++ recs_bytes (done ++ rows)) (28 + recs_size done) s = PEnd s1 /\
    exists done', RB (fs ++ [done ++ rows]) f done' s1 (fold_left replay1 (keep limit rows) m).
Proof.
  intros Hfs. induction rows as [|[p w] rows IH]; intros done s m fuel W Sm R RO Hf; destruct fuel as [|fuel]; try (cbn [length] in Hf; lia).
  - rewrite app_nil_r in *. cbn [rebuild_pass].
    rewrite fread_eof by (rewrite header_eq, blen_app, blen_data_header, blen_recs; lia).
    exists s. split; [reflexivity|]. exists done. exact R.
  - inversion W as [|? ? W0 W']; subst. cbn [snd] in W0. cbn [small] in Sm. destruct Sm as [Sm1 Sm2].
    pose proof (w_drec_wf p w W0) as WD.
    unfold row in *. set (file := file_header (nlen fs) ++ recs_bytes (done ++ (p, w) :: rows)).
    assert (FE : file = (file_header (nlen fs) ++ recs_bytes done) ++ enc_drec (w_drec p w) ++ (w_value w ++ recs_bytes rows)).
    { unfold file. rewrite recs_app. cbn [recs_bytes]. rewrite rec_enc, <- !app_assoc. reflexivity. }
    assert (PE : 28 + recs_size done = blen (file_header (nlen fs) ++ recs_bytes done)).
    { rewrite header_eq, blen_app, blen_data_header, blen_recs. reflexivity. }
    assert (F1 : fread file (28 + recs_size done) 1 = le 1 (blen (w_key w))).
    { rewrite FE, PE, fread_prefix by (rewrite blen_enc_drec; lia).
      unfold enc_drec. cbn [w_drec dr_idlen]. apply nfirst_app_exact'. now rewrite blen_le. }
    assert (F2 : fread file (28 + recs_size done) (18 + blen (w_key w)) = enc_drec (w_drec p w)).
    { rewrite FE, PE. apply fread_app. now rewrite blen_enc_drec. }
    cbn [rebuild_pass]. rewrite F1. change (le 1 (blen (w_key w))) with [n2b (blen (w_key w))] at 1. cbn iota.
    assert (IL : unle (le 1 (blen (w_key w))) = blen (w_key w)).
    { rewrite unle_le1. apply u8_small. destruct W0. lia. }
    change (le 1 (blen (w_key w))) with [n2b (blen (w_key w))] in IL. cbn zeta. rewrite IL, F2, blen_enc_drec. cbn [w_drec dr_id]. rewrite N.eqb_refl, dec_enc_drec by exact WD.
    cbn [keep] in *. change (dr_ts (w_drec p w)) with (w_ts w). change (dr_flags (w_drec p w)) with (w_flags w).
    change (dr_id (w_drec p w)) with (w_key w). change (dr_datalen (w_drec p w)) with (blen (w_value w)).
    destruct ((0 <? limit) && (limit <? w_ts w)).
    { exists s. split; [reflexivity|]. exists done. exact R. }
    cbn zeta. cbn [replay_ok] in RO. destruct RO as [RO1 RO2].
    assert (NX : 28 + recs_size done + 18 + blen (w_key w) + blen (w_value w) = 28 + recs_size (done ++ [(p, w)])).
    { rewrite rsize_app. cbn [recs_size]. unfold rec_size. lia. }
    rewrite NX.
    assert (AS : done ++ (p, w) :: rows = (done ++ [(p, w)]) ++ rows) by (rewrite <- app_assoc; reflexivity).
    assert (SM : small (28 + recs_size (done ++ [(p, w)])) rows).
    { rewrite rsize_app. cbn [recs_size]. replace (28 + (recs_size done + (rec_size w + 0))) with (28 + recs_size done + rec_size w) by lia. exact Sm2. }
    destruct (w_gone w) eqn:G.
    + assert (FD : is_deleted (w_flags w) = true) by (unfold w_flags; rewrite G; reflexivity). rewrite FD.
      destruct (row_del fs done p w rows (nlen fs) s m eq_refl R G RO1) as (e & s1 & E1 & E2 & R1).
      rewrite E1, E2. unfold file. rewrite AS in R1 |- *.
      destruct (IH (done ++ [(p, w)]) s1 (replay1 m w) fuel W' SM R1 RO2 ltac:(cbn [length] in Hf; lia)) as (s2 & E3 & d & R2).
      exists s2. split; [exact E3|]. exists d. exact R2.
    + assert (FD : is_deleted (w_flags w) = false) by (unfold w_flags; rewrite G; reflexivity). rewrite FD.
      destruct (row_set fs done p w rows (nlen fs) s m eq_refl R W0 G (Sm1 eq_refl) RO1) as (e & s1 & E1 & R1).
      rewrite E1. unfold file. rewrite AS in R1 |- *.
      destruct (IH (done ++ [(p, w)]) s1 (replay1 m w) fuel W' SM R1 RO2 ltac:(cbn [length] in Hf; lia)) as (s2 & E3 & d & R2).
      exists s2. split; [exact E3|]. exists d. exact R2.
Qed.

(* ---- all files ---- *)
Lemma dext_last (d : list bytes) a b : dext (d ++ [a]) (d ++ [a ++ b]).
Proof.
  intros f file Hf. destruct (N.lt_ge_cases f (nlen d)) as [Hl|Hl].
  - rewrite nget_app1 in Hf |- * by auto. exists []. now rewrite app_nil_r.
  - apply nget_lt in Hf as Hx. rewrite nlen_app in Hx. cbn [nlen] in Hx. replace f with (nlen d) in * by lia.
    rewrite nget_app_r in Hf |- *. injection Hf as <-. eauto.
Qed.

Lemma rb_jump gfs f done s m rows : nlen gfs = f + 1 -> f + 1 < 4294967296 -> RB gfs f done s m ->
  RB (gfs ++ [rows]) (f + 1) [] (index_jump_next s) m.
Proof.
  intros Hn Hlt (g & l & H & U & Hg & Em & Hsz).
  assert (NL : nlen (g ++ [l]) = f + 1) by (rewrite nlen_app; cbn [nlen]; lia).
  assert (Lt : nlen (g ++ [l]) < 4294967296) by lia.
  destruct (uinv_jump 0 _ _ _ U Lt) as (U' & _).
  assert (J := jump_ok MODE_KV (vw f (files_bytes 0 gfs) s) (g ++ [l])
    (fi_files _ _ _ _ (ui_f _ _ _ _ U)) (ui_mode _ _ _ _ U) (ui_id _ _ _ _ U) Lt (ui_dn _ _ _ _ U)).
  exists (g ++ [l]), [], H. split.
  - eapply uinv_view; [exact U'| | | | | | |]; try reflexivity.
    + rewrite J. exact (eq_sym NL).
    + rewrite J. cbn [dk dk_d vw]. rewrite files_app. cbn [files_bytes]. unfold row in *. rewrite NL, N.add_0_l, Hn. change (file_header (f + 1)) with (data_header (f + 1)).
      apply dext_last.
    + rewrite J. cbn [dk dk_d vw]. rewrite files_app, !nlen_app. cbn [files_bytes nlen]. reflexivity.
  - split; [lia|]. split; [|cbn [isz recs_size]; lia]. now rewrite flat_jump.
Qed.

Fixpoint kept (limit : N) (files : list (list row)) : list wrote :=
  match files with [] => [] | rows :: t => keep limit rows ++ kept limit t end.

Lemma replay_ok_app m a b : replay_ok m (a ++ b) <-> replay_ok m a /\ replay_ok (fold_left replay1 a m) b.
Proof. revert m. induction a as [|w a IH]; intros m; cbn [app replay_ok fold_left]; [tauto|]. rewrite IH. tauto. Qed.

Lemma files_pass limit rest : forall gfs f done s m,
  nlen gfs = f + 1 -> RB gfs f done s m -> f + 1 + nlen rest <= 4294967296 ->
  Forall (Forall (fun x : row => wrote_wf (snd x))) rest -> Forall (small 28) rest -> replay_ok m (kept limit rest) ->
  exists s1 f' done', rebuild_files limit (u32 (f + 1)) (files_bytes (f + 1) rest) s = RDone s1 /\
    f' + 1 = f + 1 + nlen rest /\ RB (gfs ++ rest) f' done' s1 (fold_left replay1 (kept limit rest) m).
Proof.
  induction rest as [|rows rest IH]; intros gfs f done s m Hn R Hlt W Sm RO.
  - exists s, f, done. cbn [files_bytes rebuild_files kept fold_left nlen]. rewrite app_nil_r. split; [reflexivity|]. split; [lia|exact R].
  - inversion W as [|? ? W0 W']; subst. inversion Sm as [|? ? S0 S']; subst. cbn [kept nlen] in *.
    apply replay_ok_app in RO. destruct RO as [RO1 RO2].
    cbn [files_bytes rebuild_files]. rewrite rb_valid, (u32_small (f + 1)) by lia.
    destruct (N.ltb_spec 0 (f + 1)) as [_|X]; [|lia]. cbn zeta.
    pose proof (rb_jump gfs f done s m rows Hn ltac:(lia) R) as R1.
    destruct (keep_pass limit gfs (f + 1) Hn rows [] (index_jump_next s) m (S (length (file_header (f + 1) ++ recs_bytes rows)))
      W0 S0 R1 RO1) as (s1 & E1 & d1 & R2).
    { rewrite app_length. pose proof (length_recs rows). unfold row in *. lia. }
    cbn [app recs_size] in E1, R2. rewrite N.add_0_r in E1. rewrite E1.
    destruct (IH (gfs ++ [rows]) (f + 1) d1 s1 _ ltac:(rewrite nlen_app; cbn [nlen]; unfold row in *; lia) R2 ltac:(lia) W' S' RO2) as (s2 & f' & d2 & E2 & Hf' & R3).
    exists s2, f', d2. split; [exact E2|]. split; [lia|]. rewrite fold_left_app. rewrite <- app_assoc in R3. exact R3.
Qed.

Definition init_state : est := match index_init MODE_KV 0 empty_table empty_disk with Some s => s | None => mkEst empty_table (index_init_lazy MODE_KV 0) (mkData 0 0) empty_disk end.

Lemma init_ok rows : index_init MODE_KV 0 empty_table empty_disk = Some init_state /\ RB [rows] 0 [] init_state [].
Proof.
  split; [reflexivity|].
  destruct (open_fresh MODE_KV 0 empty_table empty_disk) as (s' & O & U & _); try reflexivity.
  { now left. }
  { constructor; try (intros h e []); try (intros e []); intros; constructor. }
  vm_compute in O. injection O as <-.
  exists [], [], []. split; [|split; [reflexivity|split; [reflexivity|cbn [isz recs_size]; lia]]].
  eapply uinv_view; [exact U| | | | | | |]; try reflexivity.
  cbn [vw dk dk_d files_bytes]. rewrite header_eq. exact (dext_last [] (data_header 0) (recs_bytes rows)).
Qed.

Lemma rebuild_ok limit l0 rest : nlen rest < 4294967296 ->
  Forall (Forall (fun x : row => wrote_wf (snd x))) (l0 :: rest) -> Forall (small 28) (l0 :: rest) -> replay_ok [] (kept limit (l0 :: rest)) ->
  exists s1 f done, rebuild MODE_KV limit [] (files_bytes 0 (l0 :: rest)) = RDone s1 /\
    f = nlen rest /\ RB (l0 :: rest) f done s1 (replay (kept limit (l0 :: rest))).
Proof.
  intros Hlt W Sm RO. inversion W as [|? ? W0 W']; subst. inversion Sm as [|? ? S0 S']; subst.
  cbn [kept] in RO. apply replay_ok_app in RO. destruct RO as [RO1 RO2].
  destruct (init_ok l0) as [I1 I2]. unfold rebuild. change (mkDisk [] [] [] []) with empty_disk. rewrite I1.
  cbn [files_bytes rebuild_files]. rewrite rb_valid. change (0 <? 0) with false. cbn iota zeta.
  destruct (keep_pass limit [] 0 eq_refl l0 [] init_state [] (S (length (file_header 0 ++ recs_bytes l0))) W0 S0 I2 RO1) as (s1 & E1 & d1 & R2).
  { rewrite app_length. pose proof (length_recs l0). unfold row in *. lia. }
  cbn [app recs_size] in E1, R2. rewrite N.add_0_r in E1. rewrite E1.
  destruct (files_pass limit rest [l0] 0 d1 s1 _ eq_refl R2 ltac:(lia) W' S' RO2) as (s2 & f' & d2 & E2 & Hf' & R3).
  exists s2, f', d2. split; [exact E2|]. split; [lia|]. unfold replay. cbn [kept]. rewrite fold_left_app. exact R3.
Qed.

(* ---- the records of a history ---- *)
Lemma set_cases p now c m k v ts :
  let '(r, m') := kv_set p now c m k v ts in
  (r = RBulk k /\ m' = kput k v (stamp ts now) m /\ 0 < blen k) \/ (accepted (QSet k v ts) (enc_reply r) = false /\ m' = m).
Proof.
  unfold kv_set. destruct ts, (p_admin p); auto;
    repeat match goal with
    | |- context [if ?b then _ else _] => destruct b eqn:?; try (right; split; reflexivity)
    end; left; repeat split; lia.
Qed.

Lemma del_cases p c m k ts :
  let '(r, m') := kv_del p c m k ts in
  (r = ROk /\ m' = kdel k m /\ kget k m <> None) \/ (accepted (QDel k ts) (enc_reply r) = false /\ m' = m).
Proof.
  unfold kv_del, accepted.
  destruct ts, (p_admin p), (blen k);
    repeat match goal with
    | |- context [if ?b then _ else _] => destruct b; try (right; split; reflexivity)
    end; auto; destruct (kget k m); try (right; split; reflexivity); destruct (n_worm c); try (right; split; reflexivity); auto;
    left; repeat split; congruence.
Qed.

Lemma written_ok p now c m q :
  let '(r, m') := kv_step p now c q m in
  let ws := written now q (enc_reply r) in replay_ok m ws /\ m' = fold_left replay1 ws m.
Proof.
  destruct q as [k v ts|k ts|k|ks|k|k|k|k| |]; cbn [kv_step]; try (split; [exact I|reflexivity]).
  - pose proof (set_cases p now c m k v ts) as S. destruct (kv_set p now c m k v ts) as [r m'].
    destruct S as [(-> & -> & K)|(A & ->)]; unfold written.
    + change (enc_reply (RBulk k)) with (bulk k). rewrite accepted_bulk.
      destruct k as [|b k]; [cbn in K; lia|]. cbn zeta. cbn [replay_ok fold_left]. split; [|reflexivity].
      split; [|exact I]. split; [intros _; exact K|discriminate].
    + rewrite A. split; [exact I|reflexivity].
  - pose proof (del_cases p c m k ts) as S. destruct (kv_del p c m k ts) as [r m'].
    destruct S as [(-> & -> & K)|(A & ->)]; unfold written.
    + cbn [enc_reply accepted]. split; [|reflexivity]. split; [|exact I]. split; [discriminate|intros _; exact K].
    + rewrite A. split; [exact I|reflexivity].
Qed.

Lemma written_by_ok es : forall c m,
  let ws := written_by es (map enc_reply (fst (kv_run es (c, m)))) in
  replay_ok m ws /\ snd (snd (kv_run es (c, m))) = fold_left replay1 ws m.
Proof.
  induction es as [|e es IH]; intros c m; cbn zeta; [split; [exact I|reflexivity]|].
  destruct e as [p now q|c1|]; cbn [kv_run kv_event].
  - pose proof (written_ok p now c m q) as S. destruct (kv_step p now c q m) as [r m'].
    specialize (IH c m'). destruct (kv_run es (c, m')) as [o2 st2]. cbn [fst snd app map written_by] in *.
    rewrite fold_left_app, replay_ok_app. destruct S as [S1 S2]. rewrite <- S2. destruct IH as [I1 I2]. repeat split; auto.
  - specialize (IH c1 m). destruct (kv_run es (c1, m)) as [o2 st2]. exact IH.
  - specialize (IH (unlocked c) m). destruct (kv_run es (unlocked c, m)) as [o2 st2]. exact IH.
Qed.

Lemma reached_replay g n c0 es o c s : reached g n c0 es o c s ->
  replay_ok [] (written_by es o) /\ kv_of c0 es = replay (written_by es o).
Proof.
  intros R. destruct (reached_inv _ _ _ _ _ _ _ R) as (-> & _). exact (written_by_ok es c0 []).
Qed.

(* ---- time limits ---- *)
Lemma keep_all rows : keep 0 rows = map snd rows.
Proof. induction rows as [|[p w] t IH]; cbn [keep map snd]; [reflexivity|]. change (0 <? 0) with false. cbn [andb]. now rewrite IH. Qed.

Lemma kept_all files : kept 0 files = map snd (List.concat files).
Proof. induction files as [|l t IH]; cbn [kept List.concat]; [reflexivity|]. now rewrite IH, keep_all, map_app. Qed.

Lemma until_0 ws : until 0 ws = ws.
Proof. unfold until. induction ws as [|w t IH]; cbn [filter]; [reflexivity|]. now rewrite IH. Qed.

Lemma in_order_tail a t : in_order (a :: t) -> in_order t /\ Forall (fun w => w_ts a <= w_ts w) t.
Proof.
  revert a. induction t as [|b t IH]; intros a H; [split; [exact I|constructor]|].
  cbn [in_order] in H. destruct H as [H1 H2]. split; [exact H2|]. constructor; [exact H1|].
  destruct (IH b H2) as [_ F]. eapply Forall_impl; [|exact F]. cbn beta. intros. lia.
Qed.

Lemma in_order_app a b : in_order (a ++ b) -> in_order a /\ in_order b.
Proof.
  induction a as [|w a IH]; intros H; [split; [exact I|exact H]|].
  cbn [app] in H. destruct (in_order_tail _ _ H) as [H1 _]. destruct (IH H1) as [Ia Ib]. split; [|exact Ib].
  destruct a; [exact I|]. cbn [app in_order] in *. split; [apply H|exact Ia].
Qed.

Lemma until_late limit ws t : 0 < limit -> limit < t -> Forall (fun w => t <= w_ts w) ws -> until limit ws = [].
Proof.
  intros H1 H2 F. unfold until. induction F as [|w ws Hw F IH]; [reflexivity|]. cbn [filter].
  destruct (N.eqb_spec limit 0); [lia|]. destruct (N.leb_spec (w_ts w) limit); [lia|]. exact IH.
Qed.

Lemma keep_until limit rows : 0 < limit -> in_order (map snd rows) -> keep limit rows = until limit (map snd rows).
Proof.
  intros HL. induction rows as [|[p w] t IH]; intros O; [reflexivity|]. cbn [map snd] in O.
  destruct (in_order_tail _ _ O) as [O1 O2]. cbn [keep map snd].
  destruct (N.ltb_spec 0 limit); [|lia]. cbn [andb].
  destruct (N.ltb_spec limit (w_ts w)) as [X|X].
  - symmetry. apply (until_late limit _ (w_ts w)); auto. constructor; [lia|exact O2].
  - rewrite IH by exact O1. unfold until. cbn [filter]. destruct (N.leb_spec (w_ts w) limit); [|lia].
    now rewrite orb_true_r.
Qed.

Lemma until_app limit a b : until limit (a ++ b) = until limit a ++ until limit b.
Proof. apply filter_app. Qed.

Lemma kept_until limit files : 0 < limit -> in_order (map snd (List.concat files)) -> kept limit files = until limit (map snd (List.concat files)).
Proof.
  intros HL. induction files as [|l t IH]; intros O; [reflexivity|]. cbn [List.concat kept] in *.
  rewrite map_app in *. destruct (in_order_app _ _ O). now rewrite until_app, IH, keep_until.
Qed.

Lemma until_prefix limit ws : in_order ws -> exists a b, until limit ws = a /\ ws = a ++ b.
Proof.
  destruct (N.eq_dec limit 0) as [->|HL].
  - intros _. exists ws, []. rewrite until_0, app_nil_r. auto.
  - induction ws as [|w t IH]; intros O; [exists [], []; auto|]. destruct (in_order_tail _ _ O) as [O1 O2].
    destruct (N.leb_spec (w_ts w) limit) as [X|X].
    + destruct (IH O1) as (a & b & E1 & E2). exists (w :: a), b. cbn [app]. split; [|now rewrite <- E2].
      unfold until in *. cbn [filter]. rewrite E1. destruct (N.leb_spec (w_ts w) limit); [|lia]. now rewrite orb_true_r.
    + exists [], (w :: t). split; [|reflexivity]. apply (until_late limit _ (w_ts w)); auto; [lia|]. constructor; [lia|exact O2].
Qed.

(* ---- loading the result ---- *)
Lemma clear_tinv n t : clear_of n t -> TInv t n [].
Proof.
  intros Ht. constructor.
  - intros h e Hin He. exfalso. eapply Ht; eauto.
  - intros e [].
  - intros h. replace (filter (mine n) (t h)) with (@nil entry); [constructor|].
    specialize (Ht h). induction (t h) as [|e l IH]; auto. cbn [filter]. unfold mine at 1.
    destruct (N.eqb_spec (e_ns e) n) as [E|E]; [exfalso; apply (Ht e); auto; now left|].
    apply IH. intros e' Hin. apply Ht. now right.
  - constructor.
Qed.

Lemma uinv_shows n s gi H : UInv n s gi H -> shows s (livem (flat 0 gi) H).
Proof.
  intros U. split; [intros k; now apply (read_all_spec n s gi H)|]. split.
  - rewrite (ui_cnt _ _ _ _ U), kcount_livem; [reflexivity|]. eapply forall2_length; eauto using fi_ver, ui_f.
  - rewrite (ui_dsz _ _ _ _ U). erewrite ksize_livem; [reflexivity|]. apply U.
Qed.

Lemma rb_load g n t files f done s m : settings_ok g -> clear_of n t -> RB files f done s m -> nlen files = f + 1 ->
  exists s2 gi H, loads g n t (dk_i (dk s)) (files_bytes 0 files) s2 /\ UInv n s2 gi H /\ livem (flat 0 gi) H = m.
Proof.
  intros [Hg _] Ht (g0 & l & H & U & Hg0 & Em & _) Hn.
  assert (NL : nlen (g0 ++ [l]) = f + 1) by (rewrite nlen_app; cbn [nlen]; lia).
  assert (Hdn : nlen (files_bytes 0 files) = nlen (g0 ++ [l])) by exact (ui_dn _ _ _ _ U).
  assert (Hdh : dhdr_ok (files_bytes 0 files)) by exact (ui_dhdr _ _ _ _ U).
  destruct (open_ok (g_mode g) n t (mkDisk (dk_i (dk s)) (files_bytes 0 files) [] []) (g0 ++ [l]) H Hg)
    as (s2 & R1 & R2 & _ & _ & R5 & R6 & _); auto.
  - exact (ui_f _ _ _ _ U).
  - lia.
  - left. split; [exact Hdn|exact Hdh].
  - now apply clear_tinv.
  - exists s2, (g0 ++ [l]), H. split; [|split; [exact R2|exact Em]]. split; [exact R1|]. split; [exact R5|].
    exact (R6 Hdn Hdh).
Qed.

Lemma same_future_inv g n s gi H s' gi' H' : settings_ok g -> UInv n s gi H -> UInv n s' gi' H' ->
  livem (flat 0 gi') H' = livem (flat 0 gi) H -> same_future g s s'.
Proof.
  intros Hg U U' E es c W F F'.
  destruct (run_ok g n es Hg W c s gi H U F) as (o & c1 & s1 & gi1 & H1 & X1 & R1 & R2 & _ & _ & _ & R6 & R7).
  destruct (run_ok g n es Hg W c s' gi' H' U' F') as (o' & c1' & s1' & gi1' & H1' & X1' & R1' & R2' & _ & _ & _ & R6' & R7').
  rewrite E in R6', R7'. rewrite R6' in R6. injection R6 as Ec Em.
  exists o, c1, s1, s1'. split; [exact R1|]. split; [now rewrite R1', R7', R7, Ec|].
  eapply same_reads_inv; eauto.
Qed.

Theorem rebuild_reached g n c0 es o c s limit : reached g n c0 es o c s -> limit = 0 \/ in_order (written_by es o) ->
  exists s1, rebuild MODE_KV limit [] (dk_d (dk s)) = RDone s1 /\
    forall t, clear_of n t -> exists s2, loads g n t (dk_i (dk s1)) (dk_d (dk s)) s2 /\
      shows s2 (replay (until limit (written_by es o))) /\
      (limit = 0 -> same_reads s s2 /\ same_future g s s2).
Proof.
  intros R HL. destruct (log_reached _ _ _ _ _ _ _ R) as (gi & H & fs & l & U & LM & FL & D & RW).
  destruct (reached_replay _ _ _ _ _ _ _ R) as [RO RE].
  assert (KE : kept limit (fs ++ [l]) = until limit (written_by es o)).
  { unfold rows_of in RW. rewrite <- RW in *. destruct HL as [->|O]; [now rewrite kept_all, until_0|].
    destruct (N.eq_dec limit 0) as [->|NZ]; [now rewrite kept_all, until_0|]. apply kept_until; [lia|exact O]. }
  assert (RK : replay_ok [] (kept limit (fs ++ [l]))).
  { rewrite KE. destruct HL as [->|O]; [now rewrite until_0|].
    destruct (until_prefix limit _ O) as (a & b & E1 & E2). rewrite E1. rewrite E2 in RO. apply replay_ok_app in RO. apply RO. }
  assert (NF : nlen (fs ++ [l]) < 4294967296).
  { pose proof (ui_dn _ _ _ _ U) as X. rewrite (dl_d _ _ _ D), nlen_files_bytes in X. pose proof (nlen_files _ _ _ _ U). unfold files_lt in FL. unfold row in *. lia. }
  pose proof (dl_wf _ _ _ D) as W. pose proof (dl_small _ _ _ D) as Sm. pose proof (dl_d _ _ _ D) as DD.
  destruct (fs ++ [l]) as [|l0 rest] eqn:EF; [destruct fs; discriminate|]. cbn [nlen] in NF.
  destruct (rebuild_ok limit l0 rest ltac:(unfold row in *; lia) W Sm RK) as (s1 & f & done & E1 & Hf & RR).
  exists s1. rewrite DD. split; [exact E1|]. intros t Ht.
  destruct (rb_load g n t (l0 :: rest) f done s1 _ (proj1 R) Ht RR ltac:(cbn [nlen]; unfold row in *; lia)) as (s2 & gi2 & H2 & L2 & U2 & E2).
  exists s2. split; [exact L2|]. rewrite KE in E2. split; [rewrite <- E2; eapply uinv_shows; eauto|].
  intros ->. rewrite until_0, <- RE, <- LM in E2. split; [eapply same_reads_inv; eauto|].
  eapply same_future_inv; eauto. apply R.
Qed.

Lemma rebuild_all g n c0 es o c s : reached g n c0 es o c s ->
  exists s1, rebuild MODE_KV 0 [] (dk_d (dk s)) = RDone s1 /\
    forall t, clear_of n t -> exists s2, loads g n t (dk_i (dk s1)) (dk_d (dk s)) s2 /\
      shows s2 (kv_of c0 es) /\ same_reads s s2 /\ same_future g s s2.
Proof.
  intros R. destruct (rebuild_reached _ _ _ _ _ _ _ 0 R (or_introl eq_refl)) as (s1 & E & L). exists s1. split; [exact E|].
  intros t Ht. destruct (L t Ht) as (s2 & L2 & S2 & F). exists s2. split; [exact L2|].
  rewrite until_0 in S2. rewrite (proj2 (reached_replay _ _ _ _ _ _ _ R)). split; [exact S2|now apply F].
Qed.

Lemma rebuild_until g n c0 es o c s limit : reached g n c0 es o c s -> in_order (written_by es o) ->
  exists s1, rebuild MODE_KV limit [] (dk_d (dk s)) = RDone s1 /\
    forall t, clear_of n t -> exists s2, loads g n t (dk_i (dk s1)) (dk_d (dk s)) s2 /\
      shows s2 (replay (until limit (written_by es o))).
Proof.
  intros R O. destruct (rebuild_reached _ _ _ _ _ _ _ limit R (or_intror O)) as (s1 & E & L). exists s1. split; [exact E|].
  intros t Ht. destruct (L t Ht) as (s2 & L2 & S2 & F). eauto.
Qed.
