(* PROOFS.  The invariant of a server: every namespace holds its contents, and how each
   step of the engine keeps it. *)
From Coq Require Import Strings.String Strings.Byte List NArith ZArith Bool Lia ZifyBool ZifyN ZifyNat Sorting.Permutation.
From Verif Require Import Bytes BytesFacts Crc32 Layout LayoutFacts Store Text TextFacts Commands SpecKV SpecSeq Machine Reach CrashModel
  Ghost DataFacts TableFacts CheckFacts UserInv UserSteps UserLoad UserReq UserRun CrashPre KvFacts SeqMap SeqInv SeqSteps SeqLoad SeqReq SeqReach SeqRun
  FrameFacts Sha1 Dispatch Namespace System Resp Server SpecAuth AuthFacts SpecServer IsolFacts.
Import ListNotations.
Open Scope N_scope.
Ltac Zify.zify_post_hook ::= Z.div_mod_to_equations.
Local Notation length := List.length.

(* ---- one namespace ---- *)

Definition holds (g : server) (i : N) (s : est) (x : dent) : Prop :=
  match d_content x with
  | CKv m => smode_ok (g_mode (v_set g)) /\
      exists gi H, UInv i s gi H /\ livem (flat 0 gi) H = m /\ (d_used x = true -> flat 0 gi <> [])
  | CSeq st => sqmode_ok (g_mode (v_set g)) /\
      exists gi H, SA i s gi H /\ sq_of gi H = st /\ (d_used x = true -> sq_next st <> 0)
  end.

Lemma uinv_frame k i s gi H t : i <> k -> tframe k (tb s) t -> UInv i s gi H -> UInv i (set_tb t s) gi H.
Proof.
  intros N F U. destruct U. constructor; auto. cbn [set_tb tb]. eapply tframe_inv; eassumption.
Qed.

Lemma sinv_frame k i s m gi H t : i <> k -> tframe k (tb s) t -> SInv i s m gi H -> SInv i (set_tb t s) m gi H.
Proof.
  intros N F U. destruct U. constructor; auto. cbn [set_tb tb]. eapply tframe_inv; eassumption.
Qed.

Lemma holds_frame g k i s x t : i <> k -> tframe k (tb s) t -> holds g i s x -> holds g i (set_tb t s) x.
Proof.
  intros N F U. unfold holds in *. destruct (d_content x) as [m|st]; destruct U as (M & gi & H & U & R); split; auto; exists gi, H; split; auto.
  - eapply uinv_frame; eassumption.
  - destruct U as (mm & U & A). exists mm. split; [|exact A]. eapply sinv_frame; eassumption.
Qed.

Lemma holds_tab g i s x : holds g i s x -> x_ns (ix s) = i.
Proof.
  unfold holds. destruct (d_content x); intros (_ & gi & H & U & _).
  - apply U.
  - destruct U as (m & U & _). apply U.
Qed.

(* a request on one namespace *)
Lemma flat_len di dd gi H : FInv di dd gi H -> length (flat 0 gi) = length H.
Proof. intro F. eapply forall2_length. apply (fi_ver _ _ _ _ F). Qed.

Lemma kput_nonempty k v t m : kput k v t m <> [].
Proof. unfold kput. destruct (kdel k m); discriminate. Qed.

Lemma kv_stores p now c q m r m' : kv_step p now c q m = (r, m') -> stores q r = true -> m' <> [].
Proof.
  intros E S. destruct q; try discriminate S. cbn [kv_step] in E. unfold kv_set in E.
  destruct ts, (p_admin p);
  repeat match goal with
  | _ : (if ?b then _ else _) = _ |- _ => destruct b
  | _ : (match ?b with _ => _ end) = _ |- _ => destruct b
  end; injection E as <- <-; try discriminate S; apply kput_nonempty.
Qed.

Lemma sq_next_mono p now c q st : sq_next st <= sq_next (snd (sq_step p now c q st)).
Proof.
  destruct q; cbn [sq_step snd sq_next]; try lia.
  - unfold sq_set. destruct ts, (p_admin p);
    repeat match goal with
    | |- context [if ?b then _ else _] => destruct b
    | |- context [match ?b with _ => _ end] => destruct b
    end; cbn [snd sq_next]; lia.
  - destruct (kv_del p c (sq_map st) k ts). cbn [snd sq_next]. lia.
Qed.

Lemma sq_stores p now c q st r st' : sq_step p now c q st = (r, st') -> stores q r = true -> sq_next st' <> 0.
Proof.
  intros E S. destruct q; try discriminate S. cbn [sq_step] in E. unfold sq_set in E.
  destruct ts, (p_admin p);
  repeat match goal with
  | _ : (if ?b then _ else _) = _ |- _ => destruct b
  | _ : (match ?b with _ => _ end) = _ |- _ => destruct b
  end; injection E as <- <-; try discriminate S; cbn [sq_next]; lia.
Qed.

Lemma holds_req g i s x p now q c : server_ok g -> holds g i s x -> req_wf q -> nlen (dk_i (dk s)) < 2 ^ 32 ->
  (x_mode (ix s) = MODE_SEQ -> req_calm (v_set g) p now q c s) ->
  let o := run_req (v_set g) p now q c s in
  let z := content_step p now c q (d_content x) in
  fst o = enc_reply (fst z) /\ holds g i (snd o) (mkDent (d_used x || stores q (fst z)) (snd z) (d_conf x)).
Proof.
  intros (_ & Hg) U W L C. change (2 ^ 32) with 4294967296 in L. unfold holds in U. destruct (d_content x) as [m|st] eqn:X; cbn [content_step].
  - destruct U as (M & gi & H & U & <- & F).
    destruct (req_ok (v_set g) i s gi H p now q c U (conj M Hg) W L) as (R1 & _ & gi' & H' & X' & R2 & R3 & R4 & _).
    destruct (kv_step p now c q (livem (flat 0 gi) H)) as [r m'] eqn:E. cbn [fst snd] in *. split; [exact R1|].
    unfold holds. cbn [d_content d_used]. split; [exact M|]. exists gi', H'. split; [exact R2|]. split; [exact R4|].
    intros Us Z. apply orb_true_iff in Us. destruct Us as [Us|Us].
    + specialize (F Us). pose proof (flat_len _ _ _ _ (ui_f _ _ _ _ U)) as L1. pose proof (flat_len _ _ _ _ (ui_f _ _ _ _ R2)) as L2.
      rewrite Z, R3, app_length in L2. cbn [length] in L2. destruct (flat 0 gi); [congruence|]. cbn [length] in L1. lia.
    + apply (kv_stores _ _ _ _ _ _ _ E Us). rewrite <- R4, Z. destruct H'; reflexivity.
  - destruct U as (M & gi & H & (mm & U & A) & <- & F).
    specialize (C (si_mode _ _ _ _ _ U)). destruct C as (Wq & Ha & FL & Ad). rewrite (si_next _ _ _ _ _ U) in Ha.
    destruct (sreq_ok (v_set g) i s mm gi H p now q c U A Hg Wq L Ha (settles_spec _ _ _ _ _ _ _ _ _ _ U Ad))
      as (R1 & _ & m' & gi' & H' & R2 & R3 & R4 & _).
    pose proof (sq_next_mono p now c q (sq_of gi H)) as Mo.
    destruct (sq_step p now c q (sq_of gi H)) as [r st'] eqn:E. cbn [fst snd] in *. split; [exact R1|].
    unfold holds. cbn [d_content d_used]. split; [exact M|]. exists gi', H'. split; [exists m'; split; assumption|]. split; [exact R4|].
    intros Us. apply orb_true_iff in Us. destruct Us as [Us|Us].
    + specialize (F Us). lia.
    + apply (sq_stores _ _ _ _ _ _ _ E Us).
Qed.

(* RELOAD and FLUSH *)
Lemma holds_reopen g i s x : server_ok g -> holds g i s x -> (x_mode (ix s) = MODE_SEQ -> settled s) ->
  exists s', store_open (g_mode (v_set g)) i (index_clean_namespace (tb s) (ix s)) (dk s) = Some s' /\ holds g i s' x.
Proof.
  intros (_ & Hg) U S. pose proof (holds_tab _ _ _ _ U) as Hn. unfold holds in U. destruct (d_content x) as [m|st] eqn:X.
  - destruct U as (M & gi & H & U & R & F). destruct (reopen_ok (v_set g) i s gi H (conj M Hg) U) as (s' & R1 & R2 & _).
    unfold reopen in R1. rewrite Hn in R1. exists s'. split; [exact R1|]. unfold holds. rewrite X. split; [exact M|]. exists gi, H. auto.
  - destruct U as (M & gi & H & (mm & U & A) & R & F). destruct (sreopen_ok (v_set g) i s mm gi H (conj M Hg) U) as (s' & R1 & R2 & _).
    unfold reopen in R1. rewrite Hn in R1. exists s'. split; [exact R1|]. unfold holds. rewrite X. split; [exact M|]. exists gi, H.
    split; [|split; assumption]. exists (load_map gi). split; [exact R2|]. apply load_map_anchored.
    apply (settled_spec _ _ _ _ _ U). apply S. apply U.
Qed.

(* rotation of the files *)
Lemma holds_jump g i s x : server_ok g -> holds g i s x -> nlen (dk_i (dk s)) < 2 ^ 32 -> (x_mode (ix s) = MODE_SEQ -> settled s) ->
  holds g i (jump_next s) x.
Proof.
  intros Hg U L S.
  destruct (holds_req g i s x (mkPerm true true) 0 QJump (default_cfg []) Hg U I L) as (_ & R).
  - intro E. split; [exact I|]. split; [constructor|]. split; [exact L|]. intros _. apply S. exact E.
  - cbn [run_req command_nsjump admin_authorized p_admin snd] in R. destruct x as [u [m|st] cf]; cbn [content_step kv_step sq_step d_content d_used p_admin fst snd stores orb] in R.
    + rewrite orb_false_r in R. exact R.
    + rewrite orb_false_r in R. exact R.
Qed.

(* INDEX DIRTY RESET *)
Lemma holds_dirty g i s x a b : holds g i s x -> holds g i (set_ix (x_set_dirty a b (ix s)) s) x.
Proof.
  intro U. unfold holds in *. destruct (d_content x) as [m|st]; destruct U as (M & gi & H & U & R); split; auto; exists gi, H; split; auto.
  - destruct U. constructor; assumption.
  - destruct U as (mm & U & A). exists mm. split; [|exact A]. destruct U. constructor; assumption.
Qed.

(* a new namespace *)
Lemma holds_new g i t name : server_ok g -> TInv t i [] ->
  exists s, store_open (g_mode (v_set g)) i t empty_disk = Some s /\ tb s = t /\ holds g i s (new_entry g name).
Proof.
  intros (M & _) T. assert (K : smode_ok (g_mode (v_set g)) -> exists s, store_open (g_mode (v_set g)) i t empty_disk = Some s /\ tb s = t /\ holds g i s (mkDent false (CKv []) (fresh_conf name))).
  { intro Sm. destruct (open_fresh (g_mode (v_set g)) i t empty_disk Sm eq_refl eq_refl eq_refl T) as (s & O1 & O2 & O3 & _).
    exists s. split; [exact O1|]. split; [exact O3|]. split; [exact Sm|]. exists [[]], []. split; [exact O2|]. split; [reflexivity|discriminate]. }
  unfold new_entry. destruct M as [M|[M|M]].
  - replace (_ =? _) with false by (rewrite M; reflexivity). apply K. left. exact M.
  - rewrite M. destruct (sopen_fresh i t empty_disk eq_refl eq_refl eq_refl T) as (s & O1 & O2 & O3 & _).
    exists s. split; [exact O1|]. split; [exact O3|]. split; [left; exact M|]. exists [[]], []. split; [|split; [reflexivity|discriminate]].
    exists [(0, 0)]. split; [exact O2|]. intros h l E. destruct h as [|a h]; [|destruct h; discriminate]. now left.
  - replace (_ =? _) with false by (rewrite M; reflexivity). apply K. right. exact M.
Qed.

(* a restart: what is on disk *)
Definition disk_holds (g : server) (d : disk) (x : dent) : Prop :=
  dk_io d = [] /\
  match d_content x with
  | CKv m => smode_ok (g_mode (v_set g)) /\
      exists gi H, FInv (dk_i d) (dk_d d) gi H /\ 0 < nlen gi /\ dd_openable (dk_d d) (nlen gi) /\ livem (flat 0 gi) H = m /\ (d_used x = true -> flat 0 gi <> [])
  | CSeq st => sqmode_ok (g_mode (v_set g)) /\
      exists gi H, SFInv (dk_i d) (dk_d d) gi H /\ 0 < nlen gi /\ dd_openable (dk_d d) (nlen gi) /\ settled_g gi /\ sq_of gi H = st /\ (d_used x = true -> sq_next st <> 0)
  end.

Lemma holds_disk g i s x : holds g i s x -> (x_mode (ix s) = MODE_SEQ -> settled s) -> disk_holds g (dk s) x.
Proof.
  intros U S. unfold holds, disk_holds in *. destruct (d_content x) as [m|st].
  - destruct U as (M & gi & H & U & R & F). split; [apply U|]. split; [exact M|]. exists gi, H. split; [apply U|].
    split; [pose proof (ui_id _ _ _ _ U); lia|]. split; [left; split; apply U|]. auto.
  - destruct U as (M & gi & H & (mm & U & A) & R & F). split; [apply U|]. split; [exact M|]. exists gi, H. split; [apply U|].
    split; [pose proof (si_id _ _ _ _ _ U); lia|]. split; [left; split; apply U|]. split; [|auto].
    apply (settled_spec _ _ _ _ _ U). apply S. apply U.
Qed.

Lemma disk_open g i t d x : disk_holds g d x -> TInv t i [] ->
  exists s, store_open (g_mode (v_set g)) i t d = Some s /\ tframe i t (tb s) /\ holds g i s x.
Proof.
  intros (Io & U) T. unfold holds, disk_holds in *. destruct (d_content x) as [m|st].
  - destruct U as (M & gi & H & F & L & O & R & Us).
    destruct (open_ok (g_mode (v_set g)) i t d gi H M F L O Io T) as (s & R1 & R2 & R3 & _).
    exists s. split; [exact R1|]. split; [exact R3|]. split; [exact M|]. exists gi, H. auto.
  - destruct U as (M & gi & H & F & L & O & St & R & Us).
    destruct (sopen_ok (g_mode (v_set g)) i t d gi H M F L O Io T) as (s & R1 & R2 & R3 & _).
    exists s. split; [exact R1|]. split; [rewrite R3; apply tframe_refl|]. split; [exact M|]. exists gi, H. split; [|auto].
    exists (load_map gi). split; [exact R2|]. apply load_map_anchored. exact St.
Qed.

(* ---- change of mode ---- *)

(* a namespace into which nothing was written, in one mode or the other *)
Record Fr (n : N) (s : est) : Prop := {
  fr_ns : x_ns (ix s) = n;
  fr_seq : x_seq (ix s) = None \/ x_seq (ix s) = Some [(0, 0)];
  fr_io : dk_io (dk s) = [];
  fr_id : x_indexid (ix s) = 0;
  fr_did : d_dataid (dt s) = 0;
  fr_dn : nlen (dk_d (dk s)) = 1;
  fr_dhdr : dhdr_ok (dk_d (dk s));
  fr_tab : TInv (tb s) n [];
  fr_prev : x_prev (ix s) = 0;
  fr_cnt : x_entries (ix s) = 0;
  fr_dsz : x_datasize (ix s) = 0;
  fr_msz : x_size (ix s) = 0;
  fr_next : x_nextentry (ix s) = 0
}.

Lemma one_file (gi : list (list item)) : nlen gi = 1 -> exists l, gi = [l].
Proof. destruct gi as [|l [|]]; cbn [nlen]; intro; [lia|exists l; reflexivity|lia]. Qed.

Lemma holds_fresh g i s x : holds g i s x -> namespace_is_fresh (ix s) = true ->
  d_used x = false /\ Fr i s /\ exists md, (md = MODE_KV \/ md = MODE_SEQ) /\ dk_i (dk s) = [index_header 0 md].
Proof.
  intros U F. unfold namespace_is_fresh in F. apply andb_true_iff in F. destruct F as (F & F3). apply andb_true_iff in F. destruct F as (F1 & F2).
  apply N.eqb_eq in F1, F2, F3. unfold holds in U. destruct (d_content x) as [m|st].
  - destruct U as (_ & gi & H & U & _ & Us). destruct (one_file gi) as (l & ->); [pose proof (ui_id _ _ _ _ U); lia|].
    assert (E : flat 0 [l] = []) by (apply (ui_next _ _ _ _ U); exact F1).
    assert (l = []) by (cbn [flat] in E; rewrite app_nil_r in E; destruct l; [reflexivity|discriminate]). subst l.
    split; [destruct (d_used x); [exfalso; apply Us; auto|reflexivity]|].
    pose proof (fi_files _ _ _ _ (ui_f _ _ _ _ U)) as I. cbn [enc_ifs] in I. unfold enc_if in I. cbn [enc_items] in I. rewrite app_nil_r in I.
    split; [|exists MODE_KV; split; [left; reflexivity|exact I]]. destruct U. constructor; auto; try congruence.
  - destruct U as (_ & gi & H & (mm & U & A) & R & Us). destruct (one_file gi) as (l & ->); [pose proof (si_id _ _ _ _ _ U); lia|].
    assert (E : tot [l] = 0) by (rewrite <- (si_next _ _ _ _ _ U); exact F1).
    assert (l = []) by (cbn [tot] in E; destruct l; [reflexivity|cbn [nlen] in E; lia]). subst l.
    split; [destruct (d_used x); [exfalso; apply Us; [reflexivity|]; rewrite <- R; exact E|reflexivity]|].
    pose proof (sf_files _ _ _ _ (si_f _ _ _ _ _ U)) as I. cbn [enc_ifs] in I. unfold enc_if in I. cbn [enc_items] in I. rewrite app_nil_r in I.
    split; [|exists MODE_SEQ; split; [right; reflexivity|exact I]]. pose proof (so_one _ _ (si_map _ _ _ _ _ U) eq_refl) as Em.
    destruct U. constructor; auto; try congruence. right. rewrite si_seq, Em. reflexivity.
Qed.

Lemma fr_kv n s : Fr n s -> x_mode (ix s) = MODE_KV -> dk_i (dk s) = [index_header 0 MODE_KV] -> UInv n s [[]] [].
Proof.
  intros F M I. destruct F. constructor; auto; try congruence.
  - rewrite I. constructor; cbn [flat place app live_last chain]; auto.
    + cbn [nlen]. lia.
    + intros h l Hg. apply (app_inj_tail [] h) in Hg. destruct Hg as [_ <-]. cbn [isz]. lia.
  - rewrite fr_id0. reflexivity.
  - rewrite fr_next0. cbn [flat place app nlen]. split; [lia|auto].
Qed.

Lemma fr_sq n s : Fr n s -> x_mode (ix s) = MODE_SEQ -> x_seq (ix s) = Some [(0, 0)] -> dk_i (dk s) = [index_header 0 MODE_SEQ] -> SA n s [[]] [].
Proof.
  intros F M S I. exists [(0, 0)]. split.
  - destruct F. constructor; auto; try congruence.
    + rewrite I. constructor; cbn [flat place app chain]; auto.
      * cbn [nlen]. lia.
      * intros i y Hy. cbn [nget] in Hy. discriminate.
      * intros h l Hg. apply (app_inj_tail [] h) in Hg. destruct Hg as [_ <-]. cbn [nlen]. lia.
    + apply (load_map_ok [[]]). cbn [nlen]. lia.
    + rewrite fr_id0. reflexivity.
  - intros h l E. destruct h as [|a h]; [|destruct h; discriminate]. now left.
Qed.

Lemma switch_ok x d md : (md = MODE_KV \/ md = MODE_SEQ) -> (x_mode x = MODE_KV \/ x_mode x = MODE_SEQ) ->
  dk_i d = [index_header 0 md] -> dk_io d = [] ->
  dk_i (index_switch_mode x d) = [index_header 0 (x_mode x)] /\ dk_d (index_switch_mode x d) = dk_d d /\ dk_io (index_switch_mode x d) = [].
Proof.
  intros Hm Hx I Io. unfold index_switch_mode, ifile. rewrite I. cbn [nget N.eqb].
  destruct Hm as [->| ->], Hx as [->| ->];
    match goal with |- context [if ?b then _ else _] => let v := eval vm_compute in b in change b with v end; cbn iota;
    unfold try_write; rewrite Io; unfold do_write; rewrite I; cbn [snd dk_i dk_d dk_io fst];
    (split; [vm_compute; reflexivity|split; [|first [exact Io|reflexivity]]]);
    match goal with |- snd (apply_write (WrI _ _ ?b) _) = _ => generalize b; intro; reflexivity end.
Qed.

Lemma rehash_shape md x : x_seq x = None \/ x_seq x = Some [(0, 0)] -> md = MODE_KV \/ md = MODE_SEQ ->
  exists q, index_rehash (x_set_mode md x) = x_set_seq q (x_set_mode md x) /\ (q = None \/ q = Some [(0, 0)]) /\ (md = MODE_SEQ -> q = Some [(0, 0)]).
Proof.
  intros S M. unfold index_rehash. destruct x as [a b c d e f h s k l m n o]. cbn [x_set_mode x_mode x_seq] in *.
  destruct M as [->| ->], S as [->| ->].
  - exists None. split; [reflexivity|]. split; [auto|discriminate].
  - exists (Some [(0, 0)]). split; [reflexivity|]. split; auto.
  - exists (Some [(0, 0)]). split; [reflexivity|]. split; auto.
  - exists (Some [(0, 0)]). split; [reflexivity|]. split; auto.
Qed.

Lemma holds_mode g i s x sq : g_mode (v_set g) = MODE_MIX -> holds g i s x -> namespace_is_fresh (ix s) = true ->
  d_used x = false /\ holds g i (namespace_set_mode (if sq : bool then MODE_SEQ else MODE_KV) s) (mkDent false (empty_content sq) (d_conf x)).
Proof.
  intros G U F. destruct (holds_fresh _ _ _ _ U F) as (A & B & md & Hmd & I). split; [exact A|].
  unfold namespace_set_mode. set (mode := if sq then MODE_SEQ else MODE_KV).
  assert (Hm : mode = MODE_KV \/ mode = MODE_SEQ) by (unfold mode; destruct sq; auto).
  destruct (switch_ok (x_set_mode mode (ix s)) (dk s) md Hmd Hm I (fr_io _ _ B)) as (S1 & S2 & S3).
  destruct (rehash_shape mode (ix s) (fr_seq _ _ B) Hm) as (q & Q1 & Q2 & Q3). rewrite Q1.
  set (s' := mkEst _ _ _ _).
  assert (Fr' : Fr i s').
  { destruct B. constructor; unfold s'; cbn [tb ix dt dk x_set_seq x_set_mode x_ns x_seq x_indexid x_prev x_entries x_datasize x_size x_nextentry]; auto;
      rewrite S2; assumption. }
  unfold holds. cbn [d_content d_used]. unfold mode in *. destruct sq; cbn [empty_content].
  - split; [right; exact G|]. exists [[]], []. split; [|split; [reflexivity|discriminate]].
    apply fr_sq; [exact Fr'|reflexivity|apply Q3; reflexivity|exact S1].
  - split; [right; exact G|]. exists [[]], []. split; [|split; [reflexivity|discriminate]].
    apply fr_kv; [exact Fr'|reflexivity|exact S1].
Qed.

(* ---- descriptors ---- *)

Definition conf_ok (c : nscfg) : Prop :=
  blen (n_name c) <= 128 /\ n_maxsize c < 2 ^ 64 /\
  match n_pass c with Some p => 0 < blen p <= 63 /\ cstr p = p | None => True end.

Lemma fwrite_seq a r b : fwrite (a ++ r) (blen a) b = a ++ b ++ nskip (blen b) r.
Proof.
  unfold fwrite. rewrite nfirst_app_exact' by reflexivity. rewrite blen_app. replace (blen a - (blen a + blen r)) with 0 by lia.
  cbn [zeros N.to_nat repeat app]. f_equal. f_equal. rewrite !nskip_skipn. rewrite N2Nat.inj_add, skipn_app, !blen_length.
  rewrite !Nat2N.id. rewrite skipn_all2 by lia. replace (length a + length b - length a)%nat with (length b) by lia. reflexivity.
Qed.

Lemma nfirst_own a n : n = blen a -> nfirst n a = a.
Proof. intros ->. apply nfirst_all. rewrite blen_nlen. lia. Qed.

Lemma flags_ok (p w : bool) : let f := 4 + (if p then 1 else 0) + (if w then 2 else 0) in
  f < 256 /\ negb (N.land f 1 =? 0) = p /\ negb (N.land f 2 =? 0) = w.
Proof. destruct p, w; cbv; repeat split. Qed.

Definition kept_pass (p : option bytes) : option bytes := match p with Some [] => None | _ => p end.

Lemma commit_loads_wide c f : blen (n_name c) <= 255 -> n_maxsize c < 2 ^ 64 ->
  match n_pass c with Some p => blen p <= 255 /\ cstr p = p | None => True end ->
  descriptor_load (n_name c) (namespace_commit c f) =
  Some (mkCfg (n_name c) (kept_pass (n_pass c)) (n_public c) (n_worm c) (n_maxsize c) NS_LOCK_UNLOCKED, namespace_commit c f).
Proof.
  intros Hn Hm Hp.
  set (h := descriptor_header c).
  assert (Hnl : nh_namelen h = blen (n_name c)) by (unfold h, descriptor_header; cbn [nh_namelen]; unfold u8; rewrite N.mod_small; lia).
  assert (Hpl : nh_passlen h = match n_pass c with Some p => blen p | None => 0 end).
  { unfold h, descriptor_header. cbn [nh_passlen]. unfold u8. rewrite N.mod_small; [reflexivity|]. destruct (n_pass c); lia. }
  destruct (flags_ok (n_public c) (n_worm c)) as (F0 & F1 & F2).
  assert (Dh : forall rest, dec_nshdr (enc_nshdr h ++ rest) = h).
  { intro rest. apply dec_enc_nshdr; try rewrite Hnl; try rewrite Hpl.
    - reflexivity.
    - lia.
    - destruct (n_pass c); lia.
    - exact Hm.
    - exact F0. }
  assert (E : exists rest, namespace_commit c f = enc_nshdr h ++ n_name c ++ match n_pass c with Some p => p | None => [] end ++ rest).
  { unfold namespace_commit, descriptor_update. fold h. rewrite !Hnl, !Hpl.
    pose proof (fwrite_seq [] f (enc_nshdr h)) as W0. cbn [app] in W0. change (blen []) with 0 in W0. rewrite W0.
    change (0 + 15) with 15. rewrite <- (blen_enc_nshdr h). rewrite (fwrite_seq (enc_nshdr h)), nfirst_own by reflexivity.
    destruct (n_pass c) as [p|].
    - rewrite app_assoc. rewrite (nfirst_own p) by reflexivity. rewrite <- blen_app.
      rewrite fwrite_seq. rewrite <- app_assoc. eexists. reflexivity.
    - eexists. reflexivity. }
  destruct E as (rest & E). rewrite E. unfold descriptor_load.
  assert (R : fread (enc_nshdr h ++ n_name c ++ match n_pass c with Some p => p | None => [] end ++ rest) 0 15 = enc_nshdr h).
  { apply (fread_app [] (enc_nshdr h)). symmetry. apply blen_enc_nshdr. }
  rewrite R, blen_enc_nshdr. cbn [N.eqb negb Pos.eqb]. specialize (Dh []). rewrite app_nil_r in Dh. rewrite Dh.
  change (nh_version h) with NAMESPACE_CURRENT_VERSION. cbn [N.eqb negb Pos.eqb NAMESPACE_CURRENT_VERSION].
  change (nh_flags h) with (4 + (if n_public c then 1 else 0) + (if n_worm c then 2 else 0)). rewrite F1, F2.
  change (nh_maxsize h) with (n_maxsize c). rewrite Hnl, Hpl. f_equal. f_equal. f_equal.
  destruct (n_pass c) as [p|]; [|reflexivity]. destruct Hp as (Hp1 & Hp2). destruct p as [|b p]; [reflexivity|].
  replace (blen (b :: p) =? 0) with false by (rewrite blen_length; cbn [List.length]; lia). cbn [kept_pass]. f_equal.
  replace (15 + blen (n_name c)) with (blen (enc_nshdr h ++ n_name c)) by (rewrite blen_app, blen_enc_nshdr; reflexivity).
  rewrite app_assoc. rewrite fread_app by reflexivity. exact Hp2.
Qed.

Lemma commit_loads c f : conf_ok c ->
  descriptor_load (n_name c) (namespace_commit c f) = Some (unlocked c, namespace_commit c f).
Proof.
  intros (Hn & Hm & Hp). rewrite commit_loads_wide; [|lia|exact Hm|destruct (n_pass c); [split; [lia|apply Hp]|exact I]].
  f_equal. f_equal. unfold unlocked. f_equal. destruct (n_pass c) as [[|b p]|]; try reflexivity. destruct Hp as [[Hp _] _]. discriminate Hp.
Qed.

(* a password is where the header says *)
Definition desc_form (c : nscfg) (desc : bytes) : Prop :=
  match n_pass c with Some p => exists rest, desc = enc_nshdr (descriptor_header c) ++ n_name c ++ p ++ rest | None => True end.

Definition desc_ok (c : nscfg) (desc : bytes) : Prop :=
  descriptor_load (n_name c) desc = Some (unlocked c, desc) /\ desc_form c desc.

Lemma commit_form c f : conf_ok c -> desc_form c (namespace_commit c f).
Proof.
  intros (Hn & Hm & Hp). unfold desc_form. destruct (n_pass c) as [p|] eqn:E; [|exact I]. destruct Hp as (Hp & _).
  unfold namespace_commit, descriptor_update. rewrite E. set (h := descriptor_header c).
  assert (Hnl : nh_namelen h = blen (n_name c)) by (unfold h, descriptor_header; cbn [nh_namelen]; unfold u8; rewrite N.mod_small; lia).
  assert (Hpl : nh_passlen h = blen p) by (unfold h, descriptor_header; cbn [nh_passlen]; rewrite E; unfold u8; rewrite N.mod_small; lia).
  rewrite Hnl, Hpl. pose proof (fwrite_seq [] f (enc_nshdr h)) as W0. cbn [app] in W0. change (blen []) with 0 in W0. rewrite W0.
  change (0 + 15) with 15. rewrite <- (blen_enc_nshdr h). rewrite (fwrite_seq (enc_nshdr h)), nfirst_own by reflexivity.
  rewrite app_assoc. rewrite (nfirst_own p) by reflexivity. rewrite <- blen_app. rewrite fwrite_seq. rewrite <- app_assoc. eexists. reflexivity.
Qed.

Lemma commit_ok c f : conf_ok c -> desc_ok c (namespace_commit c f).
Proof. intro H. split; [apply commit_loads; exact H|apply commit_form; exact H]. Qed.

Lemma fresh_conf_ok name : blen name <= 128 -> conf_ok (fresh_conf name).
Proof. intro H. split; [exact H|]. split; [reflexivity|exact I]. Qed.

Lemma unlocked_ok c : conf_ok c -> conf_ok (unlocked c).
Proof. intro H. exact H. Qed.

Lemma load_first name : blen name <= 128 -> exists desc, descriptor_load name [] = Some (fresh_conf name, desc) /\ desc_ok (fresh_conf name) desc.
Proof.
  intro H. exists (namespace_commit (fresh_conf name) []). split; [reflexivity|]. exact (commit_ok (fresh_conf name) [] (fresh_conf_ok name H)).
Qed.

(* ---- the server ---- *)

Record SrvInv (g : server) (w : world) (D : dir) : Prop := {
  sv_live : forall i r, slot i w = Some r -> exists x, D (n_name (r_cfg r)) = Some x /\ d_conf x = r_cfg r /\
              holds g i (est_of w r) x /\ conf_ok (r_cfg r) /\ desc_ok (r_cfg r) (r_desc r);
  sv_have : forall n x, D n = Some x -> exists i r, slot i w = Some r /\ n_name (r_cfg r) = n;
  sv_uniq : forall i j r r', slot i w = Some r -> slot j w = Some r' -> n_name (r_cfg r) = n_name (r_cfg r') -> i = j;
  sv_def : exists r, slot 0 w = Some r /\ n_name (r_cfg r) = str "default";
  sv_eff : w_eff w = nlen (ns_names (w_slots w));
  sv_free : forall i, slot i w = None -> TInv (w_tb w) i []
}.

Lemma sv_numbered g w D : SrvInv g w D -> numbered w.
Proof. intros V i r S. destruct (sv_live _ _ _ V i r S) as (x & _ & _ & U & _). apply (holds_tab _ _ _ _ U). Qed.

(* only the table, the slots and the count matter *)
Lemma sv_ext g w w' D : w_tb w' = w_tb w -> w_slots w' = w_slots w -> w_eff w' = w_eff w -> SrvInv g w D -> SrvInv g w' D.
Proof.
  intros A B C V. assert (Sl : forall i, slot i w' = slot i w) by (intro i; unfold slot; rewrite B; reflexivity).
  destruct V as [V1 V2 V3 V4 V5 V6]. split.
  - intros i r. rewrite Sl. unfold est_of. rewrite A. apply V1.
  - intros n x H. destruct (V2 n x H) as (i & r & S & E). exists i, r. rewrite Sl. auto.
  - intros i j r r'. rewrite !Sl. apply V3.
  - rewrite Sl. exact V4.
  - rewrite B, C. exact V5.
  - intro i. rewrite Sl, A. apply V6.
Qed.

Lemma holds_tb g i s x t : (forall X, TInv (tb s) i X -> TInv t i X) -> holds g i s x -> holds g i (set_tb t s) x.
Proof.
  intros F U. unfold holds in *. destruct (d_content x) as [m|st]; destruct U as (M & gi & H & U & R); split; auto; exists gi, H; split; auto.
  - destruct U. constructor; auto. 
  - destruct U as (mm & U & A). exists mm. split; [|exact A]. destruct U. constructor; auto.
Qed.

Lemma dset_same n o D : dset n o D n = o.
Proof. unfold dset. rewrite bseqb_refl. reflexivity. Qed.
Lemma bseqb_neq a b : a <> b -> bseqb a b = false.
Proof. intro H. destruct (bseqb a b) eqn:E; [|reflexivity]. apply bseqb_eq in E. contradiction. Qed.
Lemma dset_other n m o D : m <> n -> dset n o D m = D m.
Proof. intro H. unfold dset. rewrite bseqb_neq by exact H. reflexivity. Qed.

(* one namespace changes, keeping its name *)
Lemma names_nset i r r' l : oget i l = Some r -> n_name (r_cfg r') = n_name (r_cfg r) -> ns_names (nset i (Some r') l) = ns_names l.
Proof.
  revert i. induction l as [|o l IH]; intros i H E; [reflexivity|]. cbn [nset]. rewrite oget_cons in H. destruct (i =? 0).
  - subst o. cbn [ns_names flat_map]. rewrite E. reflexivity.
  - unfold ns_names in *. cbn [flat_map]. rewrite IH by assumption. reflexivity.
Qed.

Lemma sv_update g w D i r r' t x' : SrvInv g w D -> slot i w = Some r -> n_name (r_cfg r') = n_name (r_cfg r) ->
  tframe i (w_tb w) t -> d_conf x' = r_cfg r' -> holds g i (mkEst t (r_ix r') (r_dt r') (r_dk r')) x' ->
  conf_ok (r_cfg r') -> desc_ok (r_cfg r') (r_desc r') ->
  forall cls, SrvInv g (mkWorld t (nset i (Some r') (w_slots w)) (w_eff w) cls) (dset (n_name (r_cfg r)) (Some x') D).
Proof.
  intros V S En T Ec U Co De cls.
  assert (Sl : forall j, slot j (mkWorld t (nset i (Some r') (w_slots w)) (w_eff w) cls) = if j =? i then Some r' else slot j w).
  { intro j. rewrite !slot_oget. cbn [w_slots]. rewrite oget_nset. rewrite slot_oget in S. apply oget_lt in S.
    rewrite (N.eqb_sym i). destruct (N.eqb_spec j i) as [->|]; [|reflexivity]. replace (i <? _) with true by lia. reflexivity. }
  destruct V as [V1 V2 V3 V4 V5 V6]. split.
  - intros j rj. rewrite Sl. destruct (N.eqb_spec j i) as [->|J].
    + intro H. injection H as <-. exists x'. rewrite En, dset_same. auto.
    + intro H. destruct (V1 j rj H) as (x & Dx & A & B & C). exists x.
      rewrite dset_other by (intro E; apply J; exact (V3 _ _ _ _ H S E)). split; [exact Dx|]. split; [exact A|]. split; [|exact C].
      apply (holds_frame g i j (est_of w rj) x t J T B).
  - intros n x H. destruct (bseqb n (n_name (r_cfg r))) eqn:E.
    + apply bseqb_eq in E. exists i, r'. rewrite Sl, N.eqb_refl. split; [reflexivity|]. congruence.
    + unfold dset in H. rewrite E in H. destruct (V2 n x H) as (j & rj & Sj & Nj). exists j, rj. rewrite Sl.
      destruct (N.eqb_spec j i) as [->|]; [|auto]. exfalso. rewrite S in Sj. injection Sj as <-. rewrite Nj, bseqb_refl in E. discriminate.
  - intros j k rj rk. rewrite !Sl. destruct (N.eqb_spec j i) as [->|J], (N.eqb_spec k i) as [->|K]; intros A B C; auto.
    + injection A as <-. exact (V3 _ _ _ _ S B (eq_trans (eq_sym En) C)).
    + injection B as <-. exact (V3 _ _ _ _ A S (eq_trans C En)).
    + exact (V3 _ _ _ _ A B C).
  - destruct V4 as (r0 & S0 & N0). rewrite Sl. destruct (N.eqb_spec 0 i) as [<-|]; [|exists r0; auto].
    exists r'. split; [reflexivity|]. rewrite S in S0. injection S0 as <-. congruence.
  - cbn [w_eff w_slots]. rewrite (names_nset i r) by assumption. exact V5.
  - intros j. rewrite Sl. destruct (N.eqb_spec j i) as [->|J]; [discriminate|]. intro H. cbn [w_tb].
    eapply tframe_inv; [| |apply V6; exact H]; eassumption.
Qed.
