(* PROOFS.  Which events are undefined in a server: exactly those of SpecDefined.v. *)
From Coq Require Import Strings.String Strings.Byte List NArith ZArith Bool Lia ZifyBool ZifyN ZifyNat Sorting.Permutation.
From Verif Require Import Bytes BytesFacts Crc32 Layout LayoutFacts Store Text TextFacts Commands SpecKV SpecSeq Machine Reach CrashModel
  Ghost DataFacts TableFacts CheckFacts UserInv UserSteps UserLoad UserReq UserRun CrashPre KvFacts SeqMap SeqInv SeqSteps SeqLoad SeqReq SeqReach SeqRun
  FrameFacts Sha1 Dispatch Namespace System Scan History ScanFacts ScanRun ScanTop HistFacts ScanTotal Resp Server SpecAuth AuthFacts SpecServer IsolFacts SrvInv SrvRun
  NamesFacts RespSpec ReplyQueue Net SpecNet NetFacts NetDefined SpecDefined.
Import ListNotations.
Open Scope N_scope.
Ltac Zify.zify_post_hook ::= Z.div_mod_to_equations.
Local Notation length := List.length.
Opaque all_buckets.

(* ---- the walks ---- *)
Lemma holds_iok g i s x : holds g i s x -> nlen (dk_i (dk s)) < 4294967296 ->
  exists m gi, IOk m (dk s) gi /\ chain 0 (flat 0 gi).
Proof.
  unfold holds. intros U L. destruct (d_content x) as [m|st].
  - destruct U as (_ & gi & H & U & _). exists MODE_KV, gi. split; [eapply uinv_iok; eauto|apply (fi_chain _ _ _ _ (ui_f _ _ _ _ U))].
  - destruct U as (_ & gi & H & (m & U & _) & _). exists MODE_SEQ, gi. split; [eapply sinv_iok; eauto|apply (sf_chain _ _ _ _ (si_f _ _ _ _ _ U))].
Qed.

Lemma shorter_read d f o n m it : index_item_get_disk d f o n = Some it -> m <= n -> index_item_get_disk d f o m <> None.
Proof.
  unfold index_item_get_disk. destruct (ifile d f) as [b|]; [|discriminate].
  destruct (N.eqb_spec (blen (fread b o (34 + n))) (34 + n)) as [E|]; [|discriminate]. intros _ L. rewrite fread_blen in E.
  replace (blen (fread b o (34 + m)) =? 34 + m) with true; [discriminate|]. symmetry. rewrite fread_blen. lia.
Qed.

Lemma nfirst_le (n : N) (a : bytes) : blen (nfirst n a) <= blen a.
Proof. rewrite blen_nfirst. lia. Qed.

Lemma dec_id_len b : blen (it_id (dec_item b)) = blen b - 34.
Proof. unfold dec_item, rd. cbn beta iota zeta. cbn [it_id].
  rewrite !blen_length, !skipn_length. lia. Qed.

Lemma seq_get x d id e : index_get_sequential x d id = Some e ->
  exists it, index_item_get_disk d (e_indexid e) (e_idxoff e) 8 = Some it /\ blen (e_id e) <= 8.
Proof.
  unfold index_get_sequential. destruct (negb _); [discriminate|]. destruct (x_seq x) as [m|]; [|discriminate].
  destruct (index_seqmap_from_seq m (unle id)) as [[start fid]|]; [|discriminate]. cbv zeta.
  set (o := u32 (index_seq_offset _)). destruct (index_item_get_disk d fid o 8) as [it|] eqn:E; [|discriminate].
  intros H. injection H as <-. cbn [e_indexid e_idxoff e_id]. exists it. split; [exact E|].
  pose proof (nfirst_le (it_idlen it) (it_id it)).
  enough (blen (it_id it) <= 8) by lia. unfold index_item_get_disk in E. destruct (ifile d fid) as [b|]; [|discriminate].
  destruct (N.eqb_spec (blen (fread b o (34 + 8))) (34 + 8)) as [L|]; [|discriminate]. injection E as <-.
  rewrite dec_id_len, fread_blen. lia.
Qed.

Lemma history_total g i s x argv c : holds g i s x -> nlen (dk_i (dk s)) < 4294967296 -> command_history argv c s <> None.
Proof.
  intros U L. unfold command_history. destruct (negb _ && negb _); [discriminate|]. destruct (is_frozen c); [discriminate|].
  destruct (argc argv =? 2).
  - set (k := u8_key _). destruct (index_get s k) as [e|] eqn:E; [|discriminate].
    enough (X : index_item_get_disk (dk s) (e_indexid e) (e_idxoff e) (blen (e_id e)) <> None).
    { destruct (index_item_get_disk _ _ _ _); [discriminate|congruence]. }
    unfold holds in U. destruct (d_content x) as [m|st].
    + destruct U as (_ & gi & H & U & _). pose proof (lookup_spec i s gi H k U) as F. rewrite E in F.
      destruct F as (y & v & _ & _ & Id & -> & Iy & _). destruct (rec_get i s gi H y v U L Iy) as (R & R2 & R3 & _).
      cbn [entry_of e_indexid e_idxoff e_id]. rewrite R. discriminate.
    + destruct U as (_ & gi & H & (m & U & _) & _). unfold index_get in E. rewrite (si_mode _ _ _ _ _ U) in E. change (MODE_SEQ =? MODE_KV) with false in E. cbn iota in E.
      destruct (index_get_sequential (ix s) (dk s) k) as [e0|] eqn:G; [|discriminate]. destruct (is_deleted (e_flags e0)); [discriminate|].
      injection E as ->. destruct (seq_get _ _ _ _ G) as (it & R & B). eapply shorter_read; eauto.
  - destruct (negb _); [discriminate|]. cbv zeta. destruct (_ && _); [discriminate|].
    destruct (index_item_get_disk _ _ _ _); [|discriminate]. destruct (bseqb _ _); discriminate.
Qed.

(* ---- the words ---- *)
Lemma text_full a : blen (text a) = blen a -> text a = a.
Proof.
  induction a as [|b a IH]; [reflexivity|]. cbn [text]. destruct (beqb b x00); cbn [blen]; intro H; [lia|]. rewrite IH by lia. reflexivity.
Qed.

Lemma sprint_none a : blen a <= 256 -> sprint_max a = None <-> word_of_256 a.
Proof.
  intro L. unfold sprint_max, word_of_256, COMMAND_MAXLEN. rewrite text_cstr. pose proof (text_short a) as S.
  destruct (N.ltb_spec (blen (text a)) 256) as [X|X]; split; intro H; try discriminate; try reflexivity.
  - destruct H as (A & B). rewrite B in X. lia.
  - split; [lia|]. apply text_full. lia.
Qed.

Lemma sprint_some a c : sprint_max a = Some c -> c = text a.
Proof. unfold sprint_max. destruct (_ <? _); [|discriminate]. intro H. injection H as <-. apply text_cstr. Qed.

Lemma long_word a : 256 < blen a -> ~ word_of_256 a.
Proof. intros H (E & _). lia. Qed.

Lemma case_same a w : case_eq a (str w) = true <-> same_word a w.
Proof. unfold case_eq, same_word. rewrite bseqb_eq. reflexivity. Qed.

Lemma words_spec (a : list bytes) : existsb (fun x => blen x =? 0) a = false <-> Forall (fun x => x <> []) a.
Proof.
  induction a as [|x a IH]; cbn [existsb]; [split; [constructor|reflexivity]|]. rewrite orb_false_iff, IH. split.
  - intros (A & B). constructor; [|exact B]. intros ->. discriminate.
  - intro F. inversion F as [|? ? A B]; subst. split; [|exact B]. destruct x; [congruence|]. cbn [blen]. lia.
Qed.

Lemma validate_min a n : match args_validate_min a n with
  | None => n <= nlen a /\ Forall (fun x => x <> []) a
  | Some _ => ~ (n <= nlen a /\ Forall (fun x => x <> []) a)
  end.
Proof.
  unfold args_validate_min, argc. destruct (N.ltb_spec (nlen a) n) as [L|L]; [lia|].
  destruct (existsb _ a) eqn:E; [|apply words_spec in E; auto]. intros (_ & F). apply words_spec in F. congruence.
Qed.

Lemma index_none p a s : command_index p a s = None <-> p_admin p = true /\ 2 <= nlen a /\ Forall (fun x => x <> []) a /\
   (word_of_256 (arg 1 a) \/
    (blen (arg 1 a) <= 256 /\ same_word (text (arg 1 a)) "DIRTY" /\ nlen a = 3 /\ word_of_256 (arg 2 a))).
Proof.
  unfold command_index, admin_authorized. destruct (p_admin p); [|split; [discriminate|intros (X & _); discriminate]].
  pose proof (validate_min a 2) as V. destruct (args_validate_min a 2); [split; [discriminate|intros (_ & A & B & _); tauto]|].
  unfold args_overflow, COMMAND_MAXLEN. destruct (N.ltb_spec 256 (blen (arg 1 a))) as [L|L].
  { split; [discriminate|]. intros (_ & _ & _ & [X|(X & _)]); [exfalso; exact (long_word _ L X)|lia]. }
  destruct (sprint_max (arg 1 a)) as [c|] eqn:S.
  - assert (N : ~ word_of_256 (arg 1 a)) by (intro X; apply (sprint_none _ L) in X; congruence).
    apply sprint_some in S. subst c. destruct (case_eq (text (arg 1 a)) (str "DIRTY")) eqn:C.
    + apply case_same in C. unfold command_index_dirty, argc. destruct (N.eqb_spec (nlen a) 3) as [A|A].
      * unfold args_overflow, COMMAND_MAXLEN. destruct (N.ltb_spec 256 (blen (arg 2 a))) as [L2|L2].
        { split; [discriminate|]. intros (_ & _ & _ & [X|(_ & _ & _ & X)]); [tauto|exfalso; exact (long_word _ L2 X)]. }
        destruct (sprint_max (arg 2 a)) as [c|] eqn:S2.
        -- split; [destruct (case_eq c _); discriminate|]. intros (_ & _ & _ & [X|(_ & _ & _ & X)]); [tauto|]. apply (sprint_none _ L2) in X. congruence.
        -- split; [|reflexivity]. intros _. apply (sprint_none _ L2) in S2. split; [reflexivity|]. split; [apply V|]. split; [apply V|]. right. auto.
      * split; [discriminate|]. intros (_ & _ & _ & [X|(_ & _ & X & _)]); tauto.
    + split; [discriminate|]. intros (_ & _ & _ & [X|(_ & X & _)]); [tauto|]. apply case_same in X. congruence.
  - split; [|reflexivity]. intros _. apply (sprint_none _ L) in S. split; [reflexivity|]. split; [apply V|]. split; [apply V|]. left. exact S.
Qed.

Lemma data_none p a s : command_data p a s = None <->
  p_admin p = true /\ 2 <= nlen a /\ Forall (fun x => x <> []) a /\ word_of_256 (arg 1 a).
Proof.
  unfold command_data, admin_authorized. destruct (p_admin p); [|split; [discriminate|intros (X & _); discriminate]].
  pose proof (validate_min a 2) as V. destruct (args_validate_min a 2); [split; [discriminate|intros (_ & A & B & _); tauto]|].
  unfold args_overflow, COMMAND_MAXLEN. destruct (N.ltb_spec 256 (blen (arg 1 a))) as [L|L].
  { split; [discriminate|]. intros (_ & _ & _ & X). exfalso. exact (long_word _ L X). }
  pose proof (sprint_none (arg 1 a) L) as X. destruct (sprint_max (arg 1 a)) as [c|].
  - split; [destruct (case_eq c _); discriminate|]. intros (_ & _ & _ & Y). apply X in Y. discriminate.
  - split; [|reflexivity]. intros _. split; [reflexivity|]. split; [apply V|]. split; [apply V|]. apply X. reflexivity.
Qed.

(* the common start of the commands on a named namespace *)
Lemma guard_undef (p : perm) a n (k : res) w :
  match admin_authorized p with Some err => Done err SUCCESS w | None =>
  match args_validate a n with Some err => Done err SUCCESS w | None =>
  match args_namespace a 1 with Some err => Done err SUCCESS w | None => k end end end = Undef <->
  p_admin p = true /\ form n a = true /\ k = Undef.
Proof.
  unfold admin_authorized, form. pose proof (validate_spec a n) as V.
  destruct (p_admin p); [|split; [discriminate|intros (X & _); discriminate]].
  destruct (args_validate a n) as [err|].
  { destruct V as (-> & _). split; [discriminate|intros (_ & X & _); discriminate]. }
  rewrite V. unfold args_namespace. destruct (N.ltb_spec 128 (blen (arg 1 a))) as [L|L].
  - replace (_ <=? _) with false by lia. split; [discriminate|intros (_ & X & _); discriminate].
  - replace (_ <=? _) with true by lia. tauto.
Qed.

Lemma nsset_undef g p a w : command_nsset g p a w = Undef <->
  p_admin p = true /\ form 4 a = true /\ word_of_256 (arg 2 a) /\ blen (arg 3 a) <= 63.
Proof.
  unfold command_nsset. rewrite guard_undef. unfold args_overflow, COMMAND_MAXLEN.
  destruct (N.ltb_spec 256 (blen (arg 2 a))) as [L|L].
  { split; [intros (_ & _ & X); discriminate|]. intros (_ & _ & X & _). exfalso. exact (long_word _ L X). }
  destruct (N.ltb_spec 63 (blen (arg 3 a))) as [L3|L3].
  { split; [intros (_ & _ & X); discriminate|]. intros (_ & _ & _ & X). lia. }
  pose proof (sprint_none (arg 2 a) L) as X. destruct (sprint_max (arg 2 a)) as [c|].
  - split.
    + intros (_ & _ & Y). exfalso. destruct (namespace_get _ w) as [[k rk]|]; [|discriminate]. destruct (bseqb c _).
      * destruct (nsset_mode _ _ _); discriminate.
      * destruct (nsset_apply _ _ _ _); discriminate.
    + intros (_ & _ & Y & _). apply X in Y. discriminate.
  - split; [|tauto]. intros (A & B & _). split; [exact A|]. split; [exact B|]. split; [apply X; reflexivity|exact L3].
Qed.

Lemma nsnew_undef g p a w D : server_ok g -> SrvInv g w D -> command_nsnew g p a w = Undef <->
  p_admin p = true /\ form 2 a = true /\ text (arg 1 a) = [] /\ forall k rk, slot k w = Some rk -> n_name (r_cfg rk) <> [].
Proof.
  intros G V. unfold command_nsnew. rewrite guard_undef. rewrite text_cstr.
  split; intros (A & F & H); split; [exact A| |exact A|]; (split; [exact F|]).
  - destruct (negb (namespace_valid_name _)); [discriminate|]. destruct (namespace_get (text (arg 1 a)) w) as [[i r]|] eqn:E; [discriminate|].
    destruct (N.eqb_spec (blen (text (arg 1 a))) 0) as [Z|Z].
    + assert (T : text (arg 1 a) = []) by (destruct (text (arg 1 a)); [reflexivity|cbn [blen] in Z; lia]). split; [exact T|].
      rewrite T in E. intros k rk S. exact (SrvRun.find_none [] _ 0 E k rk S).
    + exfalso. destruct (ns_load_new g (free_slot 0 (w_slots w)) (text (arg 1 a)) (w_tb w) G) as (r & L & _).
      * apply (sv_free _ _ _ V). apply free_none.
      * exact (form_short 2 a F).
      * rewrite L in H. discriminate.
  - destruct H as (T & N). rewrite T. replace (negb (namespace_valid_name [])) with false by reflexivity.
    destruct (namespace_get [] w) as [[i r]|] eqn:E; [|reflexivity]. apply get_slot in E. destruct E as (S & E). exfalso. exact (N _ _ S E).
Qed.

Lemma reload_done g p a w D : server_ok g -> SrvInv g w D ->
  (forall k rk, slot k w = Some rk -> n_name (r_cfg rk) = text (arg 1 a) -> in_sequential rk -> settled (est_of w rk)) ->
  command_reload g p a w <> Undef.
Proof.
  intros G V Q H. unfold command_reload in H. apply guard_undef in H. destruct H as (_ & _ & H). rewrite text_cstr in H.
  destruct (namespace_get (text (arg 1 a)) w) as [[k rk]|] eqn:E; [|discriminate]. apply get_slot in E. destruct E as (S & E).
  destruct (reload_step g k rk w D G V S (Q k rk S E)) as (w' & R & _). rewrite R in H. discriminate.
Qed.

Lemma starts_spec p : forall l, starts_with p l = true <-> exists q, l = p ++ q.
Proof.
  induction p as [|b p IH]; intros l; cbn [starts_with]; [split; [intros _; exists l; reflexivity|reflexivity]|].
  destruct l as [|c l]; [split; [discriminate|intros (q & X); discriminate]|]. rewrite andb_true_iff, IH. split.
  - intros (A & q & ->). exists q. destruct (beqb_spec b c); [subst; reflexivity|discriminate].
  - intros (q & X). injection X as -> X. split; [destruct (beqb_spec b b); congruence|eauto].
Qed.

Lemma contains_spec t l : contains (str t) l = true <-> has_text t l.
Proof.
  unfold has_text. induction l as [|b l IH]; cbn [contains]; rewrite orb_true_iff, starts_spec.
  - split.
    + intros [(q & E)|X]; [exists [], q; exact E|discriminate].
    + intros (p & q & E). left. destruct p; [exists q; exact E|discriminate].
  - rewrite IH. split.
    + intros [(q & E)|(p & q & E)]; [exists [], q; exact E|exists (b :: p), q; rewrite E; reflexivity].
    + intros (p & q & E). destruct p as [|c p]; [left; exists q; exact E|right]. injection E as -> E. exists p, q. exact E.
Qed.

Lemma flush_undef g k r w D : server_ok g -> SrvInv g w D -> slot k w = Some r -> (in_sequential r -> settled (est_of w r)) ->
  command_flush g k r w = Undef <-> n_public (r_cfg r) = false /\ n_pass (r_cfg r) <> None /\
    (has_text "zdb-data-" (n_name (r_cfg r)) \/ has_text "zdb-index-" (n_name (r_cfg r))).
Proof.
  intros G V S Q. unfold command_flush. destruct (n_public (r_cfg r)); [split; [discriminate|intros (X & _); discriminate]|].
  destruct (n_pass (r_cfg r)) as [pw|]; [|split; [discriminate|intros (_ & X & _); congruence]]. cbn [orb].
  rewrite <- !contains_spec, <- orb_true_iff. fold (cleanable (n_name (r_cfg r))). destruct (cleanable _).
  - split; [intros _; split; [reflexivity|split; [discriminate|reflexivity]]|reflexivity].
  - destruct (reload_step g k r w D G V S Q) as (w' & -> & _). split; [discriminate|intros (_ & _ & X); discriminate].
Qed.

Lemma on_ns_done i r w f : on_ns i r w f <> Undef.
Proof. unfold on_ns. destruct (f (est_of w r)). discriminate. Qed.

Lemma told_done o w : o <> None -> told o w <> Undef.
Proof. destruct o; [discriminate|congruence]. Qed.

Lemma plain_done g v fd cl i r c a w : match c with CWait | CMirror | CMaster | CAuth | CHooks | CStop | CNsdel | CSelect => true | _ => false end = true ->
  handle g v fd cl i r c a w <> Undef.
Proof.
  destruct c; try discriminate; intros _ H; unfold handle in H; cbv zeta in H;
    unfold command_wait, command_auth, command_nsdel, command_select in H; destr_res H; discriminate.
Qed.

Lemma handle_undef g v fd cl i r c a w D : server_ok g -> SrvInv g w D -> slot i w = Some r -> ok_here g v cl c a r w -> room_left r ->
  handle g v fd cl i r c a w = Undef <-> fatal w cl r c a.
Proof.
  intros G V S (_ & O2 & O3 & _) R. destruct (sv_live _ _ _ V i r S) as (x & _ & _ & U & _).
  assert (L : nlen (dk_i (dk (est_of w r))) < 4294967296) by exact R.
  destruct (holds_iok _ _ _ _ U L) as (md & gi & IO & Ch).
  assert (Nv : forall P : Prop, P -> (~ P) -> False) by tauto.
  destruct c; cbn [fatal];
    try (split; [discriminate|contradiction]);
    try (split; [intro H; exfalso; refine (plain_done _ _ _ _ _ _ _ _ _ _ H); reflexivity|contradiction]);
    unfold handle; cbv zeta;
    try (split; [intro H; exfalso; exact (on_ns_done _ _ _ _ H)|contradiction]).
  - pose proof (index_none (perm_of cl) a (est_of w r)) as X. destruct (command_index _ _ _) as [[rep s']|].
    + split; [discriminate|]. intro Y. apply X in Y. discriminate.
    + split; [|reflexivity]. intros _. apply X. reflexivity.
  - pose proof (data_none (perm_of cl) a (est_of w r)) as X. destruct (command_data _ _ _) as [rep|].
    + split; [discriminate|]. intro Y. apply X in Y. discriminate.
    + split; [|reflexivity]. intros _. apply X. reflexivity.
  - split; [|contradiction]. intro H. refine (told_done _ _ _ H). eapply scan_total. exact IO.
  - split; [|contradiction]. intro H. refine (told_done _ _ _ H). eapply rscan_total; eassumption.
  - split; [|contradiction]. intro H. refine (told_done _ _ _ H). eapply history_total; eassumption.
  - exact (nsnew_undef g (perm_of cl) a w D G V).
  - exact (nsset_undef g (perm_of cl) a w).
  - split; [|contradiction]. intro H. refine (reload_done g _ a w D G V _ H). apply O3. reflexivity.
  - apply (flush_undef g i r w D G V S). apply O2. reflexivity.
Qed.

(* ---- after the command ---- *)
Definition lost (v : env) (w : world) (cl : client) : Prop :=
  v_owner v <> 0 /\ match c_ns cl with None => True | Some i => slot i w = None end.

Lemma posthandle_none v argv w fd cl h l : forall k,
  posthandle v argv w fd cl h k l = None <->
  lost v w cl /\ exists j ck, k <= j /\ j <> fd /\ oget (j - k) l = Some ck /\ c_mirror ck = true.
Proof.
  induction l as [|o l IH]; intro k; cbn [posthandle].
  { split; [discriminate|]. intros (_ & j & ck & _ & _ & X & _). discriminate. }
  assert (Rest : posthandle v argv w fd cl h (k + 1) l = None -> lost v w cl /\ exists j ck, k <= j /\ j <> fd /\ oget (j - k) (o :: l) = Some ck /\ c_mirror ck = true).
  { intro E. apply IH in E. destruct E as (Lo & j & ck & A & B & C & M). split; [exact Lo|]. exists j, ck. split; [lia|]. split; [exact B|].
    split; [|exact M]. rewrite oget_cons. replace (j - k =? 0) with false by lia. replace (N.pred (j - k)) with (j - (k + 1)) by lia. exact C. }
  assert (Here : forall j ck, k <= j -> oget (j - k) (o :: l) = Some ck -> (j = k /\ o = Some ck) \/ (k + 1 <= j /\ oget (j - (k + 1)) l = Some ck)).
  { intros j ck A C. rewrite oget_cons in C. destruct (N.eqb_spec (j - k) 0) as [Z|Z]; [left; split; [lia|exact C]|right].
    replace (N.pred (j - k)) with (j - (k + 1)) in C by lia. split; [lia|exact C]. }
  destruct (posthandle v argv w fd cl h (k + 1) l) as [[out t']|] eqn:E.
  2: { split; [intros _; apply Rest; reflexivity|reflexivity]. }
  assert (No : lost v w cl -> forall j ck, k + 1 <= j -> j <> fd -> oget (j - (k + 1)) l = Some ck -> c_mirror ck = true -> False).
  { intros Lo j ck A B C M. enough (X : Some (out, t') = None) by discriminate. rewrite <- E. apply IH. split; [exact Lo|]. exists j, ck. auto. }
  destruct o as [ck|].
  2: { split; [discriminate|]. intros (Lo & j & c1 & A & B & C & M). exfalso. destruct (Here j c1 A C) as [(_ & X)|(X & Y)]; [discriminate|].
       exact (No Lo j c1 X B Y M). }
  destruct (N.eqb_spec k fd) as [K|K].
  { split; [discriminate|]. intros (Lo & j & c1 & A & B & C & M). exfalso. destruct (Here j c1 A C) as [(X & _)|(X & Y)]; [congruence|].
    exact (No Lo j c1 X B Y M). }
  destruct (c_mirror ck) eqn:Mi.
  - unfold lost in *. destruct (N.eqb_spec (v_owner v) 0) as [Z|Z]; [split; [discriminate|intros ((X & _) & _); congruence]|].
    assert (Yes : exists j c1, k <= j /\ j <> fd /\ oget (j - k) (Some ck :: l) = Some c1 /\ c_mirror c1 = true).
    { exists k, ck. split; [lia|]. split; [exact K|]. split; [|exact Mi]. rewrite oget_cons. replace (k - k =? 0) with true by lia. reflexivity. }
    destruct (c_ns cl) as [i|]; [|split; [intros _; split; [split; [exact Z|exact I]|exact Yes]|reflexivity]].
    destruct (slot i w) as [r|] eqn:Si; [split; [discriminate|intros ((_ & X) & _); discriminate]|].
    split; [intros _; split; [split; [exact Z|reflexivity]|exact Yes]|reflexivity].
  - assert (Fin : ~ (lost v w cl /\ exists j c1, k <= j /\ j <> fd /\ oget (j - k) (Some ck :: l) = Some c1 /\ c_mirror c1 = true)).
    { intros (Lo & j & c1 & A & B & C & M). destruct (Here j c1 A C) as [(_ & X)|(X & Y)]; [injection X as <-; congruence|].
      exact (No Lo j c1 X B Y M). }
    destruct (c_watch ck) as [wh|]; [|split; [discriminate|intro X; exfalso; exact (Fin X)]].
    destruct (_ && _); split; try discriminate; intro X; exfalso; exact (Fin X).
Qed.

Lemma posthandler_none v fd argv w : posthandler v fd argv w = None <->
  exists cl, client_at fd w = Some cl /\ c_exec cl <> None /\ lost v w cl /\ mirrored fd w.
Proof.
  unfold posthandler. destruct (client_at fd w) as [cl|]; [|split; [discriminate|intros (cl & X & _); discriminate]].
  destruct (c_exec cl) as [h|] eqn:Ex; [|split; [discriminate|intros (c1 & X & Y & _); injection X as <-; congruence]].
  pose proof (posthandle_none v argv w fd cl h (w_clients w) 0) as P.
  assert (M : (exists j ck, 0 <= j /\ j <> fd /\ oget (j - 0) (w_clients w) = Some ck /\ c_mirror ck = true) <-> mirrored fd w).
  { unfold mirrored. split.
    - intros (j & ck & _ & A & B & C). exists j, ck. rewrite client_oget. replace (j - 0) with j in B by lia. auto.
    - intros (j & ck & A & B & C). exists j, ck. rewrite client_oget in B. replace (j - 0) with j by lia. repeat split; auto; lia. }
  rewrite M in P. destruct (posthandle _ _ _ _ _ _ _ _) as [[out l]|].
  - split; [discriminate|]. intros (c1 & X & _ & A & B). injection X as <-. enough (Y : Some (out, l) = None) by discriminate. tauto.
  - split; [|reflexivity]. intros _. exists cl. rewrite Ex. split; [reflexivity|]. split; [discriminate|]. tauto.
Qed.

(* the client of a request keeps a namespace *)
Lemma detach_own w i cl fd j l : client_at fd w = Some cl -> c_ns cl = Some i -> i <> j ->
  client_at fd (mkWorld (w_tb w) l (w_eff w) (map (detach_client j) (w_clients w))) = Some cl.
Proof.
  rewrite !client_oget. cbn [w_clients]. intros C Ci N. rewrite detach_at, C. unfold detach_client. rewrite Ci.
  replace (i =? j) with false by lia. reflexivity.
Qed.

Lemma keeps_seat g v fd cl i r c a w S rep st w' : NmInv w S -> c_ns cl = Some i -> slot i w = Some r -> client_at fd w = Some cl ->
  handle g v fd cl i r c a w = Done rep st w' -> forall cl', client_at fd w' = Some cl' -> ~ lost v w' cl'.
Proof.
  intros V Ci Si C H cl' C' (_ & Lo).
  destruct (handle_names g v fd cl i r c a w S rep st w' V Ci Si C H) as (S' & _ & V' & M).
  assert (Me : at_of w fd = Some (Some (n_name (r_cfg r)))) by (unfold at_of; rewrite C; cbn [option_map]; rewrite Ci, Si; reflexivity).
  destruct (c_ns cl') as [k|] eqn:Ck; [exact (nm_cl _ _ V' fd cl' k C' Ck Lo)|].
  specialize (M fd). unfold at_of at 1 in M. rewrite C' in M. cbn [option_map] in M. rewrite Ck, Me in M.
  destruct c; try discriminate M.
  - unfold handle in H. cbv zeta in H. unfold command_nsdel in H.
    destr_res H; injection H as <- <- <-; try congruence. 
    match goal with X : namespace_get _ w = Some (?j, ?q) |- _ =>
      assert (i <> j) by (match goal with Y : match c_ns cl with _ => _ end = false |- _ => rewrite Ci in Y; lia end) end.
    unfold client_at in *. cbn [w_clients] in *. 
    match goal with X : i <> ?j |- _ => pose proof (detach_own w i cl fd j [] C Ci X) as Y end.
    unfold client_at in Y. cbn [w_clients] in Y. congruence.
  - destruct (_ && _); discriminate M.
Qed.

Lemma fatal_ext w w' cl cl' r c a : w_slots w' = w_slots w -> c_admin cl' = c_admin cl -> fatal w' cl' r c a <-> fatal w cl r c a.
Proof. intros Es Ea. unfold fatal, slot. rewrite Es, Ea. reflexivity. Qed.

Lemma mirrored_put fd cl w : mirrored fd (put_client fd cl w) <-> mirrored fd w.
Proof. unfold mirrored. split; intros (k & ck & A & B & C); exists k, ck; (split; [exact A|]); rewrite client_put_other in *; auto. Qed.

Lemma body_undef g v fd cl a w D S : server_ok g -> SrvInv g w D -> NmInv w S -> client_at fd w = Some cl ->
  (forall i r h c, c_ns cl = Some i -> slot i w = Some r -> lookup_handler (arg 0 a) = Some (h, c) -> ok_here g v cl c a r w) -> all_room w ->
  match dispatch g v fd cl a w with
  | Undef => SUndef
  | Done rep st w1 => match posthandler v fd a w1 with None => SUndef | Some (out, w2) => SDone ((fd, rep) :: out) st w2 end
  end = SUndef <->
  match c_ns cl with
  | None => c_exec cl <> None /\ v_owner v <> 0 /\ mirrored fd w
  | Some i => exists r h c, slot i w = Some r /\ lookup_handler (arg 0 a) = Some (h, c) /\ fatal w cl r c a
  end.
Proof.
  intros G V Vn C O Rm. unfold dispatch. destruct (c_ns cl) as [i|] eqn:Ci.
  - destruct (slot i w) as [r|] eqn:Si; [|exfalso; exact (nm_cl _ _ Vn fd cl i C Ci Si)].
    destruct (lookup_handler (arg 0 a)) as [[h c]|] eqn:Lk.
    + specialize (O i r h c eq_refl Si eq_refl). set (cl' := c_set_exec (Some h) cl). set (w0 := put_client fd cl' w).
      assert (V0 : SrvInv g w0 D) by (apply (sv_ext g w); auto).
      assert (C0 : client_at fd w0 = Some cl') by (apply (client_put_same _ _ cl); exact C).
      assert (Vn0 : NmInv w0 S) by (apply (calm_inv w); [apply (put_calm fd cl); [exact C|reflexivity]|exact Vn]).
      pose proof (handle_undef g v fd cl' i r c a w0 D G V0 Si O (Rm i r Si)) as X.
      rewrite (fatal_ext w w0 cl cl') in X by reflexivity.
      destruct (handle g v fd cl' i r c a w0) as [rep st w1|] eqn:H.
      * pose proof (posthandler_none v fd a w1) as P. destruct (posthandler v fd a w1) as [[out w2]|].
        -- split; [discriminate|]. intros (r1 & h1 & c1 & A & B & F). injection A as <-. injection B as <- <-. apply X in F. discriminate.
        -- exfalso. destruct P as (P & _). destruct (P eq_refl) as (c1 & A & _ & B & _).
           exact (keeps_seat g v fd cl' i r c a w0 S rep st w1 Vn0 Ci Si C0 H c1 A B).
      * split; [|reflexivity]. intros _. exists r, h, c. split; [reflexivity|]. split; [reflexivity|]. apply X. reflexivity.
    + pose proof (posthandler_none v fd a (put_client fd (c_set_exec None cl) w)) as P.
      destruct (posthandler v fd a (put_client fd (c_set_exec None cl) w)) as [[out w2]|].
      * split; [discriminate|]. intros (r1 & h1 & c1 & _ & B & _). discriminate.
      * exfalso. destruct P as (P & _). destruct (P eq_refl) as (c1 & A & B & _). rewrite (client_put_same _ _ cl) in A by exact C.
        injection A as <-. apply B. reflexivity.
  - pose proof (posthandler_none v fd a w) as P. destruct (posthandler v fd a w) as [[out w2]|].
    + split; [discriminate|]. intros (A & B & M). enough (Y : Some (out, w2) = None) by discriminate. apply P. exists cl. split; [exact C|].
      split; [exact A|]. split; [split; [exact B|rewrite Ci; exact I]|exact M].
    + split; [|reflexivity]. intros _. destruct P as (P & _). destruct (P eq_refl) as (c1 & A & B & (L & _) & M). rewrite C in A. injection A as <-. auto.
Qed.

Lemma event_undef g e w D S : server_ok g -> SrvInv g w D -> NmInv w S -> covered g e w -> all_room w ->
  run_sevent g e w = SUndef <-> crashing e w.
Proof.
  intros G V Vn Cv Rm. destruct e as [fd|fd|fd v argv|now old|ord]; cbn [run_sevent crashing].
  - unfold connect. destruct (client_at fd w); split; try discriminate; try reflexivity. congruence.
  - unfold close. split; [discriminate|contradiction].
  - unfold Server.request. destruct (client_at fd w) as [cl|] eqn:C; [|split; [intros _; exact I|reflexivity]]. cbv zeta.
    assert (O : forall i r h c, c_ns cl = Some i -> slot i w = Some r -> lookup_handler (arg 0 (effective cl argv)) = Some (h, c) -> ok_here g v cl c (effective cl argv) r w).
    { intros i r h c Ci Si L. exact (Cv cl i r h c C Ci Si L). }
    pose proof (body_undef g v fd cl (effective cl argv) w D S G V Vn C O Rm) as B. unfold effective in *. destruct (c_master cl).
    + destruct (N.ltb_spec 32 (blen (last argv []))) as [L|L]; [split; [discriminate|intros (X & _); specialize (X eq_refl); lia]|].
      destruct (N.leb_spec (nlen argv) 1) as [L1|L1].
      * split; [|reflexivity]. intros _. split; [intros _; exact L|]. left. split; [reflexivity|exact L1].
      * rewrite B. split; [intro X; split; [intros _; exact L|right; exact X]|]. intros (_ & [(_ & X)|X]); [lia|exact X].
    + rewrite B. split; [intro X; split; [discriminate|right; exact X]|]. intros (_ & [(X & _)|X]); [discriminate|exact X].
  - unfold idle. destruct (watch_timeout _ _ _). split; [discriminate|contradiction].
  - destruct (restart_step g ord w D V Cv) as (w' & -> & _). split; [discriminate|contradiction].
Qed.

Lemma reached_undef g es outs w0 w e : server_ok g -> first_boot g = Some w0 -> all_covered g es w0 -> run_sevents g es w0 = Some (outs, w) ->
  covered g e w -> all_room w -> run_sevent g e w = SUndef <-> crashing e w.
Proof.
  intros G B Cv R Ce Rm. destruct (server_run g es outs w0 w G B Cv R) as (D & _ & V).
  destruct (names_all g es w0 outs w B (covered_honest g es w0 Cv) R) as (P & S & _ & Vn & _).
  exact (event_undef g e w D S G V Vn Ce Rm).
Qed.

Lemma calm_runs g es : server_ok g -> forall w D S, SrvInv g w D -> NmInv w S -> all_calm g es w -> run_sevents g es w <> None.
Proof.
  intro G. induction es as [|e es IH]; intros w D S V Vn A; cbn [run_sevents all_calm] in *; [discriminate|].
  destruct A as (Cv & Rm & N & A). destruct (run_sevent g e w) as [out st w1|] eqn:E.
  - destruct (event_step g e w D out st w1 G V Cv E) as (D1 & _ & V1).
    assert (exists S1, NmInv w1 S1) as (S1 & Vn1).
    { assert (R : run_sevents g [e] w = Some ([out], w1)) by (cbn [run_sevents]; rewrite E; reflexivity).
      assert (Ac : all_covered g [e] w) by (cbn [all_covered]; rewrite E; auto).
      destruct (events_names g [e] w S (at_of w) _ w1 Vn (fun _ => eq_refl) (covered_honest _ _ _ Ac) R) as (P1 & S1 & _ & X & _). exists S1. exact X. }
    specialize (IH w1 D1 S1 V1 Vn1 A). destruct (run_sevents g es w1) as [[o w2]|]; [discriminate|congruence].
  - exfalso. apply N. apply (event_undef g e w D S G V Vn Cv Rm). exact E.
Qed.

Lemma all_defined g w0 es : server_ok g -> first_boot g = Some w0 -> all_calm g es w0 -> run_sevents g es w0 <> None.
Proof.
  intros G B A. destruct (server_run g [] [] w0 w0 G B I eq_refl) as (D & _ & V).
  destruct (names_all g [] w0 [] w0 B I eq_refl) as (P & S & _ & Vn & _). exact (calm_runs g es G w0 D S V Vn A).
Qed.

(* ---- in the loop ---- *)
Lemma run_app g a : forall b w ms1 w1 ms2 w2, run_sevents g a w = Some (ms1, w1) -> run_sevents g b w1 = Some (ms2, w2) ->
  run_sevents g (a ++ b) w = Some (ms1 ++ ms2, w2).
Proof.
  induction a as [|e a IH]; intros b w ms1 w1 ms2 w2 A B; cbn [app run_sevents] in *; [injection A as <- <-; exact B|].
  destruct (run_sevent g e w) as [out st w'|]; [|discriminate]. destruct (run_sevents g a w') as [[o wa]|] eqn:E; [|discriminate].
  injection A as <- <-. rewrite (IH b w' o wa ms2 w2 E B). reflexivity.
Qed.

Lemma boot_clients g w : first_boot g = Some w -> w_clients w = [].
Proof. intro H. unfold first_boot in H. apply boot_inv in H. destruct H as (? & ? & ? & ? & ? & t & sl & _ & _ & _ & ->). reflexivity. Qed.

Lemma loop_crash g w0 evs : server_ok g -> first_boot g = Some w0 -> polite evs -> net_run g evs (net_new w0) = None ->
  ended_before g w0 evs \/ socket_reused g w0 evs \/ request_crashes g w0 evs.
Proof.
  intros G B P R. destruct (loop_defined g w0 evs (boot_clients g w0 B) P R) as [X|[X|X]]; [left; exact X|right; left; exact X|right; right].
  destruct X as (before & fd & cuts & e & x & y & after & n & es1 & ms1 & es2 & ms2 & w & k & argv & E1 & E2 & E3 & _ & E5 & E6 & E7 & E8).
  exists before, fd, cuts, e, x, y, after, n, es1, es2, (ms1 ++ ms2), w, k, argv. 
  assert (Rn : run_sevents g (es1 ++ es2) w0 = Some (ms1 ++ ms2, w)) by (eapply run_app; eassumption).
  split; [exact E1|]. split; [exact E2|]. split; [exact Rn|]. split; [exact E5|]. split; [exact E8|].
  intros Cv Ce Rm. apply (reached_undef g (es1 ++ es2) (ms1 ++ ms2) w0 w _ G B Cv Rn Ce Rm). exact E7.
Qed.

(* ---- tests, for the examples ---- *)

Definition room_b (w : world) : bool :=
  forallb (fun o => match o with Some r => nlen (dk_i (r_dk r)) <? 2 ^ 32 | None => true end) (w_slots w).

Lemma room_b_ok w : room_b w = true -> all_room w.
Proof.
  unfold room_b, all_room, room_left. intros H i r S. rewrite forallb_forall in H. unfold slot in S.
  destruct (nget i (w_slots w)) as [o|] eqn:E; [|discriminate]. subst o. apply nget_split in E. destruct E as (a & b & E & _).
  assert (I : In (Some r) (w_slots w)) by (rewrite E; apply in_elt). specialize (H _ I). cbn beta iota in H. lia.
Qed.

Definition quiet_b (e : sevent) (w : world) : bool :=
  match e with
  | SConnect fd => match client_at fd w with None => true | Some _ => false end
  | SRequest fd v argv =>
      match client_at fd w with
      | None => false
      | Some cl => negb (c_master cl) && match c_ns cl with None => false | Some _ => true end &&
          forallb (fun x => blen x <? 256) argv &&
          match lookup_handler (arg 0 argv) with
          | Some (_, CFlush) => false
          | Some (_, CNsnew) => negb (blen (text (arg 1 argv)) =? 0)
          | _ => true
          end
      end
  | _ => true
  end.

Lemma quiet_b_ok e w : quiet_b e w = true -> ~ crashing e w.
Proof.
  destruct e as [fd|fd|fd v argv|now old|ord]; cbn [quiet_b crashing]; intros H X; try contradiction.
  - destruct (client_at fd w); [discriminate|congruence].
  - destruct (client_at fd w) as [cl|]; [|discriminate]. unfold effective in X. destruct (c_master cl); [discriminate|].
    destruct X as (_ & [(X & _)|X]); [discriminate|]. destruct (c_ns cl); [|discriminate]. destruct X as (r & h & c & _ & Lk & F).
    rewrite Lk in H. cbn [negb andb] in H. apply andb_true_iff in H. destruct H as (H & Tx).
    assert (Sh : forall j, ~ word_of_256 (arg j argv)).
    { intros j (B & _). unfold arg in B. rewrite forallb_forall in H. destruct (Nat.lt_ge_cases j (length argv)) as [L|L].
      - specialize (H _ (nth_In argv [] L)). cbn beta in H. lia.
      - rewrite nth_overflow in B by exact L. discriminate. }
    destruct c; cbn [fatal] in F; try contradiction.
    + destruct F as (_ & _ & _ & [F|(_ & _ & _ & F)]); exact (Sh _ F).
    + destruct F as (_ & _ & _ & F). exact (Sh _ F).
    + destruct F as (_ & _ & F & _). rewrite F in Tx. discriminate.
    + destruct F as (_ & _ & F & _). exact (Sh _ F).
    + discriminate.
Qed.

Fixpoint calm_b (g : server) (es : list sevent) (w : world) : bool :=
  match es with
  | [] => true
  | e :: r => coveredb g e w && room_b w && quiet_b e w &&
      match run_sevent g e w with SDone _ _ w1 => calm_b g r w1 | SUndef => true end
  end.

Lemma calm_b_ok g es : forall w, calm_b g es w = true -> all_calm g es w.
Proof.
  induction es as [|e es IH]; intros w H; cbn [calm_b all_calm] in *; [exact I|].
  apply andb_true_iff in H. destruct H as (H & H4). apply andb_true_iff in H. destruct H as (H & H3). apply andb_true_iff in H. destruct H as (H1 & H2).
  split; [apply coveredb_ok; exact H1|]. split; [apply room_b_ok; exact H2|]. split; [apply quiet_b_ok; exact H3|].
  destruct (run_sevent g e w); [apply IH; exact H4|exact I].
Qed.
