(* SCAN, RSCAN, KEYCUR and KSCAN on the states of Reach and SeqReach. *)
From Coq Require Import Strings.String Strings.Byte List NArith ZArith Bool Permutation Lia ZifyBool ZifyN ZifyNat.
From Verif Require Import Bytes BytesFacts Crc32 Crc32Facts Layout LayoutFacts Store Text TextFacts Commands SpecKV SpecSeq Machine Reach
  Ghost DataFacts TableFacts CheckFacts UserInv UserSteps UserLoad CrashPre UserReq UserRun KvFacts
  CrashModel CrashSpec SeqMap SeqInv SeqSteps SeqLoad SeqReq SeqReach SeqRun SeqFacts Scan SpecScan ScanFacts ScanRun.
Import ListNotations.
Open Scope N_scope.
Ltac Zify.zify_post_hook ::= Z.div_mod_to_equations.
Local Notation length := List.length.

(* ---- the values kept are no larger than the values given ---- *)
Definition small (m : kv) : Prop := Forall (fun r => blen (fst (snd r)) <= 8388608) m.

Lemma small_filter f m : small m -> small (filter f m).
Proof. unfold small. rewrite !Forall_forall. intros H x Hx. apply filter_In in Hx. apply H. tauto. Qed.

Lemma small_kput k v ts m : blen v <= 8388608 -> small m -> small (kput k v ts m).
Proof. intros Hv H. unfold kput. apply Forall_app. split; [now apply small_filter|]. repeat constructor. exact Hv. Qed.

Lemma small_kset k v ts m : blen v <= 8388608 -> small m -> small (kset k v ts m).
Proof.
  intros Hv H. unfold kset, small in *. rewrite Forall_map. eapply Forall_impl; [|exact H].
  intros [k' [v' t']] B. cbn [fst snd] in *. destruct (bseqb k' k); auto.
Qed.

Lemma small_kv_step p now c q m : req_wf q -> small m -> small (snd (kv_step p now c q m)).
Proof.
  intros W H. destruct q as [k' v ts|k' ts| | | | | | | |]; cbn [kv_step snd]; auto.
  - pose proof (set_reply_cases p now c m k' v ts) as X. destruct (kv_set p now c m k' v ts) as [r m']. cbn [snd].
    destruct X as [(_ & -> & _)|(_ & ->)]; auto. apply small_kput; auto. apply W.
  - pose proof (del_reply_cases p c m k' ts) as X. destruct (kv_del p c m k' ts) as [r m']. cbn [snd].
    destruct X as [(_ & ->)|(_ & ->)]; auto. now apply small_filter.
Qed.

Lemma small_kv_run es : Forall event_wf es -> forall c m, small m -> small (snd (snd (kv_run es (c, m)))).
Proof.
  induction 1 as [|e es W F IH]; intros c m H; [exact H|]. cbn [kv_run].
  destruct e as [p now q|c'|]; cbn [kv_event].
  - pose proof (small_kv_step p now c q m W H) as S. destruct (kv_step p now c q m) as [r m'].
    specialize (IH c m' S). now destruct (kv_run es (c, m')) as [o2 [c2 m2]].
  - specialize (IH c' m H). now destruct (kv_run es (c', m)) as [o2 [c2 m2]].
  - specialize (IH (unlocked c) m H). now destruct (kv_run es (unlocked c, m)) as [o2 [c2 m2]].
Qed.

Lemma small_kv_of c0 es : Forall event_wf es -> small (kv_of c0 es).
Proof. intros F. apply small_kv_run; auto. constructor. Qed.

Lemma small_sq_step p now c q st : req_wf q -> small (sq_map st) -> small (sq_map (snd (sq_step p now c q st))).
Proof.
  intros W H. destruct q as [k' v ts|k' ts| | | | | | | |]; cbn [sq_step kv_step snd]; auto.
  - pose proof (sq_set_cases p now c st k' v ts) as X. destruct (sq_set p now c st k' v ts) as [r st']. cbn [snd].
    destruct X as [(_ & _ & ->)|[(_ & _ & _ & ->)|(-> & _)]]; cbn [sq_map]; auto.
    + apply Forall_app. split; auto. repeat constructor. apply W.
    + apply small_kset; auto. apply W.
  - pose proof (del_cases p c st k' ts) as X. destruct (kv_del p c (sq_map st) k' ts) as [r m'] eqn:E.
    cbn [snd sq_map]. destruct X as [(_ & ->)|(_ & ->)]; auto. now apply small_filter.
Qed.

Lemma small_sq_run es : Forall event_wf es -> forall c st, small (sq_map st) -> small (sq_map (snd (snd (sq_run es (c, st))))).
Proof.
  induction 1 as [|e es W F IH]; intros c st H; [exact H|]. cbn [sq_run].
  destruct e as [p now q|c'|]; cbn [sq_event].
  - pose proof (small_sq_step p now c q st W H) as S. destruct (sq_step p now c q st) as [r st'].
    specialize (IH c st' S). now destruct (sq_run es (c, st')) as [o2 [c2 m2]].
  - specialize (IH c' st H). now destruct (sq_run es (c', st)) as [o2 [c2 m2]].
  - specialize (IH (unlocked c) st H). now destruct (sq_run es (unlocked c, st)) as [o2 [c2 m2]].
Qed.

Lemma small_sq_of c0 es : Forall event_wf es -> small (sq_map (sq_of_history c0 es)).
Proof. intros F. apply small_sq_run; auto. constructor. Qed.

Lemma calm_wf g es : forall st o st', calm g (plain es) st -> run_cevents g (plain es) st = Some (o, st') -> Forall event_wf es.
Proof.
  induction es as [|e es IH]; intros st o st' C R; [constructor|].
  cbn [plain map calm run_cevents] in *. destruct C as [C1 C2].
  destruct (run_cevent g (CEv e) st) as [[o1 st1]|] eqn:E; [|discriminate].
  destruct (run_cevents g (map CEv es) st1) as [[o2 st2]|] eqn:E2; [|discriminate].
  constructor.
  - destruct e as [p now q| |]; cbn [event_wf]; auto. cbn [ev_calm] in C1. apply C1.
  - eapply IH; eauto.
Qed.

Lemma sreached_wf g n c0 es o c s : sreached g n c0 (plain es) o c s -> Forall event_wf es.
Proof. intros (_ & s0 & _ & C & R). eapply calm_wf; eauto. Qed.

(* ---- rows ---- *)
Lemma rows_user dd G H : Forall loc_wf G -> Forall2 (ver_ok dd) G H -> small (livem G H) ->
  Forall2 rowm (filter live G) (livem G H).
Proof.
  intros W F. revert W. induction F as [|x v G H V F IH]; intros W S; cbn [filter livem] in *; [constructor|].
  inversion W as [|? ? W1 W2]; subst. destruct (live x); auto. inversion S as [|? ? S1 S2]; subst. constructor; auto.
  destruct V as (V1 & V2 & _ & V4 & _). split; [apply W1|]. split; [exact V1|]. split; [exact V2|]. split; [exact V4|]. lia.
Qed.

Lemma rows_seq dd G H : Forall sloc_wf G -> Forall2 (sver_ok dd) G H -> small (livem G H) ->
  Forall2 rowm (filter live G) (livem G H).
Proof.
  intros W F. revert W. induction F as [|x v G H V F IH]; intros W S; cbn [filter livem] in *; [constructor|].
  inversion W as [|? ? W1 W2]; subst. destruct (live x); auto. inversion S as [|? ? S1 S2]; subst. constructor; auto.
  destruct V as (V1 & V2 & _ & V4 & _). split; [apply W1|]. split; [exact V1|]. split; [exact V2|]. split; [exact V4|]. lia.
Qed.

Lemma forall2_rev {A B} (P : A -> B -> Prop) a b : Forall2 P a b -> Forall2 P (rev a) (rev b).
Proof. induction 1; cbn [rev]; auto using Forall2_app. Qed.

(* ---- the files ---- *)
Lemma uinv_iok n s gi H : UInv n s gi H -> files_lt s -> IOk MODE_KV (dk s) gi.
Proof.
  intros U FL. unfold files_lt in FL. rewrite (nlen_files _ _ _ _ U) in FL. constructor; [apply U|exact FL|].
  eapply Forall_impl; [|apply U]. intros x (W1 & _ & W2). auto.
Qed.

Lemma sinv_iok n s m gi H : SInv n s m gi H -> files_lt s -> IOk MODE_SEQ (dk s) gi.
Proof.
  intros U FL. unfold files_lt in FL. rewrite (nlen_sfiles _ _ _ _ _ U) in FL. constructor; [apply U|exact FL|].
  eapply Forall_impl; [|apply U]. intros x (W1 & _ & W2). auto.
Qed.

Lemma all_used_spec m s gi : dk_i (dk s) = enc_ifs m 0 gi -> all_used (dk_i (dk s)) -> noempty gi \/ gi = [[]].
Proof.
  intros E [A|A].
  - rewrite E, nlen_enc_ifs in A. destruct gi as [|l [|l2 gi]]; cbn [nlen] in A; try lia.
    destruct l; [auto|]. left. constructor; [discriminate|constructor].
  - left. apply Forall_forall. intros l Hl ->. apply in_split in Hl. destruct Hl as (g1 & g2 & ->).
    rewrite E in A. specialize (A (enc_if m (nlen g1) [])).
    assert (I : In (enc_if m (nlen g1) []) (enc_ifs m 0 (g1 ++ [] :: g2))).
    { eapply nget_In. apply nget_enc_ifs. }
    specialize (A I). rewrite blen_enc_if in A. cbn [isz] in A. lia.
Qed.

(* ---- walks ---- *)
Lemma user_scan g n c0 es o c s cmd : reached g n c0 es o c s -> is_frozen c = false ->
  walks (fun k argv => command_scan k argv c s) cmd None true (kv_of c0 es).
Proof.
  intros R Fz slices. destruct (reached_inv _ _ _ _ _ _ _ R) as (_ & _ & gi & H & U & E & FL).
  pose proof (uinv_iok _ _ _ _ U FL) as I. rewrite <- E.
  eapply follow_start; eauto.
  - apply (wlk_scan _ _ _ I). intros ->. pose proof (ui_id _ _ _ _ U) as X. cbn [nlen] in X. lia.
  - eapply rows_user; try apply U. rewrite E. apply small_kv_of. apply R.
Qed.

Lemma user_rscan g n c0 es o c s cmd : reached g n c0 es o c s -> is_frozen c = false -> all_used (dk_i (dk s)) ->
  walks (fun k argv => command_rscan k argv c s) cmd None true (rev (kv_of c0 es)).
Proof.
  intros R Fz AU slices. destruct (reached_inv _ _ _ _ _ _ _ R) as (_ & _ & gi & H & U & E & FL).
  pose proof (uinv_iok _ _ _ _ U FL) as I. rewrite <- E.
  eapply follow_start; eauto.
  - apply (wlk_rscan _ _ _ _ I); try apply U. eapply all_used_spec; eauto. apply U.
  - apply forall2_rev. eapply rows_user; try apply U. rewrite E. apply small_kv_of. apply R.
Qed.

Lemma seq_scan g n c0 es o c s cmd : sreached g n c0 (plain es) o c s -> is_frozen c = false -> files_lt s ->
  walks (fun k argv => command_scan k argv c s) cmd None true (sq_map (sq_of_history c0 es)).
Proof.
  intros R Fz FL slices. destruct (splain_inv _ _ _ _ _ _ _ R) as (_ & _ & gi & H & (m & U & _) & E & _).
  pose proof (sinv_iok _ _ _ _ _ U FL) as I. rewrite <- E.
  eapply follow_start; eauto.
  - apply (wlk_scan _ _ _ I). intros ->. pose proof (si_id _ _ _ _ _ U) as X. cbn [nlen] in X. lia.
  - eapply rows_seq; try apply U. change (livem (flat 0 gi) H) with (sq_map (sq_of gi H)). rewrite E. apply small_sq_of.
    eapply sreached_wf; eauto.
Qed.

Lemma seq_rscan g n c0 es o c s cmd : sreached g n c0 (plain es) o c s -> is_frozen c = false -> files_lt s -> all_used (dk_i (dk s)) ->
  walks (fun k argv => command_rscan k argv c s) cmd None true (rev (sq_map (sq_of_history c0 es))).
Proof.
  intros R Fz FL AU slices. destruct (splain_inv _ _ _ _ _ _ _ R) as (_ & _ & gi & H & (m & U & _) & E & _).
  pose proof (sinv_iok _ _ _ _ _ U FL) as I. rewrite <- E.
  eapply follow_start; eauto.
  - apply (wlk_rscan _ _ _ _ I); try apply U. eapply all_used_spec; eauto. apply U.
  - apply forall2_rev. eapply rows_seq; try apply U.
    change (livem (flat 0 gi) H) with (sq_map (sq_of gi H)). rewrite E. apply small_sq_of.
    eapply sreached_wf; eauto.
Qed.

(* ---- KEYCUR ---- *)
Lemma forall2_mid {A B} (P : A -> B -> Prop) L R1 r R2 : Forall2 P L (R1 ++ r :: R2) ->
  exists L1 x L2, L = L1 ++ x :: L2 /\ Forall2 P L1 R1 /\ P x r /\ Forall2 P L2 R2.
Proof.
  intros F. apply Forall2_app_inv_r in F. destruct F as (L1 & L2' & F1 & F2 & ->).
  inversion F2 as [|x ? L2 ? Hx F3]; subst. eauto 10.
Qed.

Lemma rowm_ids L R : Forall2 rowm L R -> map l_id L = map fst R.
Proof. induction 1 as [|x r L R X F IH]; cbn [map]; auto. destruct X as (_ & -> & _). now rewrite IH. Qed.

Lemma nodup_same {A B} (f : A -> B) L x y : NoDup (map f L) -> In x L -> In y L -> f x = f y -> x = y.
Proof.
  induction L as [|a L IH]; cbn [map In]; intros ND Hx Hy E; [contradiction|]. inversion ND as [|? ? N1 N2]; subst.
  destruct Hx as [->|Hx], Hy as [->|Hy]; auto.
  - exfalso. apply N1. rewrite E. now apply in_map.
  - exfalso. apply N1. rewrite <- E. now apply in_map.
Qed.

Lemma serialize_user n x : item_wf (l_it x) -> l_off x < 4294967296 ->
  index_entry_serialize (entry_of n x) = index_item_serialize (l_it x) (l_off x) (l_f x).
Proof.
  intros (W1 & W2 & _) Ho. unfold index_entry_serialize, index_item_serialize, entry_of.
  cbn [e_id e_indexid e_len e_idxoff e_crc]. rewrite u32_small by auto.
  change (blen (l_id x)) with (blen (it_id (l_it x))). rewrite <- W1. unfold u8. rewrite N.mod_small by auto. reflexivity.
Qed.
Lemma serialize_seq n x : item_wf (l_it x) -> l_off x < 4294967296 ->
  index_entry_serialize (seq_entry n x) = index_item_serialize (l_it x) (l_off x) (l_f x).
Proof.
  intros (W1 & W2 & _) Ho. unfold index_entry_serialize, index_item_serialize, seq_entry.
  cbn [e_id e_indexid e_len e_idxoff e_crc]. rewrite u32_small by auto.
  change (blen (l_id x)) with (blen (it_id (l_it x))). rewrite <- W1. unfold u8. rewrite N.mod_small by auto. reflexivity.
Qed.

Lemma keycur_eq c s k e : 0 < blen k -> is_frozen c = false -> index_get s k = Some e ->
  command_keycur [str "KEYCUR"; k] c s = bulk (enc_bkey (index_entry_serialize e)).
Proof.
  intros Hk Fz E. unfold command_keycur, args_validate, real_args_validate.
  change (argc [str "KEYCUR"; k]) with 2. change (2 =? 2) with true. cbn [negb existsb].
  change (blen (str "KEYCUR") =? 0) with false. destruct (N.eqb_spec (blen k) 0); [lia|]. cbn [orb].
  change (arg 1 [str "KEYCUR"; k]) with k. rewrite Fz, E. unfold bulk. rewrite blen_enc_bkey. reflexivity.
Qed.

(* the cursor of a key continues a walk in either direction *)
Definition resumes (c : nscfg) (s : est) (k : bytes) (before after : kv) : Prop :=
  exists cur, command_keycur [str "KEYCUR"; k] c s = bulk cur /\
    (forall cmd, walks (fun i argv => command_scan i argv c s) cmd (Some cur) false after) /\
    (all_used (dk_i (dk s)) -> forall cmd, walks (fun i argv => command_rscan i argv c s) cmd (Some cur) false (rev before)).

Lemma resumes_at m c s gi R k v A B x e L1 L2 : IOk m (dk s) gi -> gi <> [] -> chain 0 (flat 0 gi) ->
  x_indexid (ix s) + 1 = nlen gi -> x_prev (ix s) = last_off 0 (flat 0 gi) -> is_frozen c = false ->
  R = A ++ (k, v) :: B -> filter live (flat 0 gi) = L1 ++ x :: L2 -> Forall2 rowm L1 A -> Forall2 rowm L2 B ->
  0 < blen k -> index_get s k = Some e ->
  index_entry_serialize e = index_item_serialize (l_it x) (l_off x) (l_f x) -> resumes c s k A B.
Proof.
  intros I Hne Ch Hid Hp Fz ER EL F1 F2 Hk G Es. exists (cursor_of x). split; [|split].
  - rewrite (keycur_eq c s k e Hk Fz G), Es. reflexivity.
  - intros cmd slices. eapply follow_from; eauto. apply (wlk_scan _ _ _ I Hne).
  - intros AU cmd slices. eapply (follow_from _ _ _ _ cmd c s); [| reflexivity | exact Fz | | apply forall2_rev; exact F1].
    + apply (wlk_rscan _ _ _ _ I); auto. eapply all_used_spec; eauto. apply I.
    + rewrite EL, rev_app_distr. cbn [rev]. rewrite <- app_assoc. reflexivity.
Qed.

Lemma user_keycur g n c0 es o c s A k v B : reached g n c0 es o c s -> is_frozen c = false ->
  kv_of c0 es = A ++ (k, v) :: B -> resumes c s k A B.
Proof.
  intros R Fz EK. destruct (reached_inv _ _ _ _ _ _ _ R) as (_ & _ & gi & H & U & E & FL).
  pose proof (uinv_iok _ _ _ _ U FL) as I.
  assert (F : Forall2 rowm (filter live (flat 0 gi)) (kv_of c0 es)).
  { rewrite <- E. eapply rows_user; try apply U. rewrite E. apply small_kv_of. apply R. }
  pose proof (rowm_ids _ _ F) as Ids. pose proof (nodup_of c0 es) as ND. unfold keys_nodup in ND. rewrite <- Ids in ND.
  rewrite EK in F. destruct (forall2_mid _ _ _ _ _ F) as (L1 & x & L2 & EL & F1 & (Wx & Hx & _) & F2).
  cbn [fst] in Hx.
  assert (Ix : In x (filter live (flat 0 gi))) by (rewrite EL; apply in_app_iff; right; now left).
  pose proof (lookup_spec n s gi H k U) as L. destruct (index_get s k) as [e|] eqn:G.
  - destruct L as (x' & w & Q1 & Q2 & Q3 & -> & _).
    assert (x' = x) as ->.
    { eapply nodup_same; eauto; [|congruence]. apply filter_In. auto. }
    pose proof (fi_wf _ _ _ _ (ui_f _ _ _ _ U)) as W. rewrite Forall_forall in W. destruct (W x Q1) as (W1 & W2 & W3).
    eapply (resumes_at MODE_KV); eauto; try apply U.
    + intros ->. cbn [flat] in Q1. contradiction.
    + rewrite <- Q3. exact W2.
    + apply serialize_user; auto.
  - exfalso. rewrite E in L. apply kget_none in L. apply L. rewrite <- Ids. rewrite <- Hx. now apply in_map.
Qed.

Lemma seq_keycur g n c0 es o c s A k v B : sreached g n c0 (plain es) o c s -> is_frozen c = false -> files_lt s ->
  sq_map (sq_of_history c0 es) = A ++ (k, v) :: B -> resumes c s k A B.
Proof.
  intros R Fz FL EK. destruct (splain_inv _ _ _ _ _ _ _ R) as (_ & _ & gi & H & (m & U & An) & E & Wf).
  pose proof (sinv_iok _ _ _ _ _ U FL) as I.
  assert (F : Forall2 rowm (filter live (flat 0 gi)) (sq_map (sq_of_history c0 es))).
  { rewrite <- E. eapply rows_seq; try apply U. change (livem (flat 0 gi) H) with (sq_map (sq_of gi H)). rewrite E.
    apply small_sq_of. eapply sreached_wf; eauto. }
  pose proof (rowm_ids _ _ F) as Ids. pose proof (proj1 Wf) as ND. unfold keys_nodup in ND. rewrite E, <- Ids in ND.
  rewrite EK in F. destruct (forall2_mid _ _ _ _ _ F) as (L1 & x & L2 & EL & F1 & (Wx & Hx & _) & F2).
  cbn [fst] in Hx.
  assert (Ix : In x (filter live (flat 0 gi))) by (rewrite EL; apply in_app_iff; right; now left).
  assert (Ik : In k (map fst (sq_map (sq_of gi H)))).
  { rewrite E, EK, map_app. cbn [map fst]. apply in_app_iff. right. now left. }
  assert (Ka : key_asked (tot gi) k).
  { intros _. left. destruct (proj2 Wf k Ik) as (i & -> & Hi). rewrite unle_ident; cbn [sq_of sq_next] in Hi; auto.
    pose proof (sa_next n s gi H (ex_intro _ m (conj U An))) as B64. cbn [sq_of sq_next] in B64. lia. }
  pose proof (seq_ex n s m gi H k U Ka) as L. destruct (index_get s k) as [e|] eqn:G.
  - destruct L as (g1 & l1 & it & l2 & g2 & A' & B' & HA & w & HB & At & ->).
    set (x' := (nlen g1, 29 + isz l1, it)) in *.
    assert (x' = x) as <-.
    { eapply nodup_same; eauto.
      - apply filter_In. split; [|apply At]. rewrite (as_flat _ _ _ _ _ _ _ _ _ _ _ _ _ _ At). apply in_app_iff. right. now left.
      - rewrite Hx. apply (as_id _ _ _ _ _ _ _ _ _ _ _ _ _ _ At). }
    destruct (as_wf _ _ _ _ _ _ _ _ _ _ _ _ _ _ At) as (W1 & W2 & W3).
    eapply (resumes_at MODE_SEQ); eauto; try apply U.
    + intros ->. cbn [flat filter] in Ix. contradiction.
    + rewrite <- Hx. change (0 < blen (l_id x')). fold x' in W2. lia.
    + apply serialize_seq; auto.
  - exfalso. apply kget_none in L. apply L. exact Ik.
Qed.

(* ---- KSCAN ---- *)
Lemma kscan_match_spec ns p e : kscan_match ns p e = (e_ns e =? ns) && starts p (e_id e).
Proof.
  unfold kscan_match, starts. rewrite nfirst_firstn, <- andb_assoc. f_equal.
  replace (N.to_nat (blen p)) with (length p) by (rewrite blen_length; lia).
  destruct (N.ltb_spec (blen (e_id e)) (blen p)) as [Hl|Hl]; [|reflexivity]. cbn [negb andb]. symmetry.
  apply bseqb_neq. intros E. apply (f_equal (@List.length byte)) in E. rewrite firstn_length in E. rewrite !blen_length in Hl. lia.
Qed.

Lemma NoDup_app_intro {A} (a b : list A) : NoDup a -> NoDup b -> (forall x, In x a -> In x b -> False) -> NoDup (a ++ b).
Proof.
  induction 1 as [|x a Hx Ha IH]; intros Hb D; cbn [app]; auto. constructor.
  - intros C. apply in_app_iff in C. destruct C as [C|C]; [auto|]. apply (D x); auto. now left.
  - apply IH; auto. intros y Hy. apply D. now right.
Qed.

Lemma nodup_flat_map {A B} (f : A -> list B) l : NoDup l -> (forall x, In x l -> NoDup (f x)) ->
  (forall x y b, In x l -> In y l -> In b (f x) -> In b (f y) -> x = y) -> NoDup (flat_map f l).
Proof.
  induction l as [|a l IH]; intros ND H1 H2; cbn [flat_map]; [constructor|]. inversion ND as [|? ? Na NDl]; subst.
  apply NoDup_app_intro; auto.
  - apply H1. now left.
  - apply IH; auto; intros; [apply H1; now right|]. eapply H2; eauto; now right.
  - intros b Hb Hc. apply in_flat_map in Hc. destruct Hc as (y & Hy & Hc). apply Na.
    rewrite (H2 a y b); auto; [now left|now right].
Qed.

Lemma nodup_map_filter {A B} (f : A -> B) p l : NoDup (map f l) -> NoDup (map f (filter p l)).
Proof.
  induction l as [|a l IH]; cbn [map filter]; intros ND; auto. inversion ND as [|? ? N1 N2]; subst.
  destruct (p a); cbn [map]; auto. constructor; auto. intros C. apply N1.
  apply in_map_iff in C. destruct C as (y & <- & Hy). apply filter_In in Hy. apply in_map. tauto.
Qed.

Lemma hash_lt id : index_key_hash id < 16777216.
Proof.
  unfold index_key_hash, buckets_mask. change 16777215 with (N.ones 24). rewrite N.land_ones. apply N.mod_lt. discriminate.
Qed.

Lemma kscan_send l : command_kscan_send_list l = kscan_reply (map e_id l).
Proof.
  destruct l as [|e l]; [reflexivity|]. unfold command_kscan_send_list, kscan_reply. cbn [map].
  change (e_id e :: map e_id l) with (map e_id (e :: l)). generalize (e :: l) as l0. intros l0.
  assert (E : flat_map bulk (map e_id l0) = flat_map (fun e => bulk (e_id e)) l0).
  { induction l0 as [|a l0 IH]; cbn [map flat_map]; [reflexivity|]. now rewrite IH. }
  rewrite E. replace (nlen (map e_id l0)) with (nlen l0) by (rewrite !nlen_length, map_length; reflexivity).
  unfold arrayhdr, bulk at 2. rewrite <- !app_assoc. reflexivity.
Qed.

Lemma user_kscan g n c0 es o c s b cmd p : reached g n c0 es o c s -> all_buckets b -> 0 < blen p -> 0 < blen cmd ->
  exists ks, command_kscan false b [cmd; p] s = kscan_reply ks /\
    Permutation ks (filter (starts p) (map fst (kv_of c0 es))).
Proof.
  intros R [NDb Hb] Hp Hc. destruct (reached_inv _ _ _ _ _ _ _ R) as (_ & _ & gi & H & U & E & FL).
  unfold command_kscan. rewrite (ui_mode _ _ _ _ U), (ui_ns _ _ _ _ U). change (MODE_KV =? MODE_KV) with true. cbn [negb].
  unfold args_validate, real_args_validate. change (argc [cmd; p]) with 2. change (2 =? 2) with true. cbn [negb existsb].
  destruct (N.eqb_spec (blen cmd) 0); [lia|]. destruct (N.eqb_spec (blen p) 0); [lia|]. cbn [orb].
  change (arg 1 [cmd; p]) with p. rewrite kscan_send. eexists. split; [reflexivity|].
  pose proof (ui_tab _ _ _ _ U) as T.
  assert (Ids : map fst (kv_of c0 es) = map e_id (entries n (flat 0 gi))).
  { rewrite <- E, livem_keys by (eapply ver_same; apply U). unfold entries. rewrite map_map. reflexivity. }
  set (sel := fun h => filter (kscan_match n p) (tb s h)).
  assert (Hin : forall h e, In e (sel h) <-> In e (tb s h) /\ e_ns e = n /\ starts p (e_id e) = true).
  { intros h e. unfold sel. rewrite filter_In, kscan_match_spec, andb_true_iff, N.eqb_eq. tauto. }
  apply NoDup_Permutation.
  - rewrite flat_map_concat_map, concat_map, map_map, <- flat_map_concat_map.
    apply nodup_flat_map; [exact NDb| |].
    + intros h _.
      assert (Q : filter (kscan_match n p) (tb s h) = filter (fun e => starts p (e_id e)) (filter (mine n) (tb s h))).
      2: { cbv beta delta [sel]. rewrite Q. apply nodup_map_filter. apply T. }
      * induction (tb s h) as [|e l IH]; cbn [filter]; [reflexivity|]. rewrite kscan_match_spec. unfold mine in *.
        destruct (e_ns e =? n); cbn [filter andb]; [|exact IH]. rewrite IH. reflexivity.
    + intros h h' k _ _ Hk Hk'. apply in_map_iff in Hk, Hk'. destruct Hk as (e & He & Hk). destruct Hk' as (e' & He' & Hk').
      apply Hin in Hk, Hk'. destruct (ti_in _ _ _ T h e) as [-> _]; [tauto|tauto|].
      destruct (ti_in _ _ _ T h' e') as [-> _]; [tauto|tauto|]. congruence.
  - apply NoDup_filter. apply nodup_of.
  - intros k. rewrite filter_In, Ids. split.
    + intros Hk. apply in_map_iff in Hk. destruct Hk as (e & <- & Hk). apply in_flat_map in Hk. destruct Hk as (h & _ & Hk).
      apply Hin in Hk. destruct Hk as (K1 & K2 & K3). split; [|exact K3]. apply in_map. apply (ti_in _ _ _ T h e); auto.
    + intros [Hk Hs]. apply in_map_iff in Hk. destruct Hk as (e & <- & Hk). apply in_map.
      destruct (ti_has _ _ _ T e Hk) as [K1 K2]. apply in_flat_map. exists (index_key_hash (e_id e)).
      split; [|apply Hin; auto]. apply Hb. change (2 ^ 24) with 16777216. apply hash_lt.
Qed.

Lemma buckets_exist : exists b, all_buckets b.
Proof.
  unfold all_buckets. exists (map N.of_nat (seq 0 (N.to_nat (2 ^ 24)))). generalize (2 ^ 24) as m. intros m. split.
  - apply FinFun.Injective_map_NoDup; [|apply seq_NoDup]. intros a b0 Q. now apply Nnat.Nat2N.inj.
  - intros h. rewrite in_map_iff. split.
    + intros (k & <- & Hk). apply in_seq in Hk. lia.
    + intros Hh. exists (N.to_nat h). split; [lia|]. apply in_seq. lia.
Qed.
