(* The calls of the library do what the requests of a client do *)
From Coq Require Import List NArith ZArith Bool Strings.Byte Strings.String Lia ZifyBool ZifyN ZifyNat.
From Verif Require Import Bytes BytesFacts Crc32 Crc32Facts Layout LayoutFacts Store Text TextFacts Commands SpecKV Machine Reach
  Ghost DataFacts TableFacts CheckFacts UserInv UserSteps UserLoad UserReq UserRun KvFacts Api SpecApi.
Import ListNotations.
Open Scope N_scope.
Ltac Zify.zify_post_hook ::= Z.div_mod_to_equations.
Local Notation length := List.length.

Definition acfg (max : N) : nscfg := mkCfg [] None true false max 0.
Definition arw : perm := mkPerm false true.

Lemma key8_id k : key_ok k -> key8 k = k.
Proof.
  intros [H1 H2]. unfold key8. rewrite N.mod_small by lia. apply nfirst_all. rewrite blen_nlen. lia.
Qed.

Definition as_bytes (a : api_reply) : bytes :=
  match a with
  | ABuffer b => bulk b
  | AUpToDate => NIL
  | AFailure m => hardsend ("-" ++ m)%string
  | _ => []
  end.

Lemma set_parallel g n max s gi H now k v : g_mode g = MODE_KV -> UInv n s gi H -> g_ok g -> files_lt s -> key_ok k ->
  no_collision (livem (flat 0 gi) H) (KSet now k v) ->
  exists a s', zdb_api_set g max now k v s = Some (a, s') /\
    run_req g arw now (QSet k v None) (acfg max) s = (as_bytes a, s') /\
    match a with ABuffer b => b = k | AUpToDate => True | AFailure _ => True | _ => False end.
Proof.
  intros Hm U Hg Hfl Hk NC. unfold zdb_api_set. cbn [run_req argv_of]. unfold command_set. rewrite Hm. change (MODE_KV =? 0) with true. cbn iota.
  change (argc [str "SET"; k; v]) with 3. change (3 =? 4) with false. cbn iota.
  change (args_validate_null [str "SET"; k; v] 3) with (@None bytes). cbn iota.
  change (arg 1 [str "SET"; k; v]) with k. change (arg 2 [str "SET"; k; v]) with v. rewrite (key8_id k Hk).
  assert (E1 : (MAX_KEY_LENGTH <? blen k) = false) by (unfold MAX_KEY_LENGTH; destruct Hk; lia).
  assert (E2 : (blen k =? 0) = false) by (destruct Hk; lia).
  rewrite E1, E2. cbn [p_writable arw negb acfg n_worm n_maxsize]. change (is_frozen (acfg max)) with false. change (is_locked (acfg max)) with false. cbn iota.
  pose proof (lookup_spec n s gi H k U) as L. set (m := livem (flat 0 gi) H) in *.
  assert (W : match index_get s k with Some _ => false | None => false end = false) by (destruct (index_get s k); reflexivity).
  cbn [n_worm]. rewrite W.
  set (fl := match index_get s k with Some e => e_len e | None => 0 end).
  destruct (negb (max =? 0) && (add64 max fl <? add64 (x_datasize (ix s)) (blen v))).
  { exists (AFailure "No space left on this namespace"), s. auto. }
  rewrite (ui_mode _ _ _ _ U), N.eqb_refl.
  set (s1 := if g_datasize g <? dsize (dk s) (d_dataid (dt s)) + blen v then jump_next s else s).
  assert (D1 : dext (dk_d (dk s)) (dk_d (dk s1))).
  { unfold s1. destruct (g_datasize g <? _); [|apply dext_refl]. unfold files_lt in Hfl. rewrite (nlen_files _ _ _ _ U) in Hfl.
    now destruct (uinv_jump n s gi H U Hfl) as (_ & _ & J3 & _). }
  assert (EU : unchanged (dk s1) (index_get s k) v = match index_get s k with Some x => e_crc x =? zdb_crc32 v | None => false end).
  { destruct (index_get s k) as [e|]; [|reflexivity]. destruct L as (x & w & X1 & X2 & X3 & -> & X5 & X6 & X7).
    rewrite (unchanged_spec n _ x w); [|eapply loc_wf_in; eauto; apply U|eapply ver_ok_ext; eauto].
    destruct X6 as (V1 & V2 & V3 & _). cbn [entry_of e_crc]. rewrite V3. fold m in X7.
    destruct w as [k' [v' t]]. cbn [fst snd] in *. destruct (bseqb_spec v' v) as [->|Hn]; [now rewrite N.eqb_refl|].
    destruct (N.eqb_spec (zdb_crc32 v') (zdb_crc32 v)) as [C|C]; [|reflexivity]. exfalso. apply Hn. eapply NC; eauto. }
  unfold api_set_userkey, set_handler_userkey. change (arg 1 [str "SET"; k; v]) with k. change (arg 2 [str "SET"; k; v]) with v.
  rewrite E2, (key8_id k Hk), EU. change (timestamp_from_set [str "SET"; k; v] 3 now) with (u32 now).
  destruct (match index_get s k with Some x => e_crc x =? zdb_crc32 v | None => false end).
  { exists AUpToDate, s1. auto. }
  destruct (data_insert s1 _) as [off s2]. destruct (off =? 0).
  { exists (AFailure "Cannot write data right now"), s2. auto. }
  destruct (index_set s2 _ _ _) as [[e|] s3].
  - exists (ABuffer k), s3. auto.
  - exists (AFailure "Cannot write index right now"), s3. auto.
Qed.

Lemma hardsend_inj a b : hardsend a = hardsend b -> a = b.
Proof.
  unfold hardsend, str. intros E. apply app_inv_tail in E.
  rewrite <- (string_of_list_byte_of_string a), <- (string_of_list_byte_of_string b). now rewrite E.
Qed.

Lemma api_set_ok g n max s gi H now k v : g_mode g = MODE_KV -> UInv n s gi H -> g_ok g -> files_lt s -> key_ok k -> blen v <= 8388608 ->
  no_collision (livem (flat 0 gi) H) (KSet now k v) ->
  exists s' gi' H', zdb_api_set g max now k v s = Some (fst (a_step max (KSet now k v) (livem (flat 0 gi) H)), s') /\
    UInv n s' gi' H' /\ livem (flat 0 gi') H' = snd (a_step max (KSet now k v) (livem (flat 0 gi) H)) /\ nlen gi' <= nlen gi + 1.
Proof.
  intros Hm U Hg Hfl Hk Hv NC. destruct (set_parallel g n max s gi H now k v Hm U Hg Hfl Hk NC) as (a & s' & A1 & A2 & A3).
  assert (Wq : req_wf (QSet k v None)) by (split; [exact Hv|exact I]).
  destruct (req_ok g n s gi H arw now (QSet k v None) (acfg max) U Hg Wq Hfl) as (R1 & _ & gi' & H' & X & R2 & R3 & R4 & R5 & R6 & _ & _ & R8).
  rewrite A2 in R1, R2. cbn [fst snd] in R1, R2. exists s', gi', H'. rewrite A1.
  set (m := livem (flat 0 gi) H) in *.
  assert (K : kv_step arw now (acfg max) (QSet k v None) m =
    (match fst (a_step max (KSet now k v) m) with ABuffer b => RBulk b | AUpToDate => RNil | AFailure e => RErr e | _ => ROk end,
     snd (a_step max (KSet now k v) m))).
  { cbn [kv_step a_step]. unfold kv_set. cbn [p_admin arw p_writable negb acfg n_lock n_worm n_maxsize].
    assert (E1 : (255 <? blen k) = false) by (destruct Hk; lia). assert (E2 : (blen k =? 0) = false) by (destruct Hk; lia). rewrite E1, E2.
    change (0 =? 2) with false. change (0 =? 0) with true. cbn [negb].
    assert (W : match kget k m with Some _ => false | None => false end = false) by (destruct (kget k m); reflexivity). rewrite W.
    destruct (over_quota max m k v); [reflexivity|]. destruct (match kget k m with Some (v', _) => bseqb v' v | None => false end); reflexivity. }
  rewrite K in R1, R4. cbn [fst snd] in R1, R4. split; [|auto]. f_equal. f_equal.
  assert (SH : match fst (a_step max (KSet now k v) m) with ABuffer b => b = k | AUpToDate => True | AFailure _ => True | _ => False end).
  { cbn [a_step]. destruct (over_quota max m k v); [exact I|]. destruct (match kget k m with Some (v', _) => bseqb v' v | None => false end); [exact I|reflexivity]. }
  destruct a; try contradiction; destruct (fst (a_step max (KSet now k v) m)); try contradiction; cbn [as_bytes enc_reply] in R1; try subst; try reflexivity; try discriminate.
  { assert (msg = msg0); [|congruence].
  change (str "-" ++ str msg0 ++ CRLF) with (hardsend ("-" ++ msg0)%string) in R1. apply hardsend_inj in R1. cbn [append] in R1. now injection R1. }
  - exfalso. pose proof (nil_not_bulk k) as XX. change (enc_reply RNil) with NIL in XX. rewrite R1 in XX.
    change (str "$" ++ dec (blen k) ++ CRLF ++ k ++ CRLF) with (bulk k) in XX. rewrite bseqb_refl in XX. discriminate.
  - exfalso. pose proof (nil_not_bulk k) as XX. rewrite R1 in XX. change (str "$-1" ++ CRLF) with (enc_reply RNil) in XX. rewrite bseqb_refl in XX. discriminate.
Qed.

Lemma api_get_ok n s gi H k : UInv n s gi H -> key_ok k ->
  zdb_api_get k s = match kget k (livem (flat 0 gi) H) with Some (v, _) => AEntry k v | None => ANotFound end.
Proof.
  intros U Hk. unfold zdb_api_get. rewrite (key8_id k Hk). pose proof (lookup_spec n s gi H k U) as L.
  destruct (index_get s k) as [e|]; [|now rewrite L].
  destruct L as (x & w & L1 & L2 & L3 & -> & L5 & L6 & ->). destruct w as [k' [v t]].
  destruct L6 as (V1 & V2 & V3 & V4 & r & R1 & R2 & R3 & R4 & R5 & R6 & R7). cbn [fst snd] in *.
  cbn [entry_of e_off e_len e_dataid e_id]. rewrite V1, V2, <- R2, (data_get_at (dk s) _ _ r _) by auto. reflexivity.
Qed.

Lemma api_exists_ok n s gi H k : UInv n s gi H -> key_ok k ->
  zdb_api_exists k s = match kget k (livem (flat 0 gi) H) with Some _ => ATrue | None => AFalse end.
Proof.
  intros U Hk. unfold zdb_api_exists. rewrite (key8_id k Hk). pose proof (lookup_spec n s gi H k U) as L.
  destruct (index_get s k) as [e|]; [|now rewrite L]. destruct L as (x & w & _ & _ & _ & _ & _ & _ & ->). reflexivity.
Qed.

Lemma api_check_ok n s gi H k : UInv n s gi H -> key_ok k ->
  zdb_api_check k s = match kget k (livem (flat 0 gi) H) with Some _ => ATrue | None => ANotFound end.
Proof.
  intros U Hk. unfold zdb_api_check. rewrite (key8_id k Hk). pose proof (lookup_spec n s gi H k U) as L.
  destruct (index_get s k) as [e|]; [|now rewrite L].
  destruct L as (x & w & _ & _ & _ & -> & _ & L6 & ->).
  destruct L6 as (V1 & V2 & V3 & V4 & r & R1 & R2 & R3 & R4 & R5 & R6 & R7).
  cbn [entry_of e_off e_dataid]. rewrite (data_check_at _ _ _ r (fst (snd w))) by auto. now rewrite R4, N.eqb_refl.
Qed.

Lemma api_del_ok g n max s gi H now k : UInv n s gi H -> g_ok g -> files_lt s -> key_ok k ->
  exists s' gi' H', zdb_api_del now k s = (fst (a_step max (KDel now k) (livem (flat 0 gi) H)), s') /\
    UInv n s' gi' H' /\ livem (flat 0 gi') H' = snd (a_step max (KDel now k) (livem (flat 0 gi) H)) /\ nlen gi' <= nlen gi + 1.
Proof.
  intros U Hg Hfl Hk. set (m := livem (flat 0 gi) H).
  destruct (req_ok g n s gi H arw now (QDel k None) (acfg max) U Hg I Hfl) as (R1 & _ & gi' & H' & X & R2 & R3 & R4 & R5 & R6 & _ & _ & R8).
  cbn [run_req argv_of] in R1, R2. fold m in R1, R4.
  assert (K : kv_step arw now (acfg max) (QDel k None) m =
    (match kget k m with Some _ => ROk | None => RErr "Key not found" end, snd (a_step max (KDel now k) m))).
  { cbn [kv_step a_step]. unfold kv_del. cbn [p_admin arw p_writable negb acfg n_lock n_worm].
    assert (E1 : (255 <? blen k) = false) by (destruct Hk; lia). rewrite E1. change (0 =? 2) with false. change (0 =? 0) with true. cbn [negb].
    destruct (blen k) eqn:E; [destruct Hk; lia|]. destruct (kget k m); reflexivity. }
  rewrite K in R1, R4. cbn [fst snd] in R1, R4.
  unfold command_del in R1, R2. change (argc [str "DEL"; k]) with 2 in *. change (2 =? 3) with false in *. cbn iota in R1, R2.
  assert (AV : args_validate [str "DEL"; k] 2 = None).
  { unfold args_validate, real_args_validate. change (argc [str "DEL"; k]) with 2. change (negb (2 =? 2)) with false. cbn [existsb tl negb orb].
    assert (E2 : (blen k =? 0) = false) by (destruct Hk; lia). cbn. rewrite ?E2. reflexivity. }
  rewrite AV in R1, R2. change (arg 1 [str "DEL"; k]) with k in *.
  assert (E1 : (MAX_KEY_LENGTH <? blen k) = false) by (unfold MAX_KEY_LENGTH; destruct Hk; lia). rewrite E1 in R1, R2.
  cbn [p_writable arw negb] in R1, R2. change (is_frozen (acfg max)) with false in *. change (is_locked (acfg max)) with false in *. cbn iota in R1, R2.
  unfold zdb_api_del. rewrite (key8_id k Hk). pose proof (lookup_spec n s gi H k U) as L. fold m in L. cbn [a_step].
  change (timestamp_from_set [str "DEL"; k] 2 now) with (u32 now) in *. cbn [acfg n_worm] in R1, R2.
  destruct (index_get s k) as [e|].
  - destruct L as (x & w & _ & _ & _ & _ & _ & _ & L). fold m in L. cbn [a_step] in R4. rewrite L in *. cbn [fst snd] in *.
    destruct (data_delete s (e_id e) (u32 now)) as [[|] s1]; [|discriminate].
    destruct (index_entry_delete s1 e) as [[|] s2]; [|discriminate]. exists s2, gi', H'. auto.
  - cbn [a_step] in R4. rewrite L in *. cbn [fst snd] in *. exists s, gi', H'. auto.
Qed.

Lemma api_do_ok g n max c s gi H : g_mode g = MODE_KV -> UInv n s gi H -> g_ok g -> files_lt s -> call_ok c ->
  no_collision (livem (flat 0 gi) H) c ->
  exists s' gi' H', api_do g max c s = Some (fst (a_step max c (livem (flat 0 gi) H)), s') /\
    UInv n s' gi' H' /\ livem (flat 0 gi') H' = snd (a_step max c (livem (flat 0 gi) H)) /\ nlen gi' <= nlen gi + 1.
Proof.
  intros Hm U Hg Hfl Hc NC. destruct c as [now k v|k|k|k|now k]; cbn [api_do call_ok] in *.
  - destruct Hc. now apply api_set_ok.
  - exists s, gi, H. rewrite (api_get_ok n s gi H k U Hc). cbn [a_step fst snd]. split; [reflexivity|]. split; [exact U|]. split; [reflexivity|lia].
  - exists s, gi, H. rewrite (api_exists_ok n s gi H k U Hc). cbn [a_step fst snd]. split; [reflexivity|]. split; [exact U|]. split; [reflexivity|lia].
  - exists s, gi, H. rewrite (api_check_ok n s gi H k U Hc). cbn [a_step fst snd]. split; [reflexivity|]. split; [exact U|]. split; [reflexivity|lia].
  - destruct (api_del_ok g n max s gi H now k U Hg Hfl Hc) as (s' & gi' & H' & -> & X). exists s', gi', H'. auto.
Qed.

Lemma api_run_ok g n max cs : g_mode g = MODE_KV -> g_ok g -> forall s gi H, UInv n s gi H -> Forall call_ok cs ->
  no_collisions max (livem (flat 0 gi) H) cs -> nlen gi + nlen cs < 4294967296 ->
  exists s' gi' H', api_run g max cs s = Some (fst (a_run max cs (livem (flat 0 gi) H)), s') /\
    UInv n s' gi' H' /\ livem (flat 0 gi') H' = snd (a_run max cs (livem (flat 0 gi) H)) /\ nlen gi' <= nlen gi + nlen cs.
Proof.
  intros Hm Hg. induction cs as [|c cs IH]; intros s gi H U W NC Hl.
  - exists s, gi, H. cbn [api_run a_run fst snd nlen]. split; [reflexivity|]. split; [exact U|]. split; [reflexivity|lia].
  - inversion W; subst. cbn [no_collisions nlen] in *. destruct NC as [N1 N2].
    destruct (api_do_ok g n max c s gi H Hm U Hg) as (s1 & gi1 & H1' & D & U1 & M1 & L1); auto.
    { unfold files_lt. rewrite (nlen_files _ _ _ _ U). lia. }
    rewrite <- M1 in N2. destruct (IH s1 gi1 H1' U1) as (s2 & gi2 & H2' & R & U2 & M2 & L2); auto; [lia|].
    exists s2, gi2, H2'. cbn [api_run a_run]. rewrite D, R. destruct (a_step max c (livem (flat 0 gi) H)) as [o m1]. cbn [fst snd] in *. subst m1.
    destruct (a_run max cs (livem (flat 0 gi1) H1')) as [os m2]. cbn [fst snd] in *. split; [reflexivity|]. split; [exact U2|]. split; [exact M2|lia].
Qed.

Theorem api_map g n max cs s0 : settings_ok g -> g_mode g = MODE_KV -> created g n s0 -> Forall call_ok cs ->
  no_collisions max [] cs -> nlen cs < 2 ^ 32 - 1 ->
  exists s, api_run g max cs s0 = Some (fst (a_run max cs []), s).
Proof.
  intros Hg Hm C W NC Hl. pose proof (created_inv g n s0 Hg C) as U. change (2 ^ 32 - 1) with 4294967295 in Hl.
  destruct (api_run_ok g n max cs Hm Hg s0 [[]] [] U W NC) as (s & gi & H & R & _); [cbn [nlen]; lia|]. eauto.
Qed.

(* the state after a run answers the next calls *)
Theorem api_get_set g n max cs s0 os s now k v a s' : settings_ok g -> g_mode g = MODE_KV -> created g n s0 -> Forall call_ok cs ->
  no_collisions max [] (cs ++ [KSet now k v]) -> nlen cs < 2 ^ 32 - 2 -> key_ok k -> blen v <= 8388608 ->
  api_run g max cs s0 = Some (os, s) -> zdb_api_set g max now k v s = Some (a, s') -> (a = ABuffer k \/ a = AUpToDate) ->
  zdb_api_get k s' = AEntry k v.
Proof.
  intros Hg Hm C W NC Hl Hk Hv R S A. pose proof (created_inv g n s0 Hg C) as U. change (2 ^ 32 - 2) with 4294967294 in Hl.
  assert (NN : no_collisions max [] cs /\ no_collision (snd (a_run max cs [])) (KSet now k v)).
  { clear - NC. revert NC. generalize (@nil (bytes * (bytes * N))) as m. induction cs as [|c cs IH]; intros m NC; [cbn in *; tauto|].
    cbn [app no_collisions a_run] in *. destruct NC as [N1 N2]. destruct (a_step max c m) as [o m1]. cbn [snd] in *. apply IH in N2.
    destruct (a_run max cs m1). cbn [snd] in *. tauto. }
  destruct NN as [N1 N2].
  destruct (api_run_ok g n max cs Hm Hg s0 [[]] [] U W N1) as (s1 & gi & H & R1 & U1 & M1 & L1); [cbn [nlen]; lia|].
  rewrite R in R1. injection R1 as _ <-. change (livem (flat 0 [[]]) []) with (@nil (bytes * (bytes * N))) in M1. rewrite <- M1 in N2.
  destruct (api_set_ok g n max s gi H now k v Hm U1 Hg) as (s2 & gi2 & H2 & S2 & U2 & M2 & _); auto.
  { unfold files_lt. rewrite (nlen_files _ _ _ _ U1). cbn [nlen] in L1. lia. }
  rewrite S in S2. injection S2 as E <-. rewrite (api_get_ok n s' gi2 H2 k U2 Hk), M2. cbn [a_step] in *.
  destruct (over_quota max _ k v); [cbn [fst] in E; subst; destruct A; discriminate|].
  destruct (kget k (livem (flat 0 gi) H)) as [[v' t]|] eqn:G.
  - destruct (bseqb_spec v' v) as [->|Hn]; cbn [snd]; [now rewrite G|]. now rewrite kget_kput, bseqb_refl.
  - cbn [snd]. now rewrite kget_kput, bseqb_refl.
Qed.
