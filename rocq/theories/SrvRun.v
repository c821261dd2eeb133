(* PROOFS.  Every event of the server keeps the invariant of SrvInv.v and acts on the
   namespaces as SpecServer.v says. *)
From Coq Require Import Strings.String Strings.Byte List NArith ZArith Bool Lia ZifyBool ZifyN ZifyNat Sorting.Permutation.
From Verif Require Import Bytes BytesFacts Layout Store Text TextFacts Commands SpecKV SpecSeq Machine Reach CrashModel
  Ghost DataFacts TableFacts CheckFacts UserInv UserReq KvFacts SeqInv SeqReach SeqRun
  FrameFacts Sha1 Dispatch Namespace System Resp Server SpecAuth AuthFacts SpecServer IsolFacts SrvInv.
Import ListNotations.
Open Scope N_scope.
Ltac Zify.zify_post_hook ::= Z.div_mod_to_equations.
Local Notation length := List.length.

(* ---- data commands ---- *)

Lemma number_arg t n : dec (number t) = n -> z_u32 (atoll (cstr n)) = number t.
Proof.
  intros <-. assert (number t < 4294967296).
  { unfold number, z_u32. assert (0 <= atoll (text t) mod 4294967296 < 4294967296)%Z by (apply Z.mod_pos_bound; reflexivity). lia. }
  rewrite atoll_dec by lia. unfold z_u32. rewrite Z.mod_small by lia. lia.
Qed.

Lemma validate_cmd c a k n : blen c <> 0 -> args_validate (c :: k) n = args_validate (a :: k) n \/ blen a = 0.
Proof.
  intro H. destruct (N.eq_dec (blen a) 0) as [|A]; [right; assumption|left]. unfold args_validate, real_args_validate, argc. cbn [nlen existsb].
  replace (blen c =? 0) with false by lia. replace (blen a =? 0) with false by lia. reflexivity.
Qed.

Lemma read_arg c a l cf k : blen a <> 0 -> blen c <> 0 -> read_command (a :: l) cf k = read_command (c :: l) cf k.
Proof.
  intros A C. unfold read_command. destruct (validate_cmd a c l 2 A) as [->|]; [|contradiction]. reflexivity.
Qed.

Lemma lookup_empty h c : lookup_handler [] = Some (h, c) -> is_data c = false.
Proof. intro H. vm_compute in H. injection H as _ <-. reflexivity. Qed.

Lemma set_argc g p now argv c s : argc argv <> 3 -> argc argv <> 4 -> command_set g p now argv c s = (hardsend "-Unexpected arguments", s).
Proof.
  intros A B. unfold command_set, args_validate_null, real_args_validate.
  replace (_ =? 4) with false by lia. replace (_ =? 3) with false by lia. reflexivity.
Qed.

Lemma del_argc p now argv c s : argc argv <> 2 -> argc argv <> 3 -> command_del p now argv c s = (hardsend "-Unexpected arguments", s).
Proof.
  intros A B. unfold command_del, args_validate, real_args_validate.
  replace (_ =? 3) with false by lia. replace (_ =? 2) with false by lia. reflexivity.
Qed.

Lemma handle_data g v fd cl i r c argv w h : is_data c = true -> lookup_handler (arg 0 argv) = Some (h, c) -> slot i w = Some r ->
  match req_of c argv with
  | Some q => let o := run_req (v_set g) (perm_of cl) (v_sec v) q (r_cfg r) (est_of w r) in
      handle g v fd cl i r c argv w = Done (fst o) SUCCESS (put_est i r (snd o) w)
  | None => exists rep, handle g v fd cl i r c argv w = Done rep SUCCESS w /\ is_error rep
  end.
Proof.
  intros D L S. destruct argv as [|a l]; [cbn [arg nth] in L; apply lookup_empty in L; congruence|]. cbn [arg nth] in L.
  assert (A : blen a <> 0). { intro E. destruct a; [apply lookup_empty in L; congruence|cbn [blen] in E; lia]. }
  destruct c; try discriminate D; unfold handle; cbn [req_of].
  - (* SET *) destruct l as [|k [|x [|t [|u l]]]].
    + eexists. unfold on_ns. rewrite set_argc by (unfold argc; cbn [nlen]; lia). rewrite put_est_same by exact S. split; [reflexivity|apply hardsend_error].
    + eexists. unfold on_ns. rewrite set_argc by (unfold argc; cbn [nlen]; lia). rewrite put_est_same by exact S. split; [reflexivity|apply hardsend_error].
    + unfold on_ns. cbn [run_req argv_of]. change (command_set (v_set g) (perm_of cl) (v_sec v) [str "SET"; k; x]) with (command_set (v_set g) (perm_of cl) (v_sec v) [a; k; x]).
      destruct (command_set _ _ _ _ _ _). reflexivity.
    + unfold on_ns. cbn [run_req argv_of].
      assert (E : command_set (v_set g) (perm_of cl) (v_sec v) [str "SET"; k; x; dec (number t)] (r_cfg r) (est_of w r) = command_set (v_set g) (perm_of cl) (v_sec v) [a; k; x; t] (r_cfg r) (est_of w r)).
      { unfold command_set, set_handler_userkey, set_handler_sequential, timestamp_from_set, argc. cbn [nlen arg nth].
        rewrite (number_arg t _ eq_refl). unfold number. rewrite text_cstr. reflexivity. }
      rewrite E. clear E. destruct (command_set _ _ _ _ _ _). reflexivity.
    + eexists. unfold on_ns. rewrite set_argc by (unfold argc; cbn [nlen]; lia). rewrite put_est_same by exact S. split; [reflexivity|apply hardsend_error].
  - (* GET *) destruct l as [|k [|u l]].
    1,3: eexists; split; [unfold command_get, read_command, args_validate, real_args_validate, argc; cbn [nlen]; replace (_ =? 2) with false by lia; reflexivity|apply hardsend_error].
    cbn [run_req argv_of fst snd]. rewrite put_est_same by exact S. unfold command_get. rewrite (read_arg (str "GET") a) by (auto; discriminate). reflexivity.
  - (* MGET *) cbn [run_req argv_of fst snd]. rewrite put_est_same by exact S. reflexivity.
  - (* DEL *) destruct l as [|k [|t [|u l]]].
    + eexists. unfold on_ns. rewrite del_argc by (unfold argc; cbn [nlen]; lia). rewrite put_est_same by exact S. split; [reflexivity|apply hardsend_error].
    + unfold on_ns. cbn [run_req argv_of].
      assert (E : command_del (perm_of cl) (v_sec v) [str "DEL"; k] (r_cfg r) (est_of w r) = command_del (perm_of cl) (v_sec v) [a; k] (r_cfg r) (est_of w r)).
      { unfold command_del. destruct (validate_cmd (str "DEL") a [k] 2) as [->|]; [discriminate|reflexivity|contradiction]. }
      rewrite E. clear E. destruct (command_del _ _ _ _ _). reflexivity.
    + unfold on_ns. cbn [run_req argv_of].
      assert (E : command_del (perm_of cl) (v_sec v) [str "DEL"; k; dec (number t)] (r_cfg r) (est_of w r) = command_del (perm_of cl) (v_sec v) [a; k; t] (r_cfg r) (est_of w r)).
      { unfold command_del, timestamp_from_set, argc. cbn [nlen arg nth].
        rewrite (number_arg t _ eq_refl). unfold number. rewrite text_cstr. reflexivity. }
      rewrite E. clear E. destruct (command_del _ _ _ _ _). reflexivity.
    + eexists. unfold on_ns. rewrite del_argc by (unfold argc; cbn [nlen]; lia). rewrite put_est_same by exact S. split; [reflexivity|apply hardsend_error].
  - destruct l as [|k [|u l]].
    1,3: eexists; split; [unfold command_exists, read_command, args_validate, real_args_validate, argc; cbn [nlen]; replace (_ =? 2) with false by lia; reflexivity|apply hardsend_error].
    cbn [run_req argv_of fst snd]. rewrite put_est_same by exact S. unfold command_exists. rewrite (read_arg (str "EXISTS") a) by (auto; discriminate). reflexivity.
  - destruct l as [|k [|u l]].
    1,3: eexists; split; [unfold command_check, read_command, args_validate, real_args_validate, argc; cbn [nlen]; replace (_ =? 2) with false by lia; reflexivity|apply hardsend_error].
    cbn [run_req argv_of fst snd]. rewrite put_est_same by exact S. unfold command_check. rewrite (read_arg (str "CHECK") a) by (auto; discriminate). reflexivity.
  - destruct l as [|k [|u l]].
    1,3: eexists; split; [unfold command_length, read_command, args_validate, real_args_validate, argc; cbn [nlen]; replace (_ =? 2) with false by lia; reflexivity|apply hardsend_error].
    cbn [run_req argv_of fst snd]. rewrite put_est_same by exact S. unfold command_length. rewrite (read_arg (str "LENGTH") a) by (auto; discriminate). reflexivity.
  - destruct l as [|k [|u l]].
    1,3: eexists; split; [unfold command_keytime, read_command, args_validate, real_args_validate, argc; cbn [nlen]; replace (_ =? 2) with false by lia; reflexivity|apply hardsend_error].
    cbn [run_req argv_of fst snd]. rewrite put_est_same by exact S. unfold command_keytime. rewrite (read_arg (str "KEYTIME") a) by (auto; discriminate). reflexivity.
  - cbn [run_req fst snd]. rewrite put_est_same by exact S. reflexivity.
  - cbn [run_req]. unfold on_ns. destruct (command_nsjump _ _). reflexivity.
Qed.

(* ---- names ---- *)

Lemma find_none name : forall l i, find_ns name i l = None -> forall j r, oget j l = Some r -> n_name (r_cfg r) <> name.
Proof.
  induction l as [|o l IH]; intros i H j r G; [discriminate|]. cbn [find_ns] in H. rewrite oget_cons in G.
  destruct o as [r0|].
  - destruct (bseqb (n_name (r_cfg r0)) name) eqn:E; [discriminate|]. destruct (j =? 0); [|eapply IH; eassumption].
    injection G as <-. intro X. rewrite X, bseqb_refl in E. discriminate.
  - destruct (j =? 0); [discriminate|]. eapply IH; eassumption.
Qed.

Lemma get_dir g w D n : SrvInv g w D ->
  match namespace_get n w with
  | Some (i, r) => slot i w = Some r /\ n_name (r_cfg r) = n /\ exists x, D n = Some x /\ d_conf x = r_cfg r /\ holds g i (est_of w r) x
                   /\ conf_ok (r_cfg r) /\ desc_ok (r_cfg r) (r_desc r)
  | None => D n = None
  end.
Proof.
  intro V. destruct (namespace_get n w) as [[i r]|] eqn:G.
  - apply get_slot in G. destruct G as (S & <-). split; [exact S|]. split; [reflexivity|]. apply (sv_live _ _ _ V). exact S.
  - destruct (D n) as [x|] eqn:E; [|reflexivity]. destruct (sv_have _ _ _ V n x E) as (i & r & S & N). exfalso.
    exact (find_none n _ 0 G i r S N).
Qed.

Lemma names_app l l' : ns_names (l ++ l') = ns_names l ++ ns_names l'.
Proof. unfold ns_names. apply flat_map_app. Qed.

Lemma names_fill k r l : k < nlen l -> oget k l = None -> nlen (ns_names (nset k (Some r) l)) = nlen (ns_names l) + 1.
Proof.
  revert k. induction l as [|o l IH]; intros k L H; cbn [nlen] in L; [lia|]. cbn [nset]. rewrite oget_cons in H. destruct (N.eqb_spec k 0).
  - subst o. unfold ns_names. cbn [flat_map app nlen]. lia.
  - specialize (IH (N.pred k) ltac:(lia) H). unfold ns_names in *. cbn [flat_map]. rewrite !nlen_app. rewrite IH. lia.
Qed.

Lemma names_drop k r l : oget k l = Some r -> nlen (ns_names (nset k None l)) + 1 = nlen (ns_names l).
Proof.
  revert k. induction l as [|o l IH]; intros k H; [discriminate|]. cbn [nset]. rewrite oget_cons in H. destruct (k =? 0).
  - subst o. unfold ns_names. cbn [flat_map app nlen]. lia.
  - specialize (IH (N.pred k) H). unfold ns_names in *. cbn [flat_map]. rewrite !nlen_app. rewrite <- IH. lia.
Qed.

Lemma names_push r l : nlen (ns_names (push_slot (free_slot 0 l) r l)) = nlen (ns_names l) + 1.
Proof.
  unfold push_slot. destruct (N.ltb_spec (free_slot 0 l) (nlen l)) as [L|L].
  - apply names_fill; [exact L|apply free_none].
  - rewrite names_app, nlen_app. reflexivity.
Qed.

(* the names in the order of the slots *)
Lemma names_in l n : In n (ns_names l) <-> exists j r, oget j l = Some r /\ n_name (r_cfg r) = n.
Proof.
  induction l as [|o l IH].
  - split; [intros []|]. intros (j & r & H & _). discriminate.
  - unfold ns_names in *. cbn [flat_map]. rewrite in_app_iff, IH. split.
    + intros [H|(j & r & H & E)].
      * destruct o as [r|]; [|destruct H]. destruct H as [<-|[]]. exists 0, r. rewrite oget_cons. split; reflexivity.
      * exists (j + 1), r. rewrite oget_cons. replace (_ =? 0) with false by lia. replace (N.pred (j + 1)) with j by lia. auto.
    + intros (j & r & H & E). rewrite oget_cons in H. destruct (N.eqb_spec j 0).
      * subst o. left. left. exact E.
      * right. exists (N.pred j), r. auto.
Qed.

Lemma names_nodup l : (forall i j r r', oget i l = Some r -> oget j l = Some r' -> n_name (r_cfg r) = n_name (r_cfg r') -> i = j) ->
  NoDup (ns_names l).
Proof.
  induction l as [|o l IH]; intro U; [constructor|].
  assert (IHl : NoDup (ns_names l)).
  { apply IH. intros i j r r' A B C. enough (i + 1 = j + 1) by lia.
    apply (U (i + 1) (j + 1) r r'); [| |exact C]; rewrite oget_cons; replace (_ =? 0) with false by lia.
    - replace (N.pred (i + 1)) with i by lia. exact A.
    - replace (N.pred (j + 1)) with j by lia. exact B. }
  unfold ns_names in *. cbn [flat_map]. destruct o as [r|]; [|exact IHl]. cbn [app]. constructor; [|exact IHl].
  intro H. apply names_in in H. destruct H as (j & rj & Hj & E). enough (0 = j + 1) by lia.
  apply (U 0 (j + 1) r rj); [reflexivity| |symmetry; exact E]. rewrite oget_cons. replace (_ =? 0) with false by lia.
  replace (N.pred (j + 1)) with j by lia. exact Hj.
Qed.

(* ---- a namespace more, a namespace less ---- *)

Lemma sv_add g w D r' t x' cls : SrvInv g w D -> D (n_name (r_cfg r')) = None ->
  let k := free_slot 0 (w_slots w) in
  tframe k (w_tb w) t -> d_conf x' = r_cfg r' -> holds g k (mkEst t (r_ix r') (r_dt r') (r_dk r')) x' ->
  conf_ok (r_cfg r') -> desc_ok (r_cfg r') (r_desc r') ->
  SrvInv g (mkWorld t (push_slot k r' (w_slots w)) (w_eff w + 1) cls) (dset (n_name (r_cfg r')) (Some x') D).
Proof.
  intros V Dn k T Ec U Co De.
  assert (K : slot k w = None) by (apply free_none).
  assert (Sl : forall j, slot j (mkWorld t (push_slot k r' (w_slots w)) (w_eff w + 1) cls) = if j =? k then Some r' else slot j w).
  { intro j. rewrite !slot_oget. cbn [w_slots]. apply push_at. reflexivity. }
  destruct V as [V1 V2 V3 V4 V5 V6].
  assert (Ne : forall j rj, slot j w = Some rj -> n_name (r_cfg rj) <> n_name (r_cfg r')).
  { intros j rj S E. destruct (V1 j rj S) as (x & Dx & _). congruence. }
  split.
  - intros j rj. rewrite Sl. destruct (N.eqb_spec j k) as [->|J].
    + intro H. injection H as <-. exists x'. rewrite dset_same. auto.
    + intro H. destruct (V1 j rj H) as (x & Dx & A & B & C). exists x.
      rewrite dset_other by (exact (Ne j rj H)). split; [exact Dx|]. split; [exact A|]. split; [|exact C].
      apply (holds_frame g k j (est_of w rj) x t J T B).
  - intros n x H. destruct (bseqb n (n_name (r_cfg r'))) eqn:E.
    + apply bseqb_eq in E. exists k, r'. rewrite Sl, N.eqb_refl. auto.
    + unfold dset in H. rewrite E in H. destruct (V2 n x H) as (j & rj & Sj & Nj). exists j, rj. rewrite Sl.
      destruct (N.eqb_spec j k) as [->|]; [congruence|auto].
  - intros j m rj rm. rewrite !Sl. destruct (N.eqb_spec j k) as [->|J], (N.eqb_spec m k) as [->|M]; intros A B C; auto.
    + injection A as <-. exfalso. exact (Ne m rm B (eq_sym C)).
    + injection B as <-. exfalso. exact (Ne j rj A C).
    + exact (V3 _ _ _ _ A B C).
  - destruct V4 as (r0 & S0 & N0). rewrite Sl. destruct (N.eqb_spec 0 k) as [<-|]; [congruence|exists r0; auto].
  - cbn [w_eff w_slots]. unfold k. rewrite names_push, V5. reflexivity.
  - intros j. rewrite Sl. destruct (N.eqb_spec j k) as [->|J]; [discriminate|]. intro H. cbn [w_tb].
    eapply tframe_inv; [| |apply V6; exact H]; eassumption.
Qed.

Lemma holds_clean g i s x : holds g i s x -> TInv (index_clean_namespace (tb s) (ix s)) i [].
Proof.
  unfold holds. intro U. destruct (d_content x) as [m|st]; destruct U as (_ & gi & H & U & _); unfold index_clean_namespace.
  - rewrite (ui_mode _ _ _ _ U), (ui_ns _ _ _ _ U). apply tinv_clean.
  - destruct U as (mm & U & _). rewrite (si_mode _ _ _ _ _ U). apply (si_tab _ _ _ _ _ U).
Qed.

Lemma sv_del g w D i r cls : SrvInv g w D -> slot i w = Some r -> n_name (r_cfg r) <> str "default" ->
  SrvInv g (mkWorld (index_clean_namespace (w_tb w) (r_ix r)) (nset i None (w_slots w)) (w_eff w - 1) cls) (dset (n_name (r_cfg r)) None D).
Proof.
  intros V S Nd. set (t := index_clean_namespace (w_tb w) (r_ix r)).
  assert (T : tframe i (w_tb w) t). { apply clean_frame. apply (sv_numbered _ _ _ V i r S). }
  assert (Sl : forall j, slot j (mkWorld t (nset i None (w_slots w)) (w_eff w - 1) cls) = if j =? i then None else slot j w).
  { intro j. rewrite !slot_oget. cbn [w_slots]. rewrite oget_nset. rewrite slot_oget in S. apply oget_lt in S.
    rewrite (N.eqb_sym i). destruct (N.eqb_spec j i) as [->|]; [|reflexivity]. replace (i <? _) with true by lia. reflexivity. }
  destruct V as [V1 V2 V3 V4 V5 V6]. split.
  - intros j rj. rewrite Sl. destruct (N.eqb_spec j i) as [->|J]; [discriminate|].
    intro H. destruct (V1 j rj H) as (x & Dx & A & B & C). exists x.
    rewrite dset_other by (intro E; apply J; exact (V3 _ _ _ _ H S E)). split; [exact Dx|]. split; [exact A|]. split; [|exact C].
    apply (holds_frame g i j (est_of w rj) x t J T B).
  - intros n x H. unfold dset in H. destruct (bseqb n (n_name (r_cfg r))) eqn:E; [discriminate|].
    destruct (V2 n x H) as (j & rj & Sj & Nj). exists j, rj. rewrite Sl.
    destruct (N.eqb_spec j i) as [->|]; [|auto]. exfalso. rewrite S in Sj. injection Sj as <-. rewrite Nj, bseqb_refl in E. discriminate.
  - intros j k rj rk. rewrite !Sl. destruct (N.eqb_spec j i) as [->|J], (N.eqb_spec k i) as [->|K]; intros A B C; try discriminate.
    exact (V3 _ _ _ _ A B C).
  - destruct V4 as (r0 & S0 & N0). rewrite Sl. destruct (N.eqb_spec 0 i) as [<-|]; [|exists r0; auto]. congruence.
  - cbn [w_eff w_slots]. rewrite slot_oget in S. pose proof (names_drop i r _ S). rewrite V5. lia.
  - intros j. rewrite Sl. destruct (N.eqb_spec j i) as [->|J].
    + intros _. cbn [w_tb]. destruct (V1 i r S) as (x & _ & _ & U & _). exact (holds_clean _ _ _ _ U).
    + intro H. cbn [w_tb]. eapply tframe_inv; [| |apply V6; exact H]; eassumption.
Qed.

(* ---- namespace commands ---- *)

Lemma validate_spec a n : match args_validate a n with
  | None => (nlen a =? n) && forallb (fun x => negb (blen x =? 0)) a = true
  | Some err => (nlen a =? n) && forallb (fun x => negb (blen x =? 0)) a = false /\ is_error err
  end.
Proof.
  unfold args_validate, real_args_validate, argc. destruct (nlen a =? n); cbn [negb andb]; [|split; [reflexivity|apply hardsend_error]].
  assert (E : forallb (fun x => negb (blen x =? 0)) a = negb (existsb (fun x => blen x =? 0) a)).
  { induction a as [|x a IH]; [reflexivity|]. cbn [forallb existsb]. rewrite IH, negb_orb. reflexivity. }
  rewrite E. destruct (existsb _ a); [split; [reflexivity|apply hardsend_error]|reflexivity].
Qed.

(* the common start of the commands on a named namespace *)
Lemma guard_spec (p : perm) a n (k : res) w rep st w' :
  match admin_authorized p with Some err => Done err SUCCESS w | None =>
  match args_validate a n with Some err => Done err SUCCESS w | None =>
  match args_namespace a 1 with Some err => Done err SUCCESS w | None => k end end end = Done rep st w' ->
  (p_admin p && form n a = true /\ k = Done rep st w') \/ (p_admin p && form n a = false /\ is_error rep /\ w' = w).
Proof.
  unfold admin_authorized, form. pose proof (validate_spec a n) as V.
  destruct (p_admin p); [|intro H; done_inv H; right; split; [reflexivity|split; [apply hardsend_error|reflexivity]]].
  destruct (args_validate a n) as [err|].
  { intro H. done_inv H. right. destruct V as (V & E). rewrite V. split; [reflexivity|split; [exact E|reflexivity]]. }
  rewrite V. unfold args_namespace. destruct (N.ltb_spec 128 (blen (arg 1 a))) as [L|L]; intro H.
  - done_inv H. right. replace (_ <=? _) with false by lia. split; [reflexivity|split; [apply hardsend_error|reflexivity]].
  - left. replace (_ <=? _) with true by lia. split; [reflexivity|exact H].
Qed.

Lemma valid_allowed n : namespace_valid_name n = allowed_name n.
Proof.
  unfold namespace_valid_name, allowed_name, NAMESPACE_DEFAULT.
  assert (E : forallb (fun b => negb (beqb b x2f)) n = negb (existsb (fun b => b2n b =? 47) n)).
  { induction n as [|b n IH]; [reflexivity|]. cbn [forallb existsb]. rewrite IH, negb_orb. f_equal. destruct b; reflexivity. }
  rewrite E, negb_orb. destruct (bseqb n (str ".")), (bseqb n (str "..")), (bseqb n (str "default")), (existsb _ n); reflexivity.
Qed.

Lemma text_short a : blen (text a) <= blen a.
Proof. induction a as [|b a IH]; cbn [text blen]; [lia|]. destruct (beqb b x00); cbn [blen]; lia. Qed.

Lemma text_text a : text (text a) = text a.
Proof. induction a as [|b a IH]; [reflexivity|]. cbn [text]. destruct (beqb b x00) eqn:E; [reflexivity|]. cbn [text]. rewrite E, IH. reflexivity. Qed.

Lemma ns_load_new g k name t : server_ok g -> TInv t k [] -> blen name <= 128 ->
  exists r, namespace_load (g_mode (v_set g)) k name [] empty_disk t = Some (t, r) /\ r_cfg r = fresh_conf name /\
    desc_ok (r_cfg r) (r_desc r) /\ holds g k (mkEst t (r_ix r) (r_dt r) (r_dk r)) (new_entry g name).
Proof.
  intros G T L. destruct (load_first name L) as (desc & A & B). destruct (holds_new g k t name G T) as (s & O & Et & U).
  unfold namespace_load. rewrite A, O. exists (mkNs (fresh_conf name) desc (ix s) (dt s) (dk s)). rewrite Et. split; [reflexivity|].
  split; [reflexivity|]. split; [exact B|]. cbn [r_ix r_dt r_dk]. destruct s as [t0 x0 d0 k0]. cbn [tb ix dt dk] in *. subst t0. exact U.
Qed.

Lemma form_short n a : form n a = true -> blen (text (arg 1 a)) <= 128.
Proof. unfold form. intro H. pose proof (text_short (arg 1 a)). lia. Qed.

Lemma nsnew_step g v cl me argv w D rep st w' : server_ok g -> SrvInv g w D -> command_nsnew g (perm_of cl) argv w = Done rep st w' ->
  exists D', request_spec g v cl me CNsnew argv rep D D' /\ SrvInv g w' D'.
Proof.
  intros G V H. unfold command_nsnew in H. apply guard_spec in H. cbn [perm_of p_admin] in H. cbv beta iota delta [request_spec]. cbv zeta.
  destruct H as [(F & H)|(F & E & ->)]; [|rewrite F; cbn [andb]; exists D; split; [split; [exact E|reflexivity]|exact V]].
  rewrite F. cbn [andb]. rewrite text_cstr in H. rewrite valid_allowed in H. destruct (allowed_name _) eqn:Al; cbn [negb andb] in *.
  2:{ done_inv H. exists D. split; [split; [apply hardsend_error|reflexivity]|exact V]. }
  pose proof (get_dir g w D (text (arg 1 argv)) V) as Gd. unfold absent. destruct (namespace_get _ w) as [[i r]|].
  { destruct Gd as (_ & _ & x & Dx & _). rewrite Dx. done_inv H. exists D. split; [split; [apply hardsend_error|reflexivity]|exact V]. }
  rewrite Gd. destruct (_ =? 0); [discriminate|].
  assert (Fm : form 2 argv = true) by (destruct (c_admin cl); [exact F|discriminate]). apply form_short in Fm.
  destruct (ns_load_new g (free_slot 0 (w_slots w)) (text (arg 1 argv)) (w_tb w) G (sv_free _ _ _ V _ (free_none _)) Fm) as (r & L & C & De & U).
  rewrite L in H. done_inv H. eexists. split; [split; reflexivity|].
  replace (text (arg 1 argv)) with (n_name (r_cfg r)) by (rewrite C; reflexivity).
  apply sv_add; [exact V| |apply tframe_refl| |exact U| |exact De]; rewrite C; [exact Gd|reflexivity|apply fresh_conf_ok; exact Fm].
Qed.

Lemma nsdel_step g v cl i r argv w D rep st w' : SrvInv g w D -> c_ns cl = Some i -> slot i w = Some r ->
  command_nsdel (perm_of cl) (c_ns cl) argv w = Done rep st w' ->
  exists D', request_spec g v cl (n_name (r_cfg r)) CNsdel argv rep D D' /\ SrvInv g w' D'.
Proof.
  intros V Ci S H. unfold command_nsdel in H. apply guard_spec in H. cbn [perm_of p_admin] in H. cbv beta iota delta [request_spec]. cbv zeta.
  destruct H as [(F & H)|(F & E & ->)]; [|rewrite F; cbn [andb]; exists D; split; [split; [exact E|reflexivity]|exact V]].
  rewrite F. cbn [andb]. rewrite text_cstr in H. unfold NAMESPACE_DEFAULT in H. destruct (bseqb (text (arg 1 argv)) (str "default")) eqn:Ed; cbn [negb andb].
  { done_inv H. exists D. split; [split; [apply hardsend_error|reflexivity]|exact V]. }
  pose proof (get_dir g w D (text (arg 1 argv)) V) as Gd. unfold absent. destruct (namespace_get _ w) as [[k rk]|].
  2:{ rewrite Gd. done_inv H. exists D. split; [split; [apply hardsend_error|reflexivity]|exact V]. }
  destruct Gd as (Sk & Nk & x & Dx & _). rewrite Dx. cbn [negb andb]. rewrite Ci in H.
  destruct (N.eqb_spec i k) as [->|Ne].
  { rewrite S in Sk. injection Sk as <-. rewrite Nk, bseqb_refl. done_inv H. exists D. split; [split; [apply hardsend_error|reflexivity]|exact V]. }
  rewrite bseqb_neq. 2:{ intro E. apply Ne. apply (sv_uniq _ _ _ V i k r rk S Sk). congruence. }
  done_inv H. eexists. split; [split; reflexivity|]. rewrite <- Nk. apply sv_del; [exact V|exact Sk|].
  intro E. rewrite <- Nk, E, bseqb_refl in Ed. discriminate.
Qed.

Lemma setting_apply cm value c : match nsset_apply (bseqb (n_name c) NAMESPACE_DEFAULT) cm value c with
  | inr c' => setting cm value c = Some c'
  | inl err => setting cm value c = None /\ is_error err
  end.
Proof.
  assert (Y : first_is_1 value = yes value) by (destruct value as [|b t]; [reflexivity|destruct b; reflexivity]).
  unfold nsset_apply, setting, word, NAMESPACE_DEFAULT. rewrite Y. destruct c as [nm pass public worm mx lock]. cbn [n_name n_pass n_public n_worm n_maxsize n_lock].
  repeat match goal with |- context [if bseqb ?a ?b then _ else _] => destruct (bseqb a b) end; try reflexivity;
    split; [reflexivity|apply hardsend_error|reflexivity|apply hardsend_error].
Qed.

Lemma setting_ok cm value c c' : conf_ok c -> setting cm value c = Some c' -> blen value <= 63 -> text value = value ->
  (cm = str "password" -> value <> []) -> conf_ok c' /\ n_name c' = n_name c.
Proof.
  intros (A & B & C) H L T Pw. unfold setting in H. destruct c as [nm pass public worm mx lock]. cbn [n_name n_maxsize n_pass] in *.
  assert (M : z_u64 (atoll value) < 2 ^ 64).
  { unfold z_u64. assert (0 <= atoll value mod 18446744073709551616 < 18446744073709551616)%Z by (apply Z.mod_pos_bound; reflexivity).
    change (2 ^ 64) with 18446744073709551616. lia. }
  destruct (word cm "lock"). { injection H as <-. split; [repeat split; assumption|reflexivity]. }
  destruct (word cm "freeze"). { injection H as <-. split; [repeat split; assumption|reflexivity]. }
  destruct (bseqb nm _); [discriminate|].
  destruct (word cm "maxsize"). { injection H as <-. split; [repeat split; assumption|reflexivity]. }
  destruct (word cm "password") eqn:W.
  { injection H as <-. split; [|reflexivity]. split; [exact A|]. split; [exact B|]. cbn [n_pass]. destruct (bseqb value _); [exact I|].
    unfold word in W. apply bseqb_eq in W. specialize (Pw W). rewrite text_cstr. split; [|exact T]. destruct value; [congruence|]. cbn [blen] in *. lia. }
  destruct (word cm "public"). { injection H as <-. split; [repeat split; assumption|reflexivity]. }
  destruct (word cm "worm"); [|discriminate]. injection H as <-. split; [repeat split; assumption|reflexivity].
Qed.

Lemma dset_id n x (D : dir) : D n = Some x -> forall m, dset n (Some x) D m = D m.
Proof. intros H m. unfold dset. destruct (bseqb m n) eqn:E; [|reflexivity]. apply bseqb_eq in E. subst. symmetry. exact H. Qed.

Lemma sv_dir g w D D' : (forall n, D' n = D n) -> SrvInv g w D -> SrvInv g w D'.
Proof.
  intros E V. destruct V as [V1 V2 V3 V4 V5 V6]. split; auto.
  - intros i r S. destruct (V1 i r S) as (x & A & B). exists x. rewrite E. auto.
  - intros n x H. rewrite E in H. eauto.
Qed.

Lemma nsset_mode_spec g value s : match nsset_mode g value s with
  | inl err => is_error err
  | inr s' => g_mode (v_set g) = MODE_MIX /\ namespace_is_fresh (ix s) = true /\
      exists sq : bool, value = (if sq then str "seq" else str "user") /\ s' = namespace_set_mode (if sq then MODE_SEQ else MODE_KV) s
  end.
Proof.
  unfold nsset_mode. destruct (N.eqb_spec (g_mode (v_set g)) MODE_MIX) as [G|]; cbn [negb]; [|apply hardsend_error].
  destruct (namespace_is_fresh (ix s)); cbn [negb]; [|apply hardsend_error].
  destruct (bseqb value (str "user")) eqn:E1.
  { apply bseqb_eq in E1. split; [exact G|]. split; [reflexivity|]. exists false. auto. }
  destruct (bseqb value (str "seq")) eqn:E2; [|apply hardsend_error].
  apply bseqb_eq in E2. split; [exact G|]. split; [reflexivity|]. exists true. auto.
Qed.

Lemma nsset_step g v cl me argv w D rep st w' : SrvInv g w D ->
  (text (arg 2 argv) = str "password" -> text (arg 3 argv) <> []) ->
  command_nsset g (perm_of cl) argv w = Done rep st w' ->
  exists D', request_spec g v cl me CNsset argv rep D D' /\ SrvInv g w' D'.
Proof.
  intros V Pw H. unfold command_nsset in H. apply guard_spec in H. cbn [perm_of p_admin] in H. cbv beta iota delta [request_spec]. cbv zeta.
  destruct H as [(F & H)|(F & E & ->)]; [|rewrite F; cbn [andb]; exists D; split; [split; [exact E|reflexivity]|exact V]].
  rewrite F. cbn [andb]. unfold args_overflow, COMMAND_MAXLEN in H.
  destruct (N.ltb_spec 256 (blen (arg 2 argv))) as [L2|L2].
  { replace (_ <=? _) with false by lia. done_inv H. exists D. split; [split; [apply hardsend_error|reflexivity]|exact V]. }
  replace (blen (arg 2 argv) <=? 256) with true by lia. cbn [andb].
  destruct (N.ltb_spec 63 (blen (arg 3 argv))) as [L3|L3].
  { replace (_ <=? _) with false by lia. done_inv H. exists D. split; [split; [apply hardsend_error|reflexivity]|exact V]. }
  replace (blen (arg 3 argv) <=? 63) with true by lia.
  unfold sprint_max in H. destruct (_ <? COMMAND_MAXLEN); [|discriminate]. rewrite !text_cstr in H.
  pose proof (get_dir g w D (text (arg 1 argv)) V) as Gd. destruct (namespace_get _ w) as [[k r]|].
  2:{ rewrite Gd. done_inv H. exists D. split; [split; [apply hardsend_error|reflexivity]|exact V]. }
  destruct Gd as (S & Nk & x & Dx & Cx & U & Co & De). rewrite Dx. destruct (bseqb (text (arg 2 argv)) (str "mode")) eqn:Em.
  - pose proof (nsset_mode_spec g (text (arg 3 argv)) (est_of w r)) as M. destruct (nsset_mode _ _ _) as [err|s'].
    { done_inv H. exists D. split; [left; split; [exact M|reflexivity]|exact V]. }
    destruct M as (Gm & Fr & sq & Va & ->). done_inv H. destruct (holds_mode g k (est_of w r) x sq Gm U Fr) as (Us & U').
    eexists. split; [right; split; [reflexivity|]; split; [exact Gm|]; split; [exact Us|]; exists sq; split; [exact Va|reflexivity]|].
    rewrite <- Nk. apply (sv_update g w D k r); [exact V|exact S|reflexivity| |exact Cx| |exact Co|].
    + apply tframe_refl.
    + cbn [r_ix r_dt r_dk]. exact U'.
    + apply commit_ok. exact Co.
  - rewrite <- Nk in H. pose proof (setting_apply (text (arg 2 argv)) (text (arg 3 argv)) (r_cfg r)) as Ap. rewrite Cx.
    destruct (nsset_apply _ _ _ _) as [err|c'].
    { destruct Ap as (Ap & Er). rewrite Ap. done_inv H. exists D. split; [split; [exact Er|reflexivity]|exact V]. }
    rewrite Ap. done_inv H. eexists. split; [split; reflexivity|].
    destruct (setting_ok _ _ _ _ Co Ap) as (Co' & Nc); [pose proof (text_short (arg 3 argv)); lia|apply text_text|exact Pw|].
    rewrite <- Nk. apply (sv_update g w D k r); [exact V|exact S|exact Nc|apply tframe_refl|reflexivity| |exact Co'|].
    + cbn [r_ix r_dt r_dk]. exact U.
    + apply commit_ok. exact Co'.
Qed.

(* the namespace k takes the state s' *)
Lemma sv_put g w D k r s' x x' : SrvInv g w D -> slot k w = Some r -> D (n_name (r_cfg r)) = Some x ->
  frame k (est_of w r) s' -> holds g k s' x' -> d_conf x' = d_conf x ->
  SrvInv g (put_est k r s' w) (dset (n_name (r_cfg r)) (Some x') D).
Proof.
  intros V S Dx (_ & F) U E. destruct (sv_live _ _ _ V k r S) as (x0 & D0 & C0 & _ & Co & De). rewrite Dx in D0. injection D0 as <-.
  unfold put_est. apply (sv_update g w D k r); auto; cbn [r_cfg r_ix r_dt r_dk].
  - congruence.
  - destruct s'. exact U.
Qed.

Lemma sv_put_same g w D k r s' x : SrvInv g w D -> slot k w = Some r -> D (n_name (r_cfg r)) = Some x ->
  frame k (est_of w r) s' -> holds g k s' x -> SrvInv g (put_est k r s' w) D.
Proof.
  intros V S Dx F U. apply (sv_dir g _ (dset (n_name (r_cfg r)) (Some x) D)).
  - intro n. symmetry. apply dset_id. exact Dx.
  - apply (sv_put g w D k r s' x x); auto.
Qed.

Lemma reload_step g k r w D : server_ok g -> SrvInv g w D -> slot k w = Some r -> (in_sequential r -> settled (est_of w r)) ->
  exists w', namespace_reload g k r w = Some w' /\ SrvInv g w' D.
Proof.
  intros G V S Q. destruct (sv_live _ _ _ V k r S) as (x & Dx & _ & U & _).
  destruct (holds_reopen g k (est_of w r) x G U Q) as (s' & O & U'). unfold namespace_reload.
  change (index_clean_namespace (w_tb w) (r_ix r)) with (index_clean_namespace (tb (est_of w r)) (ix (est_of w r))).
  change (r_dk r) with (dk (est_of w r)). rewrite O. eexists. split; [reflexivity|]. apply store_open_frame in O. destruct O as (O1 & O2).
  apply (sv_put_same g w D k r s' x); auto. split.
  - rewrite O1. cbn [ix est_of]. symmetry. apply (sv_numbered _ _ _ V). exact S.
  - eapply tframe_trans; [|exact O2]. apply clean_frame. cbn [ix est_of]. apply (sv_numbered _ _ _ V). exact S.
Qed.

Lemma nslist_step g w D : SrvInv g w D ->
  exists names, NoDup names /\ (forall n, In n names <-> D n <> None) /\ command_nslist w = enc_reply (RArr (map RBulk names)).
Proof.
  intro V. exists (ns_names (w_slots w)). split; [apply names_nodup; intros i j r r'; apply (sv_uniq _ _ _ V)|]. split.
  - intro n. rewrite names_in. split.
    + intros (j & r & S & <-). destruct (sv_live _ _ _ V j r S) as (x & Dx & _). congruence.
    + intro H. destruct (D n) as [x|] eqn:E; [|congruence]. destruct (sv_have _ _ _ V n x E) as (i & r & S & N). exists i, r. auto.
  - unfold command_nslist. rewrite (sv_eff _ _ _ V). cbn [enc_reply]. unfold arrayhdr.
    rewrite <- app_assoc. f_equal.
    assert (L : nlen (map RBulk (ns_names (w_slots w))) = nlen (ns_names (w_slots w))) by (rewrite !nlen_length, map_length; reflexivity).
    rewrite L. rewrite <- !app_assoc. f_equal. f_equal. induction (ns_names (w_slots w)) as [|n l IH]; [reflexivity|].
    cbn [map List.concat]. rewrite IH by (rewrite !nlen_length, map_length; reflexivity). reflexivity.
Qed.

Lemma index_step g k p argv s x rep s' : holds g k s x -> command_index p argv s = Some (rep, s') -> holds g k s' x.
Proof.
  intros U H. unfold command_index, command_index_dirty in H. destr_res H; injection H as <- <-; try exact U.
  unfold index_dirty_reset. apply holds_dirty. exact U.
Qed.

Definition ok_here (g : server) (v : env) (cl : client) (c : cmd) (a : list bytes) (r : nsrec) (w : world) : Prop :=
  let s := est_of w r in
  (forall q, req_of c a = Some q -> req_wf q /\ room_left r /\
     (in_sequential r -> req_calm (v_set g) (perm_of cl) (v_sec v) q (r_cfg r) s)) /\
  (c = CFlush -> in_sequential r -> settled s) /\
  (c = CReload -> forall k rk, slot k w = Some rk -> n_name (r_cfg rk) = text (arg 1 a) -> in_sequential rk -> settled (est_of w rk)) /\
  (c = CNsset -> text (arg 2 a) = str "password" -> text (arg 3 a) <> []).

Lemma data_step g v fd cl i r c argv w D h rep st w' : server_ok g -> SrvInv g w D -> slot i w = Some r ->
  lookup_handler (arg 0 argv) = Some (h, c) -> ok_here g v cl c argv r w -> is_data c = true ->
  handle g v fd cl i r c argv w = Done rep st w' ->
  exists D', match req_of c argv with
        | None => is_error rep /\ D' = D
        | Some q =>
            exists x, D (n_name (r_cfg r)) = Some x /\
            let '(rp, ct) := content_step (perm_of cl) (v_sec v) (d_conf x) q (d_content x) in
            rep = enc_reply rp /\ D' = dset (n_name (r_cfg r)) (Some (mkDent (d_used x || stores q rp) ct (d_conf x))) D
        end /\ SrvInv g w' D'.
Proof.
  intros G V S L (Ok & _) Da H. pose proof (handle_data g v fd cl i r c argv w h Da L S) as Hd.
  destruct (req_of c argv) as [q|] eqn:Q.
  - cbv zeta in Hd. rewrite H in Hd. destruct (Ok q eq_refl) as (Wf & Rm & Ca).
    destruct (sv_live _ _ _ V i r S) as (x & Dx & Cx & U & _).
    destruct (holds_req g i (est_of w r) x (perm_of cl) (v_sec v) q (r_cfg r) G U Wf Rm Ca) as (R1 & R2).
    pose proof (handle_only g v fd cl i r c argv w rep st w' (sv_numbered _ _ _ V) S H) as Fr.
    destruct (content_step _ _ _ _ _) as [rp ct] eqn:Z. cbn [fst snd] in *.
    injection Hd as E1 _ E3. subst rep w'. eexists. split; [exists x; split; [exact Dx|]; rewrite Cx, Z; split; [exact R1|reflexivity]|].
    apply (sv_put g w D i r _ x); auto.
    assert (Fm : frame i (est_of w r) (snd (run_req (v_set g) (perm_of cl) (v_sec v) q (r_cfg r) (est_of w r)))).
    { pose proof (sv_numbered _ _ _ V i r S) as Nr. destruct q; cbn [run_req snd]; try apply frame_refl.
      - apply command_set_frame. exact Nr.
      - apply command_del_frame. exact Nr.
      - apply command_nsjump_frame. }
    exact Fm.
  - destruct Hd as (rp & Hd & E). rewrite H in Hd. injection Hd as -> _ ->. exists D. split; [split; [exact E|reflexivity]|exact V].
Qed.

Lemma other_spec g v cl me c a rep D : is_data c = false ->
  match c with CNsnew | CNsdel | CNsset | CNslist | CNsinfo | CSelect => false | _ => true end = true ->
  request_spec g v cl me c a rep D D.
Proof. intros A B. destruct c; try discriminate; reflexivity. Qed.

Lemma select_step g v fd cl me argv w D rep st w' : SrvInv g w D -> command_select fd cl argv w = Done rep st w' ->
  request_spec g v cl me CSelect argv rep D D /\ SrvInv g w' D.
Proof.
  intros V H. unfold command_select in H. cbv beta iota delta [request_spec]. cbv zeta.
  unfold argc in H. destruct (N.ltb_spec (nlen argv) 2).
  { done_inv H. split; [split; [reflexivity|]|exact V]. destruct (D _); [intros; lia|apply hardsend_error]. }
  unfold args_namespace in H. destruct (N.ltb_spec 128 (blen (arg 1 argv))).
  { done_inv H. split; [split; [reflexivity|]|exact V]. destruct (D _); [intros; lia|apply hardsend_error]. }
  rewrite text_cstr in H. pose proof (get_dir g w D (text (arg 1 argv)) V) as Gd. destruct (namespace_get _ w) as [[k r]|].
  2:{ rewrite Gd. done_inv H. split; [split; [reflexivity|apply hardsend_error]|exact V]. }
  destruct Gd as (_ & _ & x & Dx & Cx & _). rewrite Dx. rewrite Cx. split.
  - split; [destruct (select_check _ _ _); done_inv H; reflexivity|]. intros P _ _. unfold select_check in H. rewrite P in H. done_inv H. reflexivity.
  - destruct (select_check _ _ _); done_inv H; [exact V|]. apply (sv_ext g w); auto.
Qed.

Lemma kmem_livem G H : Forall2 same_id G H -> kmem (livem G H) = msum G.
Proof.
  intros F. induction F as [|x v G H Hxv F IH]; cbn [livem msum]; auto.
  destruct (UserInv.live x); [|lia]. destruct v as [k w]. cbn [kmem]. unfold same_id in Hxv. cbn [fst] in Hxv. rewrite Hxv.
  change ENTRY_SIZEOF with 64. lia.
Qed.

Lemma holds_counts g i s x : holds g i s x ->
  x_entries (ix s) = kcount (live x) mod 2 ^ 64 /\ x_datasize (ix s) = ksize (live x) mod 2 ^ 64 /\
  index_modename (ix s) = match d_content x with CKv _ => str "userkey" | CSeq _ => str "sequential" end /\
  x_size (ix s) = kmem (live x) mod 2 ^ 64 /\
  match d_content x with CKv _ => True | CSeq st => x_nextentry (ix s) = sq_next st end.
Proof.
  unfold holds, live. intro U. destruct (d_content x) as [m|st]; destruct U as (_ & gi & H & U & <- & _).
  - rewrite (ui_cnt _ _ _ _ U), (ui_dsz _ _ _ _ U), (ui_msz _ _ _ _ U). unfold index_modename. rewrite (ui_mode _ _ _ _ U).
    rewrite (kmem_livem (flat 0 gi) H) by (eapply ver_same; apply U).
    rewrite (kcount_livem (flat 0 gi) H), (ksize_livem (dk_d (dk s)) (flat 0 gi) H); [auto|apply U|]. eapply forall2_length. apply U.
  - destruct U as (mm & U & _). destruct (scounters _ _ _ _ _ U) as (A & B). unfold index_modename. rewrite (si_mode _ _ _ _ _ U).
    unfold SeqSteps.sq_of. cbn [sq_map sq_next]. rewrite (si_msz _ _ _ _ _ U), (si_next _ _ _ _ _ U).
    rewrite (kmem_livem (flat 0 gi) H); [auto|]. eapply sver_same. apply U.
Qed.

Lemma fixed2_spec n d : 0 < d -> two_decimals (fixed2 n d) n d.
Proof.
  intros Hd. unfold fixed2. cbv zeta. set (q := 100 * n / d). set (m := (100 * n) mod d).
  assert (E : 100 * n = d * q + m) by (apply N.div_mod; lia). assert (Hm : m < d) by (apply N.mod_lt; lia). clearbody q m.
  set (h := if (d <? 2 * m) || ((2 * m =? d) && negb (q mod 2 =? 0)) then q + 1 else q).
  assert (Hh : (h = q /\ 2 * m <= d) \/ (h = q + 1 /\ d <= 2 * m)).
  { unfold h. destruct (N.ltb_spec d (2 * m)); cbn [orb]; [right; lia|]. destruct (N.eqb_spec (2 * m) d); cbn [andb]; [|left; lia].
    destruct (negb (q mod 2 =? 0)); [right|left]; lia. }
  clearbody h. exists h, (h mod 100 / 10), (h mod 10). split; [reflexivity|].
  split; [lia|]. split; [lia|]. split; [lia|]. destruct Hh as [[-> Hh]|[-> Hh]]; nia.
Qed.

Lemma hex_value_digit n : n < 16 -> hex_value (hexdigit n) = n.
Proof.
  intros H. unfold hex_value, hexdigit. destruct (N.ltb_spec n 10); rewrite b2n_n2b, N.mod_small by lia.
  - destruct (N.ltb_spec (48 + n) 58); lia.
  - destruct (N.ltb_spec (87 + n) 58); lia.
Qed.

Lemma hex_digits_value fuel : forall n acc, n < 16 ^ N.of_nat fuel ->
  fold_left (fun a b => 16 * a + hex_value b) (hex_digits fuel n acc) 0 = fold_left (fun a b => 16 * a + hex_value b) acc n.
Proof.
  induction fuel as [|fuel IH]; intros n acc H; cbn [hex_digits].
  - change (16 ^ N.of_nat 0) with 1 in H. replace n with 0 by lia. reflexivity.
  - destruct (N.eqb_spec n 0) as [->|]; [reflexivity|]. rewrite Nat2N.inj_succ, N.pow_succ_r' in H. rewrite IH by lia.
    cbn [fold_left]. rewrite hex_value_digit by lia. f_equal. lia.
Qed.

Lemma hex8_spec n : exists h, hex8 n = str "0x" ++ h /\ (8 <= length h)%nat /\ hex_number h = n.
Proof.
  unfold hex8. cbv zeta. set (t := hex_digits (N.size_nat n) n []). exists (repeat (digit 0) (8 - length t) ++ t). split; [reflexivity|].
  split; [rewrite app_length, repeat_length; lia|]. unfold hex_number. rewrite fold_left_app.
  assert (Z : forall k, fold_left (fun a b => 16 * a + hex_value b) (repeat (digit 0) k) 0 = 0).
  { induction k as [|k IHk]; [reflexivity|]. cbn [repeat fold_left]. exact IHk. }
  rewrite Z. unfold t. rewrite hex_digits_value; [reflexivity|].
  assert (N.of_nat (N.size_nat n) = N.size n) as -> by (destruct n as [|p]; [reflexivity|]; cbn [N.size N.size_nat]; induction p; cbn in *; lia).
  pose proof (N.size_gt n) as S. eapply N.lt_le_trans; [exact S|]. apply N.pow_le_mono_l. lia.
Qed.

Lemma shows_next n : shows_id (hex8 (bswap64 n)) n.
Proof.
  destruct (hex8_spec (bswap64 n)) as (h & -> & L & E). exists h. split; [reflexivity|]. split; [exact L|]. rewrite E. unfold bswap64, ident.
  replace 8%nat with (length (rev (le 8 n))) at 1 by (rewrite rev_length; apply le_length). apply le_unle.
Qed.

Lemma yes_no_yesno b : yes_no b = yesno b.
Proof. destruct b; reflexivity. Qed.

Lemma infoline_line k v : infoline k v = line k v.
Proof. reflexivity. Qed.

Lemma nsinfo_step g v cl me argv w D : SrvInv g w D -> request_spec g v cl me CNsinfo argv (command_nsinfo v cl argv w) D D.
Proof.
  intro V. cbv beta iota delta [request_spec]. cbv zeta. split; [reflexivity|]. unfold command_nsinfo, form. pose proof (validate_spec argv 2) as Va.
  destruct (args_validate argv 2) as [err|].
  { destruct Va as (-> & E). cbn [andb]. destruct (D _); exact E. }
  rewrite Va. cbn [andb]. unfold args_namespace. destruct (N.ltb_spec 128 (blen (arg 1 argv))).
  { replace (_ <=? _) with false by lia. destruct (D _); apply hardsend_error. }
  replace (_ <=? _) with true by lia. rewrite text_cstr. pose proof (get_dir g w D (text (arg 1 argv)) V) as Gd.
  destruct (namespace_get _ w) as [[k r]|]; [|rewrite Gd; apply hardsend_error].
  destruct Gd as (_ & _ & x & Dx & Cx & U & _). rewrite Dx. exists (nsinfo_text v cl r). split; [reflexivity|].
  destruct (holds_counts _ _ _ _ U) as (E1 & E2 & E3 & E4 & E5). cbn [ix est_of] in *.
  unfold info_text, nsinfo_text. cbv zeta. rewrite Cx, E1, E2, E3, E4, !yes_no_yesno.
  exists (fixed2 (ksize (live x) mod 2 ^ 64) 1048576), (fixed2 (kmem (live x) mod 2 ^ 64) 1024), (hex8 (bswap64 (x_nextentry (r_ix r)))), (v_text v 1).
  eexists. split; [apply fixed2_spec; lia|]. split; [apply fixed2_spec; lia|].
  split; [destruct (d_content x); [exact I|]; rewrite E5; apply shows_next|].
  replace (if n_maxsize (r_cfg r) =? 0 then []
    else line "space_available" (dec ((n_maxsize (r_cfg r) + 2 ^ 64 - ksize (live x) mod 2 ^ 64) mod 2 ^ 64)))
    with (if 0 <? n_maxsize (r_cfg r) then infoline "space_available" (dec (sub64 (n_maxsize (r_cfg r)) (ksize (live x) mod 2 ^ 64))) else []).
  { repeat (f_equal; []). reflexivity. }
  destruct (N.eqb_spec (n_maxsize (r_cfg r)) 0) as [Z|Z].
  - rewrite Z. reflexivity.
  - replace (0 <? n_maxsize (r_cfg r)) with true by lia. unfold infoline, line, sub64. do 4 f_equal.
    change (2 ^ 64) with 18446744073709551616. set (a := ksize (live x)). clearbody a. f_equal. lia.
Qed.

Lemma handle_step g v fd cl i r c argv w D h rep st w' : server_ok g -> SrvInv g w D -> c_ns cl = Some i -> slot i w = Some r ->
  lookup_handler (arg 0 argv) = Some (h, c) -> ok_here g v cl c argv r w ->
  handle g v fd cl i r c argv w = Done rep st w' ->
  exists D', request_spec g v cl (n_name (r_cfg r)) c argv rep D D' /\ SrvInv g w' D'.
Proof.
  intros G V Ci S L Ok H. destruct (is_data c) eqn:Da.
  { pose proof (data_step g v fd cl i r c argv w D h rep st w' G V S L Ok Da H) as (D' & A & B). exists D'. split; [|exact B].
    destruct c; try discriminate Da; exact A. }
  destruct Ok as (_ & Of & Or & Op).
  destruct c; try discriminate Da;
    try (exists D; split; [apply other_spec; reflexivity|]);
    try (unfold handle in H; done_inv H; exact V); try (unfold handle in H; told_step H; exact V).
  - unfold handle, command_wait in H. destr_res H; done_inv H; try exact V; apply (sv_ext g w); auto.
  - unfold handle in H. destruct (admin_authorized _); done_inv H; try exact V; apply (sv_ext g w); auto.
  - unfold handle in H. destruct (admin_authorized _); done_inv H; try exact V; apply (sv_ext g w); auto.
  - unfold handle, command_auth in H. destr_res H; done_inv H; try exact V; apply (sv_ext g w); auto.
  - unfold handle in H. destruct (admin_authorized _); done_inv H; exact V.
  - unfold handle in H. destruct (command_index _ _ _) as [[rp s']|] eqn:E; [|discriminate]. done_inv H.
    destruct (sv_live _ _ _ V i r S) as (x & Dx & _ & U & _). apply (sv_put_same g w D i r s' x); auto.
    + eapply command_index_frame. exact E.
    + eapply index_step; eassumption.
  - unfold handle in H. destruct (v_release g); done_inv H; exact V.
  - exact (nsnew_step g v cl _ argv w D rep st w' G V H).
  - exact (nsdel_step g v cl i r argv w D rep st w' V Ci S H).
  - unfold handle in H. done_inv H. exists D. split; [|exact V]. split; [reflexivity|]. apply (nslist_step g). exact V.
  - exact (nsset_step g v cl _ argv w D rep st w' V (Op eq_refl) H).
  - unfold handle in H. done_inv H. exists D. split; [|exact V]. apply (nsinfo_step g v cl). exact V.
  - exists D. exact (select_step g v fd cl _ argv w D rep st w' V H).
  - unfold handle, command_reload in H. destr_res H; done_inv H; try exact V.
    match goal with A : namespace_get _ _ = Some (?k, ?rk), B : namespace_reload g ?k ?rk w = Some _ |- _ =>
      apply get_slot in A; destruct A as (A1 & A2); rewrite text_cstr in A2;
      destruct (reload_step g k rk w D G V A1 (Or eq_refl k rk A1 A2)) as (w2 & B2 & V2) end. congruence.
  - unfold handle, command_flush in H. destr_res H; done_inv H; try exact V.
    destruct (reload_step g i r w D G V S (Of eq_refl)) as (w2 & B2 & V2). congruence.
Qed.

(* ---- events ---- *)

Lemma request_step g v fd argv w D out st w' : server_ok g -> SrvInv g w D -> covered g (SRequest fd v argv) w ->
  request g v fd argv w = SDone out st w' ->
  exists D', dir_event g (SRequest fd v argv) w out D D' /\ SrvInv g w' D'.
Proof.
  intros G V Cv H. apply request_inv in H. destruct H as (cl & C & H). cbn [dir_event].
  destruct H as [(-> & ->)|(rep & w1 & o1 & Di & P & ->)].
  { exists D. split; [|exact V]. exists cl. split; [exact C|]. left. split; reflexivity. }
  apply posthandler_world in P. destruct P as (P1 & P2 & P3 & _).
  apply dispatch_inv in Di. destruct Di as [(N & -> & E)|(i & r & Ci & S & Di)].
  { exists D. split; [|apply (sv_ext g w); auto]. exists cl. split; [exact C|]. right. exists rep, o1. split; [reflexivity|]. rewrite N. auto. }
  destruct Di as [(L & -> & E)|(h & c & L & Di)].
  { exists D. split; [|apply (sv_ext g w); auto]. exists cl. split; [exact C|]. right. exists rep, o1. split; [reflexivity|].
    rewrite Ci. exists r. split; [exact S|]. rewrite L. auto. }
  set (cl' := c_set_exec (Some h) cl) in *. set (w0 := put_client fd cl' w) in *.
  assert (V0 : SrvInv g w0 D) by (apply (sv_ext g w); auto).
  assert (Ok : ok_here g v cl' c (effective cl argv) r w0) by exact (Cv cl i r h c C Ci S L).
  destruct (handle_step g v fd cl' i r c (effective cl argv) w0 D h rep st w1 G V0 Ci S L Ok Di) as (D' & A & B).
  exists D'. split; [|apply (sv_ext g w1); auto]. exists cl. split; [exact C|]. right. exists rep, o1. split; [reflexivity|].
  rewrite Ci. exists r. split; [exact S|]. rewrite L. exact A.
Qed.

Lemma rotate_step g old D : server_ok g -> forall ks w, NoDup ks -> SrvInv g w D ->
  (forall k r, In k ks -> In k old -> slot k w = Some r -> room_left r /\ (in_sequential r -> settled (est_of w r))) ->
  SrvInv g (files_rotate old ks w) D.
Proof.
  intros G. induction ks as [|k ks IH]; intros w Nd V Cv; cbn [files_rotate]; [exact V|]. inversion Nd as [|? ? Nk Nks]; subst.
  set (w1 := match slot k w with Some r => _ | None => w end).
  assert (A : SrvInv g w1 D /\ forall j, j <> k -> slot j w1 = slot j w /\ veq j (w_tb w) (w_tb w1)).
  { unfold w1. destruct (slot k w) as [r|] eqn:S; [|split; [exact V|intros; split; [reflexivity|apply veq_refl]]].
    destruct (x_updated _ && _) eqn:U; [|split; [exact V|intros; split; [reflexivity|apply veq_refl]]].
    apply andb_true_iff in U. destruct U as (_ & U). apply existsb_exists in U. destruct U as (y & Y & E). apply N.eqb_eq in E. subst y.
    destruct (Cv k r (or_introl eq_refl) Y S) as (Rm & Se). destruct (sv_live _ _ _ V k r S) as (x & Dx & _ & U & _).
    pose proof (jump_frame k (est_of w r)) as F. split.
    - apply (sv_put_same g w D k r _ x); auto. apply holds_jump; auto.
    - destruct (put_est_only k r (jump_next (est_of w r)) w F S (sv_numbered _ _ _ V)) as (O1 & O2 & _).
      intros j J. split; [apply O2; exact J|]. eapply tframe_veq; [|exact O1]. exact J. }
  destruct A as (A1 & A2). apply IH; [exact Nks|exact A1|]. intros j r I Io S.
  assert (J : j <> k) by (intros ->; contradiction). destruct (A2 j J) as (A3 & _). rewrite A3 in S.
  destruct (Cv j r (or_intror I) Io S) as (B1 & B2). split; [exact B1|]. intro Q. specialize (B2 Q).
  exact B2.
Qed.

Lemma upto_in n : forall i k, In k (upto n i) -> i <= k.
Proof. induction n as [|n IH]; intros i k H; cbn [upto] in H; [destruct H|]. destruct H as [<-|H]; [lia|]. specialize (IH _ _ H). lia. Qed.
Lemma upto_nodup n : forall i, NoDup (upto n i).
Proof. induction n as [|n IH]; intro i; cbn [upto]; constructor; auto. intro H. apply upto_in in H. lia. Qed.

Lemma idle_step g now old w D out st w' : server_ok g -> SrvInv g w D -> covered g (SIdle now old) w ->
  idle g now old w = SDone out st w' -> SrvInv g w' D.
Proof.
  intros G V Cv H. unfold idle in H. destruct (watch_timeout _ _ _) as [o l]. injection H as <- <- <-.
  assert (V0 : SrvInv g (mkWorld (w_tb w) (w_slots w) (w_eff w) l) D) by (apply (sv_ext g w); auto).
  destruct (v_rotate g); [|exact V0]. apply rotate_step; [exact G|apply upto_nodup|exact V0|].
  intros k r _ I S. exact (Cv k r I S).
Qed.

(* ---- restart ---- *)

Definition restarted (x : dent) : dent := mkDent (d_used x) (d_content x) (unlocked (d_conf x)).

Lemma after_some D n x : D n = Some x -> after_restart D n = Some (restarted x).
Proof. intro H. unfold after_restart. rewrite H. reflexivity. Qed.

(* the namespace kept as s comes up with the contents x *)
Definition boots (g : server) (s : stored) (x : dent) : Prop :=
  n_name (d_conf x) = fst (fst s) /\ conf_ok (d_conf x) /\
  forall k t, TInv t k [] -> exists t' r, namespace_load (g_mode (v_set g)) k (fst (fst s)) (snd (fst s)) (snd s) t = Some (t', r) /\ tframe k t t' /\
    r_cfg r = unlocked (d_conf x) /\ desc_ok (r_cfg r) (r_desc r) /\ holds g k (mkEst t' (r_ix r) (r_dt r) (r_dk r)) (restarted x).

Lemma disk_boots g name desc d x : n_name (d_conf x) = name -> conf_ok (d_conf x) -> desc_ok (d_conf x) desc -> disk_holds g d x ->
  boots g (name, desc, d) x.
Proof.
  intros <- Co De Dh. split; [reflexivity|]. split; [exact Co|]. intros k t T. cbn [fst snd].
  destruct (disk_open g k t d x Dh T) as (s & O & F & U). unfold namespace_load. rewrite (proj1 De), O.
  eexists _, _. split; [reflexivity|]. cbn [r_cfg r_desc r_ix r_dt r_dk]. split; [exact F|]. split; [reflexivity|]. split; [exact De|].
  destruct s. exact U.
Qed.

Definition stored_ok (g : server) (D : dir) (s : stored) : Prop := exists x, D (fst (fst s)) = Some x /\ boots g s x.

Lemma load_all_ok g D : forall l i t, (forall j, i <= j -> TInv t j []) -> Forall (stored_ok g D) l ->
  exists t' rs, load_all (g_mode (v_set g)) i l t = Some (t', map Some rs) /\ (forall k X, k < i -> TInv t k X -> TInv t' k X) /\
    (forall k, i + nlen l <= k -> TInv t' k []) /\ map (fun r => n_name (r_cfg r)) rs = map (fun s => fst (fst s)) l /\
    forall j r, nget j rs = Some r -> exists x, after_restart D (n_name (r_cfg r)) = Some x /\ d_conf x = r_cfg r /\
      holds g (i + j) (mkEst t' (r_ix r) (r_dt r) (r_dk r)) x /\ conf_ok (r_cfg r) /\ desc_ok (r_cfg r) (r_desc r).
Proof.
  induction l as [|[[name desc] d] l IH]; intros i t T F; cbn [load_all].
  - exists t, []. split; [reflexivity|]. split; [auto|]. split; [intros k K; apply T; cbn [nlen] in K; lia|]. split; [reflexivity|]. discriminate.
  - inversion F as [|? ? F1 F2]; subst. destruct F1 as (x & Dx & Nx & Co & Bo). cbn [fst snd] in *.
    destruct (Bo i t (T i ltac:(lia))) as (t1 & r & L & Fr & Cr & De & U).
    replace (match descriptor_load name desc with Some _ => _ | None => _ end) with
      (match load_all (g_mode (v_set g)) (i + 1) l t1 with Some (t2, rs) => Some (t2, Some r :: rs) | None => None end)
      by (destruct (descriptor_load name desc) eqn:Dl; [rewrite L; reflexivity|unfold namespace_load in L; rewrite Dl in L; discriminate]).
    destruct (IH (i + 1) t1) as (t' & rs & A & B & C & E & H); [|exact F2|].
    { intros j J. eapply tframe_inv; [|exact Fr|apply T; lia]. lia. }
    rewrite A. exists t', (r :: rs). split; [reflexivity|]. split.
    { intros k X K Tk. apply B; [lia|]. eapply tframe_inv; [|exact Fr|exact Tk]. lia. }
    split; [intros k K; apply C; cbn [nlen] in K; lia|]. split; [cbn [map]; rewrite E, Cr; cbn [n_name unlocked fst]; rewrite Nx; reflexivity|].
    intros j r' G. cbn [nget] in G. destruct (N.eqb_spec j 0) as [->|J].
    + injection G as <-. exists (restarted x). split; [|split; [symmetry; exact Cr|]].
      * rewrite Cr. cbn [unlocked n_name]. rewrite Nx. apply after_some. exact Dx.
      * split; [|split; [rewrite Cr; apply unlocked_ok; exact Co|exact De]].
        rewrite N.add_0_r. apply (holds_tb g i (mkEst t1 (r_ix r) (r_dt r) (r_dk r)) (restarted x) t'); [|exact U]. intros X TX. apply B; [lia|exact TX].
    + destruct (H (N.pred j) r' G) as (x' & A1 & A2 & A3 & A4). exists x'. replace (i + j) with (i + 1 + N.pred j) by lia. auto.
Qed.

Lemma stored_names w : map (fun s => fst (fst s)) (stored_of w) = ns_names (w_slots w).
Proof. unfold stored_of, ns_names. induction (w_slots w) as [|[r|] l IH]; [reflexivity| |exact IH]. cbn [flat_map app map fst]. rewrite IH. reflexivity. Qed.

Lemma stored_in w s : In s (stored_of w) -> exists i r, slot i w = Some r /\ s = (n_name (r_cfg r), r_desc r, r_dk r).
Proof.
  unfold stored_of. setoid_rewrite slot_oget. generalize (w_slots w). intro l. induction l as [|o l IH]; [intros []|]. cbn [flat_map]. intro H.
  apply in_app_iff in H. destruct H as [H|H].
  - destruct o as [r|]; [|destruct H]. destruct H as [<-|[]]. exists 0, r. split; reflexivity.
  - destruct (IH H) as (i & r & G & E). exists (i + 1), r. rewrite oget_cons. replace (_ =? 0) with false by lia. replace (N.pred (i + 1)) with i by lia. auto.
Qed.

Lemma oget_map {A} j (rs : list A) : oget j (map Some rs) = nget j rs.
Proof. unfold oget. rewrite !nget_nth, nth_error_map. destruct (nth_error rs (N.to_nat j)); reflexivity. Qed.

Lemma names_map rs : ns_names (map Some rs) = map (fun r => n_name (r_cfg r)) rs.
Proof. unfold ns_names. induction rs as [|r rs IH]; [reflexivity|]. cbn [map flat_map app]. rewrite IH. reflexivity. Qed.

Lemma tinv_empty k : TInv empty_table k [].
Proof. constructor; try (intros; contradiction); intros; try constructor. Qed.

Lemma boot_ok g (ord : list stored) D : NoDup (map (fun s => fst (fst s)) ord) -> (forall n x, D n = Some x -> In n (map (fun s => fst (fst s)) ord)) ->
  (exists desc d l, ord = (str "default", desc, d) :: l) -> Forall (stored_ok g D) ord ->
  exists w', boot g ord = Some w' /\ SrvInv g w' (after_restart D).
Proof.
  intros Nd Hv (dd & dk0 & l & Ed) F.
  destruct (load_all_ok g D ord 0 empty_table (fun j _ => tinv_empty j) F) as (t' & rs & A & _ & C & E & H).
  assert (Bt : boot g ord = Some (mkWorld t' (map Some rs) (nlen (map Some rs)) [])).
  { unfold boot. rewrite A, Ed. rewrite Ed in F. inversion F as [|? ? F1 F2]; subst. destruct F1 as (x & _ & _ & _ & Bo).
    destruct (Bo 0 empty_table (tinv_empty 0)) as (t1 & r & L & _). cbn [fst snd] in L. unfold namespace_load in L.
    destruct (descriptor_load _ _); [reflexivity|discriminate]. }
  eexists. split; [exact Bt|]. clear Bt.
  assert (Sl : forall j, slot j (mkWorld t' (map Some rs) (nlen (map Some rs)) []) = nget j rs) by (intro j; rewrite slot_oget; apply oget_map).
  assert (Ln : nlen rs = nlen ord) by (rewrite !nlen_length; erewrite <- (map_length _ rs), E, map_length; reflexivity).
  split.
  - intros i r. rewrite Sl. intro G. destruct (H i r G) as (x & R). rewrite N.add_0_l in R. exists x. exact R.
  - intros n x Hn. unfold after_restart in Hn. destruct (D n) as [y|] eqn:Dn; [|discriminate]. pose proof (Hv n y Dn) as I. rewrite <- E in I.
    apply in_map_iff in I. destruct I as (r' & Nr' & I). apply In_nth_error in I. destruct I as (k & K). exists (N.of_nat k), r'.
    rewrite Sl, nget_nth, Nat2N.id. auto.
  - intros i j r r'. rewrite !Sl, !nget_nth. intros G1 G2 Q. rewrite <- E in Nd. apply (proj1 (NoDup_nth_error _)) with (i := N.to_nat i) (j := N.to_nat j) in Nd.
    + lia.
    + rewrite map_length. apply nth_error_Some. congruence.
    + rewrite !nth_error_map, G1, G2. cbn [option_map]. congruence.
  - subst ord. destruct rs as [|r rs]; [discriminate|]. exists r. rewrite Sl. split; [reflexivity|]. cbn [map fst] in E. injection E as E _. exact E.
  - cbn [w_eff w_slots]. rewrite names_map. rewrite !nlen_length, !map_length. reflexivity.
  - intros i. rewrite Sl. intro G. apply nget_None in G. cbn [w_tb]. apply C. lia.
Qed.

Lemma live_boots g w D i r : SrvInv g w D -> slot i w = Some r -> (in_sequential r -> settled (est_of w r)) ->
  exists x, D (n_name (r_cfg r)) = Some x /\ boots g (n_name (r_cfg r), r_desc r, r_dk r) x.
Proof.
  intros V S Se. destruct (sv_live _ _ _ V i r S) as (x & Dx & Cx & U & Co & De). exists x. split; [exact Dx|]. rewrite <- Cx in *.
  apply disk_boots; auto. apply (holds_disk g i (est_of w r) x U). exact Se.
Qed.

Lemma restart_step g ord w D : SrvInv g w D -> covered g (SRestart ord) w ->
  exists w', boot g ord = Some w' /\ SrvInv g w' (after_restart D).
Proof.
  intros V (Pm & Ed & Se). apply boot_ok.
  - eapply Permutation_NoDup; [apply Permutation_map; apply Permutation_sym; exact Pm|]. rewrite stored_names.
    apply names_nodup. intros i j r r'. apply (sv_uniq _ _ _ V).
  - intros n x Dn. destruct (sv_have _ _ _ V n x Dn) as (i & r & S & Nr).
    eapply Permutation_in; [apply Permutation_map; apply Permutation_sym; exact Pm|]. rewrite stored_names. apply names_in. exists i, r. auto.
  - exact Ed.
  - apply Forall_forall. intros s I. apply (Permutation_in _ Pm) in I. apply stored_in in I. destruct I as (i & r & S & ->).
    exact (live_boots g w D i r V S (Se i r S)).
Qed.

(* ---- runs ---- *)

Lemma event_step g e w D out st w' : server_ok g -> SrvInv g w D -> covered g e w -> run_sevent g e w = SDone out st w' ->
  exists D', dir_event g e w out D D' /\ SrvInv g w' D'.
Proof.
  intros G V Cv H. destruct e as [fd|fd|fd v argv|now old|ord]; cbn [run_sevent] in H.
  - exists D. split; [reflexivity|]. unfold connect in H. destruct (client_at fd w); [discriminate|]. injection H as <- <- <-. apply (sv_ext g w); auto.
  - exists D. split; [reflexivity|]. unfold close in H. injection H as <- <- <-. apply (sv_ext g w); auto.
  - exact (request_step g v fd argv w D out st w' G V Cv H).
  - exists D. split; [reflexivity|]. exact (idle_step g now old w D out st w' G V Cv H).
  - exists (after_restart D). split; [reflexivity|]. destruct (restart_step g ord w D V Cv) as (w2 & B & V2). rewrite B in H. injection H as _ _ <-. exact V2.
Qed.

Lemma events_run g es : server_ok g -> forall w D outs w', SrvInv g w D -> all_covered g es w -> run_sevents g es w = Some (outs, w') ->
  exists D', dir_run g es w outs D D' /\ SrvInv g w' D'.
Proof.
  intro G. induction es as [|e es IH]; intros w D outs w' V Cv H; cbn [run_sevents all_covered] in *.
  - injection H as <- <-. exists D. split; [reflexivity|exact V].
  - destruct Cv as (C1 & C2). destruct (run_sevent g e w) as [out st w1|] eqn:E; [|discriminate].
    destruct (run_sevents g es w1) as [[o w2]|] eqn:R; [|discriminate]. injection H as <- <-.
    destruct (event_step g e w D out st w1 G V C1 E) as (D1 & A & V1). destruct (IH w1 D1 o w2 V1 C2 R) as (D2 & B & V2).
    exists D2. split; [|exact V2]. cbn [dir_run]. exists st, w1, D1. auto.
Qed.

Lemma first_ok g : server_ok g -> exists w, first_boot g = Some w /\ SrvInv g w (only_default g).
Proof.
  intro G. unfold first_boot, boot. cbn [load_all].
  destruct (ns_load_new g 0 NAMESPACE_DEFAULT empty_table G (tinv_empty 0)) as (r & L & C & De & U); [vm_compute; discriminate|].
  destruct (descriptor_load NAMESPACE_DEFAULT []) eqn:Dl; [|discriminate Dl]. rewrite L. eexists. split; [reflexivity|].
  assert (Sl : forall j, slot j (mkWorld empty_table [Some r] (nlen [Some r]) []) = if j =? 0 then Some r else None).
  { intro j. rewrite slot_oget. cbn [w_slots]. rewrite oget_cons. destruct (j =? 0); reflexivity. }
  split.
  - intros i r'. rewrite Sl. destruct (N.eqb_spec i 0) as [->|]; [|discriminate]. intro H. injection H as <-. exists (new_entry g NAMESPACE_DEFAULT).
    rewrite C. split; [reflexivity|]. split; [reflexivity|]. split; [exact U|]. split; [apply fresh_conf_ok; vm_compute; discriminate|]. rewrite C in De. exact De.
  - intros n x H. unfold only_default, dset in H. destruct (bseqb n (str "default")) eqn:E; [|discriminate]. apply bseqb_eq in E. subst n.
    exists 0, r. rewrite Sl, C. split; reflexivity.
  - intros i j r1 r2. rewrite !Sl. destruct (N.eqb_spec i 0), (N.eqb_spec j 0); intros; try discriminate. lia.
  - exists r. rewrite Sl, C. split; reflexivity.
  - reflexivity.
  - intros i _. apply tinv_empty.
Qed.

Lemma server_run g es outs w0 w : server_ok g -> first_boot g = Some w0 -> all_covered g es w0 -> run_sevents g es w0 = Some (outs, w) ->
  exists D, dir_run g es w0 outs (only_default g) D /\ SrvInv g w D.
Proof.
  intros G B Cv R. destruct (first_ok g G) as (w1 & B1 & V). rewrite B in B1. injection B1 as <-. eapply events_run; eassumption.
Qed.
