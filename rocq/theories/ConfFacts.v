(* PROOFS for C30: the settings of the namespaces, for any events. *)
From Coq Require Import Strings.String Strings.Byte List NArith ZArith Bool Lia ZifyBool ZifyN ZifyNat Sorting.Permutation.
From Verif Require Import Bytes BytesFacts Layout Store Text TextFacts Commands SpecKV Machine
  TableFacts FrameFacts Sha1 Dispatch Namespace System Resp Server SpecAuth AuthFacts SpecServer IsolFacts SrvInv SrvRun NamesFacts.
Import ListNotations.
Open Scope N_scope.
Local Notation length := List.length.

Record CfInv (w : world) (C : confset) : Prop := {
  cf_live : forall i r, slot i w = Some r -> C (n_name (r_cfg r)) = Some (r_cfg r) /\ conf_ok (r_cfg r) /\ desc_ok (r_cfg r) (r_desc r);
  cf_have : forall n x, C n = Some x -> exists i r, slot i w = Some r /\ n_name (r_cfg r) = n
}.

Lemma cf_confs w w' C : confs w' = confs w -> CfInv w C -> CfInv w' C.
Proof.
  intros E V. split.
  - intros i r S. pose proof (confs_slot w w' i E) as K. rewrite S in K. destruct (slot i w) as [r0|] eqn:S0; [|discriminate].
    cbn [conf option_map] in K. injection K as -> ->. apply (cf_live _ _ V i r0 S0).
  - intros n x H. destruct (cf_have _ _ V n x H) as (i & r & S & N). pose proof (confs_slot w w' i E) as K. rewrite S in K.
    destruct (slot i w') as [r0|] eqn:S0; [|discriminate]. cbn [conf option_map] in K. injection K as K1 K2. exists i, r0. split; [exact S0|congruence].
Qed.

Lemma cput_same n o C : cput n o C n = o.
Proof. unfold cput. rewrite bseqb_refl. reflexivity. Qed.
Lemma cput_other n m o C : m <> n -> cput n o C m = C m.
Proof. intro H. unfold cput. rewrite bseqb_neq by exact H. reflexivity. Qed.

Lemma get_conf w C n : CfInv w C ->
  match namespace_get n w with
  | Some (i, r) => slot i w = Some r /\ n_name (r_cfg r) = n /\ C n = Some (r_cfg r)
  | None => C n = None
  end.
Proof.
  intro V. destruct (namespace_get n w) as [[i r]|] eqn:G.
  - apply get_slot in G. destruct G as (Si & <-). split; [exact Si|]. split; [reflexivity|]. apply (cf_live _ _ V i r Si).
  - destruct (C n) as [x|] eqn:E; [|reflexivity]. destruct (cf_have _ _ V n x E) as (i & r & Si & N). exfalso. exact (find_none n _ 0 G i r Si N).
Qed.

Lemma load_fresh smode i name d t t' r : blen name <= 128 -> namespace_load smode i name [] d t = Some (t', r) ->
  r_cfg r = fresh_conf name /\ desc_ok (r_cfg r) (r_desc r).
Proof.
  intros L H. unfold namespace_load in H. destruct (load_first name L) as (de & E & K). rewrite E in H. destruct (store_open _ _ _ _); [|discriminate].
  injection H as _ <-. split; [reflexivity|exact K].
Qed.

Lemma nsnew_conf g cl argv w C rep st w' : CfInv w C -> command_nsnew g (perm_of cl) argv w = Done rep st w' ->
  exists C', conf_request cl CNsnew argv rep C C' /\ CfInv w' C'.
Proof.
  intros V H. unfold command_nsnew in H. apply guard_spec in H. cbn [perm_of p_admin] in H. cbv beta iota delta [conf_request]. cbv zeta.
  assert (Er : forall rep, is_error rep -> exists C', C' = (if bseqb rep (enc_reply ROk) then cput (text (arg 1 argv)) (Some (fresh_conf (text (arg 1 argv)))) C else C) /\ CfInv w C').
  { intros rp E. rewrite (error_not_ok _ E). exists C. split; [reflexivity|exact V]. }
  destruct H as [(F & H)|(F & E & ->)]; [|apply Er; exact E].
  rewrite text_cstr in H. destruct (negb (namespace_valid_name _)); [done_inv H; apply Er, hardsend_error|].
  pose proof (get_conf w C (text (arg 1 argv)) V) as Gd. destruct (namespace_get _ w) as [[i r]|]; [done_inv H; apply Er, hardsend_error|].
  destruct (_ =? 0); [discriminate|]. destruct (namespace_load _ _ _ _ _ _) as [[t r]|] eqn:L; [|discriminate].
  assert (Fm : form 2 argv = true) by (destruct (c_admin cl); [exact F|discriminate]). apply form_short in Fm.
  destruct (load_fresh _ _ _ _ _ _ _ Fm L) as (Cr & Dr). done_inv H. set (k := free_slot 0 (w_slots w)). set (w' := mkWorld _ _ _ _).
  assert (Sl : forall j, slot j w' = if j =? k then Some r else slot j w).
  { intro j. unfold w'. rewrite !slot_oget. cbn [w_slots]. apply push_at. reflexivity. }
  assert (Fr : slot k w = None) by (rewrite slot_oget; apply free_none).
  change (bseqb (hardsend "+OK") (enc_reply ROk)) with true. cbv iota. eexists. split; [reflexivity|]. split.
  - intros j rj. rewrite Sl. destruct (j =? k).
    + intro G. injection G as <-. rewrite Cr in *. cbn [n_name fresh_conf]. rewrite cput_same. split; [reflexivity|]. split; [apply fresh_conf_ok; exact Fm|exact Dr].
    + intro G. pose proof (cf_live _ _ V j rj G) as K. rewrite cput_other; [exact K|]. intro E. destruct K as (K & _). rewrite E, Gd in K. discriminate.
  - intros n x Hn. destruct (bseqb n (text (arg 1 argv))) eqn:E.
    + apply bseqb_eq in E. subst n. exists k, r. rewrite Sl, N.eqb_refl. split; [reflexivity|]. rewrite Cr. reflexivity.
    + rewrite cput_other in Hn by (intros ->; rewrite bseqb_refl in E; discriminate). destruct (cf_have _ _ V n x Hn) as (j & rj & G & Nj).
      exists j, rj. rewrite Sl. destruct (N.eqb_spec j k) as [->|]; [congruence|auto].
Qed.

Lemma nsdel_conf cl me argv w S C rep st w' : NmInv w S -> CfInv w C -> command_nsdel (perm_of cl) me argv w = Done rep st w' ->
  exists C', conf_request cl CNsdel argv rep C C' /\ CfInv w' C'.
Proof.
  intros Vn V H. unfold command_nsdel in H. apply guard_spec in H. cbn [perm_of p_admin] in H. cbv beta iota delta [conf_request]. cbv zeta.
  assert (Er : forall rep, is_error rep -> exists C', C' = (if bseqb rep (enc_reply ROk) then cput (text (arg 1 argv)) None C else C) /\ CfInv w C').
  { intros rp E. rewrite (error_not_ok _ E). exists C. split; [reflexivity|exact V]. }
  destruct H as [(F & H)|(F & E & ->)]; [|apply Er; exact E].
  rewrite text_cstr in H. destruct (bseqb (text (arg 1 argv)) NAMESPACE_DEFAULT); [done_inv H; apply Er, hardsend_error|].
  pose proof (get_conf w C (text (arg 1 argv)) V) as Gd. destruct (namespace_get _ w) as [[k rk]|]; [|done_inv H; apply Er, hardsend_error].
  destruct Gd as (Sk & Nk & _). destruct (match me with Some j => j =? k | None => false end); [done_inv H; apply Er, hardsend_error|].
  done_inv H. set (w' := mkWorld _ _ _ _).
  assert (Sl : forall j, slot j w' = if j =? k then None else slot j w).
  { intro j. unfold w'. rewrite !slot_oget. cbn [w_slots]. rewrite oget_nset, (N.eqb_sym j). rewrite slot_oget in Sk. apply oget_lt in Sk.
    replace (k <? _) with true by lia. rewrite andb_true_r. reflexivity. }
  change (bseqb (hardsend "+OK") (enc_reply ROk)) with true. cbv iota. eexists. split; [reflexivity|]. split.
  - intros j rj. rewrite Sl. destruct (N.eqb_spec j k) as [->|J]; [discriminate|]. intro G. rewrite cput_other; [apply (cf_live _ _ V j rj G)|].
    intro E. apply J. apply (nm_uniq _ _ Vn j k rj rk G Sk). congruence.
  - intros n x Hn. destruct (bseqb n (text (arg 1 argv))) eqn:E.
    + apply bseqb_eq in E. subst n. rewrite cput_same in Hn. discriminate.
    + rewrite cput_other in Hn by (intros ->; rewrite bseqb_refl in E; discriminate). destruct (cf_have _ _ V n x Hn) as (j & rj & G & Nj).
      exists j, rj. rewrite Sl. destruct (N.eqb_spec j k) as [->|]; [|auto]. exfalso. rewrite Sk in G. injection G as <-. rewrite <- Nj, Nk, bseqb_refl in E. discriminate.
Qed.

Lemma cf_put w S C k r r' w' x : NmInv w S -> CfInv w C -> slot k w = Some r -> n_name (r_cfg r') = n_name (r_cfg r) ->
  w_slots w' = nset k (Some r') (w_slots w) -> r_cfg r' = x -> conf_ok x -> desc_ok x (r_desc r') ->
  CfInv w' (cput (n_name (r_cfg r)) (Some x) C).
Proof.
  intros Vn V Sk Nk Ew <- Co De.
  assert (Sl : forall j, slot j w' = if j =? k then Some r' else slot j w).
  { intro j. rewrite !slot_oget, Ew, oget_nset, (N.eqb_sym j). rewrite slot_oget in Sk. apply oget_lt in Sk.
    replace (k <? _) with true by lia. rewrite andb_true_r. reflexivity. }
  split.
  - intros j rj. rewrite Sl. destruct (N.eqb_spec j k) as [->|J].
    + intro G. injection G as <-. rewrite Nk, cput_same. auto.
    + intro G. rewrite cput_other; [apply (cf_live _ _ V j rj G)|]. intro E. apply J. apply (nm_uniq _ _ Vn j k rj r G Sk). exact E.
  - intros n y Hn. destruct (bseqb n (n_name (r_cfg r))) eqn:E.
    + apply bseqb_eq in E. subst n. exists k, r'. rewrite Sl, N.eqb_refl. auto.
    + rewrite cput_other in Hn by (intros ->; rewrite bseqb_refl in E; discriminate). destruct (cf_have _ _ V n y Hn) as (j & rj & G & Nj).
      exists j. rewrite Sl. destruct (N.eqb_spec j k) as [->|]; [|exists rj; auto]. exists r'. split; [reflexivity|]. congruence.
Qed.

Lemma nsset_conf g cl argv w S C rep st w' : NmInv w S -> CfInv w C ->
  (text (arg 2 argv) = str "password" -> text (arg 3 argv) <> []) ->
  command_nsset g (perm_of cl) argv w = Done rep st w' ->
  exists C', conf_request cl CNsset argv rep C C' /\ CfInv w' C'.
Proof.
  intros Vn V Pw H. unfold command_nsset in H. apply guard_spec in H. cbn [perm_of p_admin] in H. cbv beta iota delta [conf_request]. cbv zeta.
  assert (Er : forall rep, is_error rep -> exists C', (is_error rep /\ C' = C) /\ CfInv w C').
  { intros rp E. exists C. split; [split; [exact E|reflexivity]|exact V]. }
  destruct H as [(F & H)|(F & E & ->)]; [|rewrite F; cbn [andb]; destruct (C _); apply Er; exact E].
  rewrite F. cbn [andb]. unfold args_overflow, COMMAND_MAXLEN in H.
  destruct (N.ltb_spec 256 (blen (arg 2 argv))) as [L2|L2].
  { replace (_ <=? _) with false by lia. done_inv H. destruct (C _); apply Er, hardsend_error. }
  replace (blen (arg 2 argv) <=? 256) with true by lia. cbn [andb].
  destruct (N.ltb_spec 63 (blen (arg 3 argv))) as [L3|L3].
  { replace (_ <=? _) with false by lia. done_inv H. destruct (C _); apply Er, hardsend_error. }
  replace (blen (arg 3 argv) <=? 63) with true by lia.
  unfold sprint_max in H. destruct (_ <? COMMAND_MAXLEN); [|discriminate]. rewrite !text_cstr in H.
  pose proof (get_conf w C (text (arg 1 argv)) V) as Gd. destruct (namespace_get _ w) as [[k r]|].
  2:{ rewrite Gd. done_inv H. apply Er, hardsend_error. }
  destruct Gd as (Sk & Nk & Cx). rewrite Cx. destruct (cf_live _ _ V k r Sk) as (_ & Co & De). unfold word at 1.
  destruct (bseqb (text (arg 2 argv)) (str "mode")) eqn:Em.
  - exists C. split; [reflexivity|]. destruct (nsset_mode _ _ _) as [err|s']; done_inv H; [exact V|].
    assert (E : forall n, cput (n_name (r_cfg r)) (Some (r_cfg r)) C n = C n).
    { intro n. unfold cput. destruct (bseqb n _) eqn:E; [|reflexivity]. apply bseqb_eq in E. subst n. rewrite Nk. symmetry. exact Cx. }
    assert (V' : CfInv (put_est k (mkNs (r_cfg r) (namespace_commit (r_cfg r) (r_desc r)) (r_ix r) (r_dt r) (r_dk r)) s' w) (cput (n_name (r_cfg r)) (Some (r_cfg r)) C)).
    { eapply cf_put; [exact Vn|exact V|exact Sk| |unfold put_est; cbn [w_slots]; reflexivity|reflexivity|exact Co|]; [reflexivity|].
      cbn [r_desc]. apply commit_ok. exact Co. }
    split; [intros i ri Si; rewrite <- E; apply (cf_live _ _ V' i ri Si)|]. intros n x Hn. rewrite <- E in Hn. exact (cf_have _ _ V' n x Hn).
  - rewrite <- Nk in H. pose proof (setting_apply (text (arg 2 argv)) (text (arg 3 argv)) (r_cfg r)) as Ap.
    destruct (nsset_apply _ _ _ _) as [err|c'].
    { destruct Ap as (Ap & E). rewrite Ap. done_inv H. apply Er, E. }
    rewrite Ap. done_inv H. eexists. split; [split; reflexivity|].
    destruct (setting_ok _ _ _ _ Co Ap) as (Co' & Nc); [pose proof (text_short (arg 3 argv)); lia|apply text_text|exact Pw|].
    rewrite <- Nk. eapply cf_put; [exact Vn|exact V|exact Sk| |unfold put_slot; cbn [w_slots]; reflexivity|reflexivity|exact Co'|].
    + exact Nc.
    + cbn [r_desc r_cfg]. apply commit_ok. exact Co'.
Qed.

Lemma handle_conf g v fd cl i r c argv w S C rep st w' : NmInv w S -> CfInv w C -> slot i w = Some r ->
  (c = CNsset -> text (arg 2 argv) = str "password" -> text (arg 3 argv) <> []) ->
  handle g v fd cl i r c argv w = Done rep st w' -> exists C', conf_request cl c argv rep C C' /\ CfInv w' C'.
Proof.
  intros Vn V Si Pw H. destruct (ns_cmd c) eqn:Nc.
  - destruct c; try discriminate Nc.
    + eapply nsnew_conf; [exact V|exact H].
    + eapply nsdel_conf; [exact Vn|exact V|exact H].
    + eapply nsset_conf; [exact Vn|exact V|apply Pw; reflexivity|exact H].
  - destruct (handle_confs g v fd cl i r c argv w rep st w' Nc Si H) as (A & _). exists C. split; [|exact (cf_confs _ _ _ A V)].
    destruct c; try discriminate Nc; reflexivity.
Qed.

Lemma load_all_in smode : forall l i t t' slots, load_all smode i l t = Some (t', slots) ->
  (forall j r, oget j slots = Some r -> exists s, In s l /\ descriptor_load (fst (fst s)) (snd (fst s)) = Some (r_cfg r, r_desc r)) /\
  (forall s, In s l -> descriptor_load (fst (fst s)) (snd (fst s)) <> None -> exists j r, oget j slots = Some r /\ descriptor_load (fst (fst s)) (snd (fst s)) = Some (r_cfg r, r_desc r)).
Proof.
  induction l as [|((name, desc), d) l IH]; intros i t t' slots H; cbn [load_all] in H.
  { injection H as <- <-. split; [intros j r G; discriminate|intros s []]. }
  destruct (descriptor_load name desc) eqn:Dl.
  2:{ destruct (IH _ _ _ _ H) as (B1 & B2). split.
      - intros j r G. destruct (B1 j r G) as (s & I & E). exists s. split; [right; exact I|exact E].
      - intros s [<-|I] Ne; [contradiction|exact (B2 s I Ne)]. }
  destruct (namespace_load _ _ _ _ _ _) as [[t1 r]|] eqn:L; [|discriminate]. destruct (load_all _ _ _ _) as [[t2 rs]|] eqn:A; [|discriminate].
  injection H as <- <-. destruct (IH _ _ _ _ A) as (B1 & B2). clear Dl p.
  assert (De : descriptor_load name desc = Some (r_cfg r, r_desc r)).
  { unfold namespace_load in L. destruct (descriptor_load name desc) as [[c de]|]; [|discriminate]. destruct (store_open _ _ _ _); [|discriminate].
    injection L as _ <-. reflexivity. }
  split.
  - intros j r0. rewrite oget_cons. destruct (j =? 0); intro G.
    + injection G as <-. exists (name, desc, d). split; [left; reflexivity|exact De].
    + destruct (B1 _ _ G) as (s & I & E). exists s. split; [right; exact I|exact E].
  - intros s [<-|I] Ne.
    + exists 0, r. split; [reflexivity|exact De].
    + destruct (B2 s I Ne) as (j & r0 & G & E). exists (j + 1), r0. rewrite oget_cons. replace (_ =? 0) with false by lia. replace (N.pred (j + 1)) with j by lia. auto.
Qed.

Lemma restart_conf g ord w C w' : CfInv w C -> Permutation ord (stored_of w) -> boot g ord = Some w' ->
  CfInv w' (fun n => option_map unlocked (C n)).
Proof.
  intros V Pm B. apply boot_inv in B. destruct B as (nm0 & de0 & dk0 & l0 & x0 & t & sl & _ & _ & L & ->).
  destruct (load_all_in _ _ _ _ _ _ L) as (A1 & A2). split.
  - intros j r G. rewrite slot_oget in G. cbn [w_slots] in G. destruct (A1 j r G) as (s & I & E). apply (Permutation_in _ Pm) in I. apply stored_in in I.
    destruct I as (i & ri & Si & ->). cbn [fst snd] in E. destruct (cf_live _ _ V i ri Si) as (Cx & Co & De). rewrite (proj1 De) in E. injection E as Ec Ed.
    rewrite <- Ec, <- Ed. cbn [unlocked n_name]. rewrite Cx. split; [reflexivity|]. split; [exact Co|exact De].
  - intros n x Hn. destruct (C n) as [y|] eqn:E; [|discriminate]. destruct (cf_have _ _ V n y E) as (i & r & Si & Nr).
    assert (I : In (n_name (r_cfg r), r_desc r, r_dk r) ord).
    { apply (Permutation_in _ (Permutation_sym Pm)). unfold stored_of. apply in_flat_map. exists (Some r). split; [|left; reflexivity].
      rewrite slot_oget in Si. unfold oget in Si. destruct (nget i (w_slots w)) as [o|] eqn:G; [|discriminate]. subst o. eapply nget_In. exact G. }
    destruct (A2 _ I) as (j & rj & G & D); [cbn [fst snd]; destruct (cf_live _ _ V i r Si) as (_ & _ & De); rewrite (proj1 De); discriminate|]. exists j, rj. split; [exact G|]. cbn [fst snd] in D.
    destruct (cf_live _ _ V i r Si) as (_ & _ & De). rewrite (proj1 De) in D. injection D as Ec _. rewrite <- Ec. exact Nr.
Qed.

Lemma event_conf g e w S C out st w' : NmInv w S -> CfInv w C -> set_ok e w -> run_sevent g e w = SDone out st w' ->
  exists C', conf_event e w out C C' /\ CfInv w' C'.
Proof.
  intros Vn V (Ho & Pw) R. destruct e as [fd|fd|fd v argv|now old|ord]; cbn [run_sevent] in R; cbn [conf_event].
  - unfold connect in R. destruct (client_at fd w); [discriminate|]. injection R as <- <- <-. exists C. split; [reflexivity|apply (cf_confs w); [reflexivity|exact V]].
  - unfold close in R. injection R as <- <- <-. exists C. split; [reflexivity|apply (cf_confs w); [reflexivity|exact V]].
  - apply request_inv in R. destruct R as (cl & Cl & H). destruct H as [(-> & ->)|(rep & w1 & o1 & Di & P & ->)].
    { exists C. split; [|exact V]. exists cl. split; [exact Cl|]. left. split; reflexivity. }
    apply posthandler_world in P. destruct P as (_ & P2 & _ & _).
    assert (Ex : forall w2 C2, w_slots w2 = w_slots w1 -> CfInv w2 C2 -> CfInv w' C2) by (intros w2 C2 E; apply cf_confs; unfold confs; rewrite P2, E; reflexivity).
    apply dispatch_inv in Di. destruct Di as [(N & -> & E)|(i & r & Ci & Si & Di)].
    { exists C. split; [|exact (Ex w C eq_refl V)]. exists cl. split; [exact Cl|]. right. exists rep, o1. split; [reflexivity|]. rewrite N. auto. }
    destruct Di as [(L & -> & E)|(h & c & L & Di)].
    { exists C. split; [|exact (Ex w C eq_refl V)]. exists cl. split; [exact Cl|]. right. exists rep, o1. split; [reflexivity|]. rewrite Ci, L. auto. }
    set (cl' := c_set_exec (Some h) cl) in *. set (w0 := put_client fd cl' w) in *.
    assert (Vn0 : NmInv w0 S) by (apply (calm_inv w); [apply (put_calm fd cl cl' w Cl eq_refl)|exact Vn]).
    destruct (handle_conf g v fd cl' i r c (effective cl argv) w0 S C rep st w1 Vn0 (cf_confs w w0 C (eq_refl (confs w)) V) Si) as (C' & A & B); [|exact Di|].
    { intros ->. exact (Pw cl h Cl L). }
    exists C'. split; [|exact (Ex w1 C' eq_refl B)]. exists cl. split; [exact Cl|]. right. exists rep, o1. split; [reflexivity|]. rewrite Ci, L. exact A.
  - exists C. split; [reflexivity|]. apply (cf_confs w); [|exact V]. unfold idle in R. destruct (watch_timeout _ _ _) as [o l]. injection R as <- <- <-.
    destruct (v_rotate g); [|reflexivity]. destruct (rotate_frame old (upto (length (w_slots w)) 0) (mkWorld (w_tb w) (w_slots w) (w_eff w) l)) as (_ & _ & Rf).
    rewrite Rf. reflexivity.
  - destruct (boot g ord) as [w1|] eqn:B; [|discriminate]. injection R as <- <- <-. eexists. split; [reflexivity|].
    eapply restart_conf; [exact V| |exact B]. destruct Ho as (Pm & _). exact Pm.
Qed.

Lemma events_conf g es : forall w S C outs w', NmInv w S -> CfInv w C -> all_set_ok g es w -> run_sevents g es w = Some (outs, w') ->
  exists C', conf_run g es w outs C C' /\ CfInv w' C'.
Proof.
  induction es as [|e es IH]; intros w S C outs w' Vn V Ho R; cbn [run_sevents] in R.
  - injection R as <- <-. exists C. split; [reflexivity|exact V].
  - destruct (run_sevent g e w) as [out st w1|] eqn:E; [|discriminate]. destruct (run_sevents g es w1) as [[os w2]|] eqn:R2; [|discriminate].
    injection R as <- <-. cbn [all_set_ok] in Ho. destruct Ho as (Ho & Hr). rewrite E in Hr.
    destruct (event_conf g e w S C out st w1 Vn V Ho E) as (C1 & N1 & V1). destruct (event_names g e w S out st w1 Vn (proj1 Ho) E) as (S1 & _ & Vn1 & _).
    destruct (IH w1 S1 C1 os w2 Vn1 V1 Hr R2) as (C' & A & B). exists C'. split; [|exact B]. cbn [conf_run]. exists st, w1, C1. auto.
Qed.

Lemma first_conf g w : first_boot g = Some w -> CfInv w (cput (str "default") (Some (fresh_conf (str "default"))) (fun _ => None)).
Proof.
  intro B. destruct (first_boot_eq g) as (ord & Eo & Eb). rewrite Eb in B. clear Eb. apply boot_inv in B.
  destruct B as (nm0 & de0 & dk0 & l0 & x0 & t & sl & _ & _ & L & ->).
  destruct (load_all_in _ _ _ _ _ _ L) as (A1 & A2). destruct (load_first (str "default")) as (de & E & K); [vm_compute; discriminate|].
  split.
  - intros j r G. destruct (A1 j r G) as (s & Hs & D). rewrite Eo in Hs. destruct Hs as [<-|[]]. cbn [fst snd] in D. rewrite E in D. injection D as <- <-.
    split; [apply cput_same|]. split; [apply fresh_conf_ok; vm_compute; discriminate|exact K].
  - intros n x Hn. unfold cput in Hn. destruct (bseqb n _) eqn:Q; [|discriminate]. apply bseqb_eq in Q. subst n.
    rewrite Eo in A2. destruct (A2 _ (or_introl eq_refl)) as (j & r & G & D); [cbn [fst snd]; rewrite E; discriminate|]. cbn [fst snd] in D. rewrite E in D. injection D as Ec _.
    exists j, r. split; [exact G|]. rewrite <- Ec. reflexivity.
Qed.

Lemma confs_all g es w0 outs w : first_boot g = Some w0 -> all_set_ok g es w0 -> run_sevents g es w0 = Some (outs, w) ->
  exists C, conf_run g es w0 outs (cput (str "default") (Some (fresh_conf (str "default"))) (fun _ => None)) C /\
    (forall i r, slot i w = Some r -> C (n_name (r_cfg r)) = Some (r_cfg r)) /\
    (forall n x, C n = Some x -> exists i r, slot i w = Some r /\ n_name (r_cfg r) = n).
Proof.
  intros B Ho R. destruct (first_names g w0 B) as (Vn & _). destruct (events_conf g es w0 _ _ outs w Vn (first_conf g w0 B) Ho R) as (C & A & V).
  exists C. split; [exact A|]. split; [intros i r Si; apply (cf_live _ _ V i r Si)|apply (cf_have _ _ V)].
Qed.

(* a test, for the examples *)
Definition set_okb (e : sevent) (w : world) : bool :=
  match e with
  | SRequest fd v argv =>
      match client_at fd w with
      | None => true
      | Some cl => match lookup_handler (arg 0 (effective cl argv)) with
                   | Some (_, CNsset) => negb (bseqb (text (arg 2 (effective cl argv))) (str "password")) || negb (blen (text (arg 3 (effective cl argv))) =? 0)
                   | _ => true
                   end
      end
  | SRestart _ => false
  | _ => true
  end.

Lemma set_okb_ok e w : set_okb e w = true -> set_ok e w.
Proof.
  destruct e as [fd|fd|fd v argv|now old|ord]; cbn [set_okb]; intro H; split; cbn [honest]; auto; try discriminate.
  intros cl h C L E. rewrite C, L, E, bseqb_refl in H. intro Z. rewrite Z in H. discriminate.
Qed.

Fixpoint all_set_okb (g : server) (es : list sevent) (w : world) : bool :=
  match es with
  | [] => true
  | e :: r => set_okb e w && match run_sevent g e w with SDone _ _ w1 => all_set_okb g r w1 | SUndef => true end
  end.

Lemma all_set_okb_ok g es : forall w, all_set_okb g es w = true -> all_set_ok g es w.
Proof.
  induction es as [|e es IH]; intros w H; cbn [all_set_okb all_set_ok] in *; [exact I|]. apply andb_true_iff in H. destruct H as (A & B).
  split; [apply set_okb_ok; exact A|]. destruct (run_sevent g e w); [apply IH; exact B|exact I].
Qed.

Lemma all_set_ok_app g es es' : forall w outs w1, all_set_ok g es w -> run_sevents g es w = Some (outs, w1) -> all_set_ok g es' w1 ->
  all_set_ok g (es ++ es') w.
Proof.
  induction es as [|e es IH]; intros w outs w1 A R B; cbn [run_sevents all_set_ok app] in *; [injection R as <- <-; exact B|].
  destruct A as (A1 & A2). split; [exact A1|]. destruct (run_sevent g e w) as [out st w2|]; [|exact I].
  destruct (run_sevents g es w2) as [[o w3]|] eqn:R2; [|discriminate]. injection R as <- <-. eapply IH; eassumption.
Qed.

(* ---- the numbers ---- *)

Lemma blank_space b : blank b -> is_space b = true.
Proof. unfold blank. cbn [In]. intros H. repeat destruct H as [<-|H]; try reflexivity. contradiction. Qed.

Lemma skip_blanks sp l : Forall blank sp -> skip_space (sp ++ l) = skip_space l.
Proof. induction 1 as [|b sp B _ IH]; [reflexivity|]. cbn [app skip_space]. rewrite (blank_space _ B). exact IH. Qed.

Lemma parse_until l rest : forallb is_digit l = true -> no_digit rest -> forall acc, parse_digits (l ++ rest) acc = parse_digits l acc.
Proof.
  intros H R. induction l as [|b l IH]; intros acc; cbn [app parse_digits forallb] in *.
  - destruct rest as [|b t]; [reflexivity|]. cbn [parse_digits no_digit] in *. unfold is_digit. replace (_ && _) with false by lia. reflexivity.
  - apply andb_true_iff in H. destruct H as [Hb Hl]. rewrite Hb. apply IH. exact Hl.
Qed.

Lemma atoll_num sp n rest : Forall blank sp -> no_digit rest ->
  atoll (sp ++ dec n ++ rest) = Z.min 9223372036854775807 (Z.of_N n) /\
  atoll (sp ++ str "+" ++ dec n ++ rest) = Z.min 9223372036854775807 (Z.of_N n) /\
  atoll (sp ++ str "-" ++ dec n ++ rest) = Z.max (-9223372036854775808) (- Z.of_N n).
Proof.
  intros S R. unfold atoll. rewrite (skip_blanks sp (dec n ++ rest)), (skip_blanks sp (str "+" ++ dec n ++ rest)), (skip_blanks sp (str "-" ++ dec n ++ rest)) by exact S.
  pose proof (parse_until (dec n) rest (dec_all n) R 0) as P. rewrite parse_dec in P.
  split; [|split].
  - pose proof (dec_all n) as A. pose proof (dec_nonempty n) as Hn. destruct (dec n) as [|b l]; [congruence|].
    cbn [forallb] in A. apply andb_true_iff in A. destruct A as [Hb _]. unfold is_digit in Hb. cbn [app skip_space].
    assert (Hs : is_space b = false) by (unfold is_space; lia). rewrite Hs.
    destruct (N.eqb_spec (b2n b) 45); [lia|]. destruct (N.eqb_spec (b2n b) 43); [lia|]. cbn [app] in P. rewrite P. reflexivity.
  - change (str "+" ++ dec n ++ rest) with (x2b :: dec n ++ rest). cbn [skip_space]. change (is_space x2b) with false. cbv iota.
    change (b2n x2b =? 45) with false. change (b2n x2b =? 43) with true. cbv iota. rewrite P. reflexivity.
  - change (str "-" ++ dec n ++ rest) with (x2d :: dec n ++ rest). cbn [skip_space]. change (is_space x2d) with false. cbv iota.
    change (b2n x2d =? 45) with true. cbv iota. rewrite P. reflexivity.
Qed.

Lemma cstr_num sp n rest : Forall blank sp -> no_digit rest -> exists rest', no_digit rest' /\ cstr (sp ++ dec n ++ rest) = sp ++ dec n ++ rest'.
Proof.
  intros S R.
  assert (H : exists rest', no_digit rest' /\ cstr (dec n ++ rest) = dec n ++ rest').
  { pose proof (dec_all n) as A. revert A. generalize (dec n) as l. induction l as [|b l IH]; intros A.
    - cbn [app]. destruct rest as [|b t]; [exists []; auto|]. cbn [cstr]. destruct (b2n b =? 0); [exists []|exists (b :: cstr t)]; auto. split; [exact I|reflexivity].
    - cbn [forallb] in A. apply andb_true_iff in A. destruct A as [Hb A]. destruct (IH A) as (r & H1 & H2). exists r. split; [exact H1|].
      cbn [app cstr]. unfold is_digit in Hb. destruct (N.eqb_spec (b2n b) 0); [lia|]. rewrite H2. reflexivity. }
  destruct H as (r & H1 & H2). exists r. split; [exact H1|]. induction S as [|b sp B S IH]; [exact H2|].
  cbn [app cstr]. pose proof (blank_space _ B) as X. unfold is_space in X. destruct (N.eqb_spec (b2n b) 0); [lia|]. rewrite IH. reflexivity.
Qed.

Lemma numbers n c sp rest : bseqb (n_name c) (str "default") = false -> Forall blank sp -> no_digit rest ->
  option_map n_maxsize (setting (str "maxsize") (sp ++ dec n ++ rest) c) = Some (N.min n 9223372036854775807) /\
  option_map n_maxsize (setting (str "maxsize") (sp ++ str "+" ++ dec n ++ rest) c) = Some (N.min n 9223372036854775807) /\
  option_map n_maxsize (setting (str "maxsize") (sp ++ str "-" ++ dec n ++ rest) c)
    = Some ((18446744073709551616 - N.min n 9223372036854775808) mod 18446744073709551616) /\
  number (sp ++ dec n ++ rest) = N.min n 9223372036854775807 mod 4294967296.
Proof.
  intros H S R. destruct c as [name pass public worm maxsize lock]. cbn [n_name] in H. unfold setting.
  change (word (str "maxsize") "lock") with false. change (word (str "maxsize") "freeze") with false. rewrite H.
  change (word (str "maxsize") "maxsize") with true. cbv iota. cbn [option_map n_maxsize].
  destruct (atoll_num sp n rest S R) as (-> & -> & ->).
  split; [f_equal; unfold z_u64; lia|]. split; [f_equal; unfold z_u64; lia|]. split; [f_equal; unfold z_u64; lia|].
  unfold number. rewrite <- text_cstr. destruct (cstr_num sp n rest S R) as (r & Hr & ->).
  destruct (atoll_num sp n r S Hr) as (-> & _). unfold z_u32. lia.
Qed.
