(* PROOFS for C57: what depends on passwords. *)
From Coq Require Import Strings.String Strings.Byte List NArith ZArith Bool Lia ZifyBool ZifyN ZifyNat.
From Verif Require Import Bytes BytesFacts Layout Store Text Commands SpecKV SpecSeq Machine Dispatch Namespace System Scan History Resp Server SpecAuth AuthFacts SpecServer IsolFacts SrvInv SrvRun SpecSecret.
Import ListNotations.
Open Scope N_scope.
Local Notation length := List.length.

Lemma both_refl {A} (o : option A) : both o o.
Proof. destruct o; exact I. Qed.

Lemma same_conf_refl c : same_conf c c.
Proof. repeat split; apply both_refl. Qed.

Lemma same_rec_refl o : same_rec o o.
Proof. destruct o; cbn; [|exact I]. split; [apply same_conf_refl|auto]. Qed.

Lemma same_state_refl w : same_state w w.
Proof. repeat split. induction (w_slots w); constructor; auto. apply same_rec_refl. Qed.

(* ---- the slots ---- *)

Lemma f2_oget l l' : Forall2 same_rec l l' -> forall i, same_rec (oget i l) (oget i l').
Proof.
  induction 1 as [|o o' l l' H _ IH]; intros i; [exact I|]. rewrite !oget_cons. destruct (i =? 0); [exact H|apply IH].
Qed.

Lemma slot_rel w w' i : same_state w w' -> same_rec (slot i w) (slot i w').
Proof. intros (_ & _ & _ & F). rewrite !slot_oget. apply f2_oget. exact F. Qed.

Lemma f2_nset l l' : Forall2 same_rec l l' -> forall i o o', same_rec o o' -> Forall2 same_rec (nset i o l) (nset i o' l').
Proof.
  induction 1 as [|x x' l l' H F IH]; intros i o o' R; cbn [nset]; [constructor|]. destruct (i =? 0); constructor; auto.
Qed.

Lemma f2_find name l l' : Forall2 same_rec l l' -> forall i,
  match find_ns name i l, find_ns name i l' with
  | Some (k, r), Some (k', r') => k' = k /\ same_rec (Some r) (Some r')
  | None, None => True
  | _, _ => False
  end.
Proof.
  induction 1 as [|o o' l l' H _ IH]; intros i; cbn [find_ns]; [exact I|]. destruct o as [r|], o' as [r'|]; try contradiction; [|apply IH].
  pose proof H as ((N & _) & _). rewrite N. destruct (bseqb _ name); [auto|apply IH].
Qed.

Lemma get_rel w w' name : same_state w w' ->
  match namespace_get name w, namespace_get name w' with
  | Some (k, r), Some (k', r') => k' = k /\ same_rec (Some r) (Some r')
  | None, None => True
  | _, _ => False
  end.
Proof. intros (_ & _ & _ & F). apply f2_find. exact F. Qed.

Lemma f2_names l l' : Forall2 same_rec l l' -> ns_names l' = ns_names l.
Proof.
  induction 1 as [|o o' l l' H _ IH]; [reflexivity|]. unfold ns_names in *. cbn [flat_map]. rewrite IH. destruct o as [r|], o' as [r'|]; try contradiction; [|reflexivity].
  destruct H as ((N & _) & _). rewrite N. reflexivity.
Qed.

Lemma f2_free l l' : Forall2 same_rec l l' -> forall i, free_slot i l' = free_slot i l.
Proof. induction 1 as [|o o' l l' H _ IH]; intros i; [reflexivity|]. destruct o, o'; try contradiction; cbn [free_slot]; auto. Qed.

Lemma f2_nlen {A B} (R : A -> B -> Prop) l l' : Forall2 R l l' -> nlen l' = nlen l.
Proof. induction 1; [reflexivity|]. cbn [nlen]. congruence. Qed.

Lemma f2_length {A B} {R : A -> B -> Prop} {l l'} : Forall2 R l l' -> length l' = length l.
Proof. induction 1; [reflexivity|]. cbn [length]. congruence. Qed.

Lemma f2_push i r r' l l' : Forall2 same_rec l l' -> same_rec (Some r) (Some r') -> Forall2 same_rec (push_slot i r l) (push_slot i r' l').
Proof.
  intros F R. unfold push_slot. rewrite (f2_nlen _ _ _ F). destruct (i <? nlen l); [apply f2_nset; assumption|]. apply Forall2_app; [exact F|]. constructor; [exact R|constructor].
Qed.

Lemma est_rel w w' r r' : same_state w w' -> same_rec (Some r) (Some r') -> est_of w' r' = est_of w r.
Proof. intros (T & _) (_ & X & D & K). unfold est_of. rewrite T, X, D, K. reflexivity. Qed.

Lemma put_est_rel w w' i r r' s : same_state w w' -> same_rec (Some r) (Some r') -> same_state (put_est i r s w) (put_est i r' s w').
Proof.
  intros (T & E & C & F) (Cf & _). split; [reflexivity|]. split; [exact E|]. split; [exact C|]. cbn [put_est w_slots]. apply f2_nset; [exact F|].
  split; [exact Cf|auto].
Qed.

Lemma put_slot_rel w w' i o o' : same_state w w' -> same_rec o o' -> same_state (put_slot i o w) (put_slot i o' w').
Proof. intros (T & E & C & F) R. split; [exact T|]. split; [exact E|]. split; [exact C|]. apply f2_nset; assumption. Qed.

Lemma put_client_rel w w' fd c : same_state w w' -> same_state (put_client fd c w) (put_client fd c w').
Proof. intros (T & E & C & F). split; [exact T|]. split; [exact E|]. split; [cbn [put_client w_clients]; rewrite C; reflexivity|exact F]. Qed.

(* ---- the commands on the data do not look at the password ---- *)

Definition with_pass (q : option bytes) (c : nscfg) : nscfg := mkCfg (n_name c) q (n_public c) (n_worm c) (n_maxsize c) (n_lock c).

Lemma same_conf_with c c' : same_conf c c' -> c' = with_pass (n_pass c') c.
Proof. intros (A & B & C & D & E & _). destruct c'. unfold with_pass. cbn in *. congruence. Qed.

Lemma set_pass g p now a q c s : command_set g p now a (with_pass q c) s = command_set g p now a c s.
Proof. reflexivity. Qed.
Lemma del_pass p now a q c s : command_del p now a (with_pass q c) s = command_del p now a c s.
Proof. reflexivity. Qed.
Lemma get_pass a q c s : command_get a (with_pass q c) s = command_get a c s.
Proof. reflexivity. Qed.
Lemma mget_pass a q c s : command_mget a (with_pass q c) s = command_mget a c s.
Proof. reflexivity. Qed.
Lemma exists_pass a q c s : command_exists a (with_pass q c) s = command_exists a c s.
Proof. reflexivity. Qed.
Lemma check_pass a q c s : command_check a (with_pass q c) s = command_check a c s.
Proof. reflexivity. Qed.
Lemma length_pass a q c s : command_length a (with_pass q c) s = command_length a c s.
Proof. reflexivity. Qed.
Lemma keytime_pass a q c s : command_keytime a (with_pass q c) s = command_keytime a c s.
Proof. reflexivity. Qed.
Lemma scan_pass n a q c s : command_scan n a (with_pass q c) s = command_scan n a c s.
Proof. reflexivity. Qed.
Lemma rscan_pass n a q c s : command_rscan n a (with_pass q c) s = command_rscan n a c s.
Proof. reflexivity. Qed.
Lemma history_pass a q c s : command_history a (with_pass q c) s = command_history a c s.
Proof. reflexivity. Qed.
Lemma keycur_pass a q c s : command_keycur a (with_pass q c) s = command_keycur a c s.
Proof. reflexivity. Qed.

(* ---- one command ---- *)

Definition res_rel (c : cmd) (cl : client) (x x' : res) : Prop :=
  match x, x' with
  | Done rep st w, Done rep' st' w' => st' = st /\ same_state w w' /\ (rep' = rep \/ (c = CNsinfo /\ c_master cl = true))
  | _, _ => True
  end.

Lemma rr_same c cl rep st w w' : same_state w w' -> res_rel c cl (Done rep st w) (Done rep st w').
Proof. cbn. auto. Qed.

Ltac sm := first [exact I | apply rr_same; assumption].

Lemma words_argc a a' : same_words a a' -> argc a' = argc a.
Proof. destruct 1; reflexivity. Qed.

Lemma words_arg i a a' : same_words a a' -> a' = a \/ arg i a' = arg i a \/ argc a = N.of_nat i + 1.
Proof. destruct 1; auto; right; destruct i as [|[|[|[|i]]]]; auto; left; destruct i; reflexivity. Qed.

Lemma words_other a a' h c : same_words a a' -> lookup_handler (arg 0 a) = Some (h, c) -> c <> CAuth -> c <> CSelect -> c <> CNsset -> a' = a.
Proof.
  destruct 1 as [| ? ? ? (h0 & M)|? ? ? ? (h0 & M)|? ? ? ? (h0 & M)|? ? ? ? ? (h0 & M)|? ? ? ? ? (h0 & M)]; auto; unfold arg; cbn [nth]; rewrite M; intros E; injection E as <- <-; congruence.
Qed.

Definition alike_reply (x x' : res) : Prop :=
  match x, x' with Done rep _ _, Done rep' _ _ => rep' = rep | _, _ => True end.

Ltac branches := repeat (match goal with |- context [if ?b then _ else _] => destruct b end; cbn iota).

Ltac differ := let H := fresh in intro H; exfalso; vm_compute in H; discriminate H.

Lemma auth_rel g g' v fd cl a a' w w' h : same_server g g' -> same_state w w' -> lookup_handler (arg 0 a) = Some (h, CAuth) -> same_words a a' ->
  alike_reply (command_auth g v fd cl a w) (command_auth g' v fd cl a' w') -> res_rel CAuth cl (command_auth g v fd cl a w) (command_auth g' v fd cl a' w').
Proof.
  intros (_ & _ & _ & _ & P) S L W. unfold command_auth. rewrite (words_argc _ _ W).
  destruct (argc a =? 2) eqn:E2.
  - destruct (v_adminpwd g) as [p|], (v_adminpwd g') as [p'|]; try contradiction; [|intros _; sm].
    unfold args_validate, real_args_validate. rewrite (words_argc _ _ W), E2. cbn [negb].
    branches; cbn [alike_reply]; try (intros _; sm); try differ;
      intros _; apply rr_same; apply put_client_rel; exact S.
  - destruct (argc a =? 3) eqn:E3; [|intros _; sm].
    assert (Q : a' = a \/ arg 1 a' = arg 1 a /\ ncase_eq (arg 2 a) (str "CHALLENGE") = false /\ ncase_eq (arg 2 a') (str "CHALLENGE") = false).
    { destruct W as [|? ? ? M|x y p p' M N1 N2|x y p p' (h0 & M)|? ? ? ? ? M|? ? ? ? ? M]; auto; try discriminate E3.
      - right. split; [reflexivity|]. unfold arg. cbn [nth].
        assert (T : Forall (fun b => b <> x00) (str "CHALLENGE")) by (repeat constructor; discriminate).
        pose proof (ncase_spec _ T p) as A1. pose proof (ncase_spec _ T p') as A2.
        split; apply not_true_iff_false; tauto.
      - unfold arg in L. cbn [nth] in L. rewrite M in L. discriminate. }
    unfold args_validate, real_args_validate. rewrite (words_argc _ _ W), E3. cbn [negb].
    assert (Q1 : arg 1 a' = arg 1 a) by (destruct Q as [->|(Q & _)]; auto). rewrite Q1.
    destruct (ncase_eq (arg 2 a) (str "CHALLENGE")) eqn:C1.
    { destruct Q as [->|(_ & X & _)]; [|discriminate]. rewrite C1. destruct (existsb _ a); [intros _; sm|].
      destruct (negb (ncase_eq (arg 1 a) (str "SECURE"))); [intros _; sm|]. intros _. apply rr_same. apply put_client_rel. exact S. }
    assert (C2 : ncase_eq (arg 2 a') (str "CHALLENGE") = false) by (destruct Q as [->|(_ & _ & X)]; auto). rewrite C2.
    destruct (v_adminpwd g) as [p|], (v_adminpwd g') as [p'|]; try contradiction; destruct (c_nonce cl) as [n|];
      branches; cbn [alike_reply]; try (intros _; sm); try differ;
      intros _; apply rr_same; apply put_client_rel; exact S.
Qed.

Lemma select_rel fd cl a a' w w' h : same_state w w' -> lookup_handler (arg 0 a) = Some (h, CSelect) -> same_words a a' ->
  alike_reply (command_select fd cl a w) (command_select fd cl a' w') -> res_rel CSelect cl (command_select fd cl a w) (command_select fd cl a' w').
Proof.
  intros S L W. unfold command_select. rewrite (words_argc _ _ W). destruct (argc a <? 2) eqn:E2; [intros _; sm|].
  assert (Q : arg 1 a' = arg 1 a).
  { destruct W as [|x p p' (h0 & M)|? ? ? ? M|? ? ? ? M|? ? ? ? ? M|? ? ? ? ? M]; auto. unfold arg in L. cbn [nth] in L. rewrite M in L. discriminate. }
  unfold args_namespace. rewrite Q. destruct (128 <? _); [intros _; sm|]. pose proof (get_rel w w' (cstr (arg 1 a)) S) as G.
  destruct (namespace_get _ w) as [[k r]|], (namespace_get _ w') as [[k' r']|]; try contradiction; [|intros _; sm].
  destruct G as (-> & (Cf & _)). destruct Cf as (_ & Pu & _ & _ & _ & Pa).
  unfold select_check. rewrite (words_argc _ _ W), Pu.
  assert (Put : forall x, same_state (put_client fd (c_set_ns (Some k) x cl) w) (put_client fd (c_set_ns (Some k) x cl) w')) by (intro x; apply put_client_rel; exact S).
  destruct (n_pass (r_cfg r)) as [p|], (n_pass (r_cfg r')) as [p'|]; try contradiction.
  - destruct (argc a <? 3). { destruct (n_public (r_cfg r)); intros _; apply rr_same; auto. }
    destruct (4 <? argc a); [intros _; sm|]. destruct (argc a =? 3).
    + branches; cbn [alike_reply]; try (intros _; apply rr_same; solve [auto]); differ.
    + destruct (c_nonce cl);
      branches; cbn [alike_reply]; try (intros _; apply rr_same; solve [auto]); differ.
  - intros _. apply rr_same. auto.
Qed.

Lemma nsset_apply_rel d cm x x' c c' : same_conf c c' -> (x' = x \/ cm = str "password" /\ (x = str "*" <-> x' = str "*")) ->
  match nsset_apply d cm x c, nsset_apply d cm x' c' with
  | inl e, inl e' => e' = e
  | inr y, inr y' => same_conf y y'
  | _, _ => False
  end.
Proof.
  intros H X. pose proof H as (A & B & C & D & E & F). destruct X as [->|(-> & X)].
  - unfold nsset_apply. destruct (bseqb cm (str "lock")); [repeat split; auto|]. destruct (bseqb cm (str "freeze")); [repeat split; auto|].
    destruct d; [reflexivity|]. destruct (bseqb cm (str "maxsize")); [repeat split; auto|]. destruct (bseqb cm (str "password")).
    { repeat split; auto. cbn [n_pass]. destruct (bseqb x (str "*")); exact I. }
    destruct (bseqb cm (str "public")); [repeat split; auto|]. destruct (bseqb cm (str "worm")); [repeat split; auto|]. reflexivity.
  - unfold nsset_apply. change (bseqb (str "password") (str "lock")) with false. change (bseqb (str "password") (str "freeze")) with false.
    change (bseqb (str "password") (str "maxsize")) with false. change (bseqb (str "password") (str "password")) with true. cbn iota.
    destruct d; [reflexivity|]. repeat split; auto. cbn [n_pass].
    destruct (bseqb x (str "*")) eqn:E1, (bseqb x' (str "*")) eqn:E2; try exact I.
    + apply bseqb_eq in E1. apply X in E1. rewrite E1, bseqb_refl in E2. discriminate.
    + apply bseqb_eq in E2. apply X in E2. rewrite E2, bseqb_refl in E1. discriminate.
Qed.

Lemma nsset_rel g g' cl a a' w w' h : same_server g g' -> same_state w w' -> lookup_handler (arg 0 a) = Some (h, CNsset) -> same_words a a' ->
  alike_reply (command_nsset g (perm_of cl) a w) (command_nsset g' (perm_of cl) a' w') ->
  res_rel CNsset cl (command_nsset g (perm_of cl) a w) (command_nsset g' (perm_of cl) a' w').
Proof.
  intros (Gs & _) S L W.
  assert (Q : arg 1 a' = arg 1 a /\ arg 2 a' = arg 2 a /\ (arg 3 a' = arg 3 a \/ text (arg 2 a) = str "password" /\ (text (arg 3 a) = str "*" <-> text (arg 3 a') = str "*"))).
  { destruct W as [|x p p' (h0 & M)|? ? ? ? (h0 & M)|? ? ? ? (h0 & M)|? ? ? ? ? (h0 & M)|x y z p p' M Z P]; auto;
      try (exfalso; unfold arg in L; cbn [nth] in L; rewrite M in L; discriminate). }
  destruct Q as (Q1 & Q2 & Q3). unfold command_nsset. destruct (admin_authorized _); [intros _; sm|].
  unfold args_validate, real_args_validate. rewrite (words_argc _ _ W). destruct (negb (argc a =? 4)); [intros _; sm|].
  unfold args_namespace, args_overflow. rewrite Q1, Q2.
  pose proof (get_rel w w' (cstr (arg 1 a)) S) as G. unfold sprint_max. rewrite !text_cstr in *.
  assert (X : text (arg 3 a') = text (arg 3 a) \/ text (arg 2 a) = str "password" /\ (text (arg 3 a) = str "*" <-> text (arg 3 a') = str "*")) by (destruct Q3 as [->|]; auto).
  destruct (128 <? _); [branches; cbn [alike_reply]; try (intros _; sm); differ|].
  destruct (COMMAND_MAXLEN <? _); [branches; cbn [alike_reply]; try (intros _; sm); differ|].
  destruct (blen (text (arg 2 a)) <? COMMAND_MAXLEN).
  2:{ branches; cbn [alike_reply]; try (intros _; sm); differ. }
  destruct (namespace_get _ w) as [[k r]|], (namespace_get _ w') as [[k' r']|]; try contradiction.
  2:{ branches; cbn [alike_reply]; try (intros _; sm); differ. }
  destruct G as (-> & R). rewrite (est_rel w w' r r' S R). pose proof R as (Cf & Ri & Rt & Rk).
  pose proof (nsset_apply_rel (bseqb (text (arg 1 a)) NAMESPACE_DEFAULT) (text (arg 2 a)) (text (arg 3 a)) (text (arg 3 a')) _ _ Cf X) as Ap.
  destruct (bseqb (text (arg 2 a)) (str "mode")) eqn:Mo.
  { assert (X1 : text (arg 3 a') = text (arg 3 a)) by (destruct X as [X|(X & _)]; [exact X|rewrite X in Mo; discriminate]). rewrite X1.
    assert (Y : nsset_mode g' (text (arg 3 a)) (est_of w r) = nsset_mode g (text (arg 3 a)) (est_of w r)) by (unfold nsset_mode; rewrite Gs; reflexivity). rewrite Y.
    destruct (nsset_mode g (text (arg 3 a)) (est_of w r)) as [err|s] eqn:Ns.
    - unfold nsset_mode in Ns. branches; cbn [alike_reply]; try (intros _; sm); try differ;
        repeat match type of Ns with context [if ?b then _ else _] => destruct b end; try discriminate Ns; injection Ns as <-; differ.
    - branches; cbn [alike_reply]; try (intros _; sm); try differ.
      intros _. apply rr_same. apply put_est_rel; [exact S|]. split; [exact Cf|auto]. }
  assert (Er : forall e, nsset_apply (bseqb (text (arg 1 a)) NAMESPACE_DEFAULT) (text (arg 2 a)) (text (arg 3 a)) (r_cfg r) = inl e ->
    e = hardsend "-Cannot update default namespace" \/ e = hardsend "-Invalid property").
  { intros e. unfold nsset_apply. repeat match goal with |- context [if ?b then inr _ else _] => destruct b; [discriminate|] end.
    destruct (bseqb _ NAMESPACE_DEFAULT); [intro H; injection H as <-; auto|].
    repeat match goal with |- context [if ?b then inr _ else _] => destruct b; [discriminate|] end. intro H; injection H as <-; auto. }
  destruct (nsset_apply _ _ (text (arg 3 a)) _) as [e|y], (nsset_apply _ _ (text (arg 3 a')) _) as [e'|y']; try contradiction.
  - subst e'. specialize (Er e eq_refl). branches; cbn [alike_reply]; try (intros _; sm); try differ; destruct Er as [->| ->]; differ.
  - branches; cbn [alike_reply]; try (intros _; sm); try differ.
    intros _. apply rr_same. apply put_slot_rel; [exact S|]. split; [exact Ap|cbn [r_ix r_dt r_dk]; auto].
Qed.

Lemma nsnew_rel g g' cl a w w' : same_server g g' -> same_state w w' ->
  res_rel CNsnew cl (command_nsnew g (perm_of cl) a w) (command_nsnew g' (perm_of cl) a w').
Proof.
  intros (Gs & _) S. unfold command_nsnew. destruct (admin_authorized _); [sm|]. destruct (args_validate a 2); [sm|]. destruct (args_namespace a 1); [sm|]. cbv zeta.
  destruct (negb _); [sm|]. pose proof (get_rel w w' (cstr (arg 1 a)) S) as G.
  destruct (namespace_get _ w) as [[k r]|], (namespace_get _ w') as [[k' r']|]; try contradiction; [sm|]. destruct (_ =? 0); [exact I|].
  destruct S as (T & E & C & F). rewrite T, Gs, (f2_free _ _ F). destruct (namespace_load _ _ _ _ _ _) as [[t r]|]; [|exact I].
  apply rr_same. split; [reflexivity|]. split; [cbn [w_eff]; congruence|]. split; [exact C|]. cbn [w_slots]. apply f2_push; [exact F|]. apply same_rec_refl.
Qed.

Lemma nsdel_rel cl a w w' me : same_state w w' -> res_rel CNsdel cl (command_nsdel (perm_of cl) me a w) (command_nsdel (perm_of cl) me a w').
Proof.
  intros S. unfold command_nsdel. destruct (admin_authorized _); [sm|]. destruct (args_validate a 2); [sm|]. destruct (args_namespace a 1); [sm|]. cbv zeta.
  destruct (bseqb _ _); [sm|]. pose proof (get_rel w w' (cstr (arg 1 a)) S) as G.
  destruct (namespace_get _ w) as [[k r]|], (namespace_get _ w') as [[k' r']|]; try contradiction; [|sm]. destruct G as (-> & R).
  destruct (match me with Some j => _ | None => _ end); [sm|]. destruct S as (T & E & C & F). destruct R as (_ & X & _).
  apply rr_same. split; [cbn [w_tb]; rewrite T, X; reflexivity|]. split; [cbn [w_eff]; congruence|]. split; [cbn [w_clients]; rewrite C; reflexivity|].
  cbn [w_slots]. apply f2_nset; [exact F|exact I].
Qed.

Lemma reload_rel g g' i r r' w w' : same_server g g' -> same_state w w' -> same_rec (Some r) (Some r') ->
  match namespace_reload g i r w, namespace_reload g' i r' w' with Some x, Some x' => same_state x x' | None, None => True | _, _ => False end.
Proof.
  intros (Gs & _) S R. unfold namespace_reload. pose proof S as (T & _). pose proof R as (_ & X & _ & K). rewrite Gs, T, X, K.
  destruct (store_open _ _ _ _) as [s|]; [|exact I]. apply put_est_rel; assumption.
Qed.

Lemma nsinfo_rel v cl a w w' : same_state w w' -> command_nsinfo v cl a w' = command_nsinfo v cl a w \/ c_master cl = true.
Proof.
  intros S. destruct (c_master cl) eqn:M; [auto|left]. unfold command_nsinfo. destruct (args_validate a 2); [reflexivity|]. destruct (args_namespace a 1); [reflexivity|].
  pose proof (get_rel w w' (cstr (arg 1 a)) S) as G. destruct (namespace_get _ w) as [[k r]|], (namespace_get _ w') as [[k' r']|]; try contradiction; [|reflexivity].
  destruct G as (_ & (N & Pu & Wo & Ms & Lo & Pa) & X & D & K). f_equal. unfold nsinfo_text. cbv zeta. rewrite M, N, Pu, Wo, Ms, Lo, X, D, K.
  destruct (n_pass (r_cfg r)), (n_pass (r_cfg r')); try contradiction; reflexivity.
Qed.

Lemma handle_rel g g' v fd cl i r r' c a a' w w' h : same_server g g' -> same_state w w' -> same_rec (Some r) (Some r') ->
  lookup_handler (arg 0 a) = Some (h, c) -> same_words a a' ->
  (c = CAuth \/ c = CSelect \/ c = CNsset -> alike_reply (handle g v fd cl i r c a w) (handle g' v fd cl i r' c a' w')) ->
  res_rel c cl (handle g v fd cl i r c a w) (handle g' v fd cl i r' c a' w').
Proof.
  intros G S R L W H. pose proof (est_rel w w' r r' S R) as Es. pose proof R as (Cf & _). pose proof G as (Gs & _ & Gr & _).
  assert (Eq : exists q, r_cfg r' = with_pass q (r_cfg r)) by (eexists; apply same_conf_with; exact Cf). destruct Eq as (q & Eq).
  assert (O : c <> CAuth -> c <> CSelect -> c <> CNsset -> a' = a) by (apply (words_other a a' h c W L)).
  assert (Ns : forall f, res_rel c cl (on_ns i r w f) (on_ns i r' w' f)).
  { intros f. unfold on_ns. rewrite Es. destruct (f (est_of w r)) as [rep s]. apply rr_same. apply put_est_rel; assumption. }
  assert (Pc : forall rep x, res_rel c cl (Done rep SUCCESS (put_client fd x w)) (Done rep SUCCESS (put_client fd x w'))) by (intros; apply rr_same; apply put_client_rel; exact S).
  destruct c; try (rewrite (O ltac:(discriminate) ltac:(discriminate) ltac:(discriminate)); clear H O); unfold handle; cbv zeta; rewrite ?Es, ?Gs, ?Gr;
    rewrite ?Eq, ?set_pass, ?get_pass, ?mget_pass, ?exists_pass, ?check_pass, ?length_pass, ?keytime_pass, ?scan_pass, ?rscan_pass, ?history_pass, ?keycur_pass.
  all: try solve [apply rr_same; exact S].
  - unfold command_wait. destruct (negb _); [sm|]. destruct (lookup_handler (arg 1 a)) as [[h1 c1]|]; [|sm]. cbv zeta. destruct (argc a =? 3); [|apply Pc].
    destruct (16 <? _); [sm|]. destruct (_ || _); [sm|apply Pc].
  - destruct (admin_authorized _); [sm|apply Pc].
  - destruct (admin_authorized _); [sm|apply Pc].
  - apply (auth_rel g g' v fd cl a a' w w' h G S L W). apply H. auto.
  - destruct (admin_authorized _); sm.
  - destruct (command_index _ _ _) as [[rep s]|]; [|exact I]. apply rr_same. apply put_est_rel; assumption.
  - destruct (command_data _ _ _); sm.
  - apply Ns.
  - apply Ns.
  - destruct (command_scan _ _ _ _); sm.
  - destruct (command_rscan _ _ _ _); sm.
  - destruct (command_history _ _ _); sm.
  - destruct (v_release g); sm.
  - apply nsnew_rel; assumption.
  - apply nsdel_rel; assumption.
  - unfold command_nslist. pose proof S as (_ & E & _ & F). rewrite E, (f2_names _ _ F). sm.
  - apply (nsset_rel g g' cl a a' w w' h G S L W). apply H. auto.
  - split; [reflexivity|]. split; [exact S|]. destruct (nsinfo_rel v cl a w w' S) as [->|M]; auto.
  - apply Ns.
  - apply (select_rel fd cl a a' w w' h S L W). apply H. auto.
  - unfold command_reload. destruct (admin_authorized _); [sm|]. destruct (args_validate a 2); [sm|]. destruct (args_namespace a 1); [sm|].
    pose proof (get_rel w w' (cstr (arg 1 a)) S) as Q. destruct (namespace_get _ w) as [[k u]|], (namespace_get _ w') as [[k' u']|]; try contradiction; [|sm].
    destruct Q as (-> & Q). pose proof (reload_rel g g' k u u' w w' G S Q) as X. destruct (namespace_reload g k u w), (namespace_reload g' k u' w'); try contradiction; [|exact I]. apply rr_same. exact X.
  - unfold command_flush. pose proof Cf as (N & Pu & _ & _ & _ & Pa). rewrite N, Pu. 
    pose proof (reload_rel g g' i r r' w w' G S R) as X.
    destruct (n_pass (r_cfg r)), (n_pass (r_cfg r')); try contradiction; (destruct (_ || _); [sm|]); (destruct (cleanable _); [exact I|]);
      (destruct (namespace_reload g i r w), (namespace_reload g' i r' w'); try contradiction; [apply rr_same; exact X|exact I]).
Qed.

(* ---- the rest of a request ---- *)

Lemma posthandle_rel v a a' w w' fd cl h (P : N -> bool) l : same_state w w' -> forall k,
  (forall j ck, k <= j -> oget (j - k) l = Some ck -> c_mirror ck = true -> P j = false) ->
  match posthandle v a w fd cl h k l, posthandle v a' w' fd cl h k l with
  | Some (out, l1), Some (out', l1') => l1' = l1 /\ filter (fun m => P (fst m)) out' = filter (fun m => P (fst m)) out
  | None, None => True
  | _, _ => False
  end.
Proof.
  intros S. induction l as [|o l IH]; intros k HP; cbn [posthandle]; [auto|].
  assert (HP' : forall j ck, k + 1 <= j -> oget (j - (k + 1)) l = Some ck -> c_mirror ck = true -> P j = false).
  { intros j ck L O M. apply (HP j ck); [lia| |exact M]. rewrite oget_cons. replace (j - k =? 0) with false by lia. replace (N.pred (j - k)) with (j - (k + 1)) by lia. exact O. }
  specialize (IH (k + 1) HP'). destruct (posthandle v a w fd cl h (k + 1) l) as [[out t]|], (posthandle v a' w' fd cl h (k + 1) l) as [[out' t']|]; try contradiction; [|exact I].
  destruct IH as (-> & F). destruct o as [ck|]; [|auto]. destruct (k =? fd); [auto|]. destruct (c_mirror ck) eqn:M.
  - destruct (v_owner v =? 0); [auto|]. destruct (c_ns cl) as [i|]; [|exact I]. pose proof (slot_rel w w' i S) as R.
    destruct (slot i w) as [r|], (slot i w') as [r'|]; try contradiction; [|exact I]. split; [reflexivity|].
    assert (Pk : P k = false) by (apply (HP k ck); [lia| |exact M]; rewrite N.sub_diag; reflexivity). cbn [filter fst]. rewrite Pk. exact F.
  - destruct (c_watch ck) as [wh|]; [|auto]. destruct (_ && _); [|auto]. split; [reflexivity|]. cbn [filter fst]. rewrite F. reflexivity.
Qed.

Definition ask_cmd (c : cmd) : Prop := c = CAuth \/ c = CSelect \/ c = CNsset.

Lemma means_arg a h c : lookup_handler (arg 0 a) = Some (h, c) -> ask_cmd c -> match a with x :: _ => means x c | [] => False end.
Proof.
  destruct a as [|x a]; unfold arg; cbn [nth]; intros H A; [|exists h; exact H]. vm_compute in H. injection H as _ <-. destruct A as [A|[A|A]]; discriminate.
Qed.

Lemma words_first a a' : same_words a a' -> arg 0 a' = arg 0 a.
Proof. destruct 1; reflexivity. Qed.

Lemma dispatch_rel g g' v fd cl a a' w w' : same_server g g' -> same_state w w' -> client_at fd w = Some cl -> same_words a a' ->
  (forall h c, lookup_handler (arg 0 a) = Some (h, c) -> ask_cmd c -> alike_reply (dispatch g v fd cl a w) (dispatch g' v fd cl a' w')) ->
  match dispatch g v fd cl a w, dispatch g' v fd cl a' w' with
  | Done rep st w1, Done rep' st' w1' => st' = st /\ same_state w1 w1' /\ (rep' = rep \/ exists c1, client_at fd w1 = Some c1 /\ c_master c1 = true)
  | _, _ => True
  end.
Proof.
  intros G S C W. unfold dispatch. rewrite (words_first _ _ W). destruct (c_ns cl) as [i|]; [|auto]. pose proof (slot_rel w w' i S) as R.
  destruct (slot i w) as [r|], (slot i w') as [r'|]; try contradiction; [|auto]. destruct (lookup_handler (arg 0 a)) as [[h c]|] eqn:L.
  2:{ intros _. split; [reflexivity|]. split; [apply put_client_rel; exact S|auto]. }
  intros H. set (cl' := c_set_exec (Some h) cl) in *. pose proof (put_client_rel w w' fd cl' S) as S1.
  pose proof (handle_rel g g' v fd cl' i r r' c a a' _ _ h G S1 R L W (fun X => H h c eq_refl X)) as Q. unfold res_rel in Q.
  assert (Nf : c = CNsinfo -> forall rep st w1, handle g v fd cl' i r c a (put_client fd cl' w) = Done rep st w1 -> client_at fd w1 = Some cl').
  { intros -> rep st w1 E. unfold handle in E. done_inv E. rewrite client_oget. cbn [put_client w_clients]. rewrite oget_nset, N.eqb_refl.
    rewrite client_oget in C. apply oget_lt in C. replace (fd <? _) with true by lia. reflexivity. }
  destruct (handle g v fd cl' i r c a (put_client fd cl' w)) as [rep st w1|]; [|auto]. destruct (handle g' _ _ _ _ _ _ _ _) as [rep' st' w1'|]; [|auto].
  destruct Q as (Q1 & Q2 & [Q3|(Q3 & Q4)]); [auto|]. split; [exact Q1|]. split; [exact Q2|]. right. exists cl'. split; [exact (Nf Q3 _ _ _ eq_refl)|exact Q4].
Qed.

Lemma body_rel g g' v fd cl a a' w w' : same_server g g' -> same_state w w' -> client_at fd w = Some cl -> same_words a a' ->
  let run g a w := match dispatch g v fd cl a w with
    | Undef => SUndef
    | Done rep st w1 => match posthandler v fd a w1 with None => SUndef | Some (out, w2) => SDone ((fd, rep) :: out) st w2 end end in
  (forall h c, lookup_handler (arg 0 a) = Some (h, c) -> ask_cmd c ->
     match run g a w, run g' a' w' with SDone out _ _, SDone out' _ _ => answer out' = answer out | _, _ => True end) ->
  match run g a w, run g' a' w' with
  | SDone out st w1, SDone out' st' w1' => st' = st /\ same_state w1 w1' /\ filter (ordinary w1') out' = filter (ordinary w1) out
  | _, _ => True
  end.
Proof.
  intros G S C W run H. unfold run in *. pose proof (dispatch_rel g g' v fd cl a a' w w' G S C W) as D.
  destruct (dispatch g v fd cl a w) as [rep st w1|]; [|exact I]. destruct (dispatch g' v fd cl a' w') as [rep' st' w1'|].
  2:{ destruct (posthandler v fd a w1) as [[? ?]|]; exact I. }
  destruct (posthandler v fd a w1) as [[out w2]|] eqn:P; [|exact I]. destruct (posthandler v fd a' w1') as [[out' w2']|] eqn:P'; [|exact I].
  destruct D as (D1 & D2 & D3); [intros h c L A; cbn [alike_reply]; exact (H h c L A)|]. split; [exact D1|].
  pose proof D2 as (T & E & Cs & F).
  assert (X : w_clients w2' = w_clients w2 /\ filter (ordinary w2) out' = filter (ordinary w2) out).
  { pose proof (posthandler_world _ _ _ _ _ _ P) as (_ & _ & _ & Sx). unfold posthandler in P, P'.
    assert (Cc : client_at fd w1' = client_at fd w1) by (unfold client_at; rewrite Cs; reflexivity). rewrite Cc in P'.
    destruct (client_at fd w1) as [c1|]; [|injection P as <- <-; injection P' as <- <-; auto].
    destruct (c_exec c1) as [h|]; [|injection P as <- <-; injection P' as <- <-; auto]. rewrite Cs in P'.
    pose proof (posthandle_rel v a a' w1 w1' fd c1 h (fun j => ordinary w2 (j, [])) (w_clients w1) D2 0) as R.
    assert (M : forall j ck, 0 <= j -> oget (j - 0) (w_clients w1) = Some ck -> c_mirror ck = true -> ordinary w2 (j, []) = false).
    { intros j ck _ O Mi. rewrite N.sub_0_r in O. specialize (Sx j). unfold ordinary. cbn [fst]. rewrite client_oget. destruct (oget j (w_clients w2)) as [c'|].
      - destruct Sx as (c0 & O0 & (_ & _ & _ & Mm & _)). rewrite O in O0. injection O0 as <-. rewrite Mm, Mi. apply andb_false_r.
      - rewrite O in Sx. discriminate. }
    specialize (R M). destruct (posthandle v a w1 fd c1 h 0 (w_clients w1)) as [[o1 l1]|]; [|discriminate].
    destruct (posthandle v a' w1' fd c1 h 0 (w_clients w1)) as [[o1' l1']|]; [|discriminate]. injection P as <- <-. injection P' as <- <-. destruct R as (-> & R).
    split; [reflexivity|exact R]. }
  destruct X as (X1 & X2). pose proof (posthandler_world _ _ _ _ _ _ P) as (A1 & A2 & A3 & Sx). pose proof (posthandler_world _ _ _ _ _ _ P') as (B1 & B2 & B3 & _).
  split; [split; [congruence|split; [congruence|split; [exact X1|rewrite A2, B2; exact F]]]|].
  assert (Oe : forall m, ordinary w2' m = ordinary w2 m) by (intros m; unfold ordinary, client_at; rewrite X1; reflexivity).
  rewrite (filter_ext _ _ Oe). cbn [filter]. rewrite X2. destruct D3 as [->|(c1 & C1 & M)]; [reflexivity|].
  assert (Of : forall b, ordinary w2 (fd, b) = false).
  { intros b. unfold ordinary. cbn [fst]. rewrite client_oget. specialize (Sx fd). rewrite client_oget in C1. destruct (oget fd (w_clients w2)) as [c'|].
    - destruct Sx as (c0 & O0 & (_ & _ & _ & _ & Mm & _)). rewrite C1 in O0. injection O0 as <-. rewrite Mm, M. reflexivity.
    - rewrite C1 in Sx. discriminate. }
  rewrite !Of. reflexivity.
Qed.

Lemma last_app_one {A} (b : list A) x d : last (b ++ [x]) d = x.
Proof. apply last_last. Qed.

Lemma asks_first fd v a a0 h c : arg 0 a = arg 0 a0 -> a <> [] -> a0 <> [] -> lookup_handler (arg 0 a) = Some (h, c) -> ask_cmd c -> asks (SRequest fd v a0).
Proof.
  intros E N N0 L A. destruct a0 as [|x a0]; [congruence|]. cbn [asks]. destruct a as [|y a]; [congruence|]. unfold arg in *. cbn [nth] in *. subst y.
  destruct A as [->|[->| ->]]; [left|right; left|right; right]; exists h; exact L.
Qed.

Lemma removelast_one {A} (b : list A) x : removelast (b ++ [x]) = b.
Proof. apply removelast_last. Qed.

(* ---- the other events ---- *)

Lemma rotate_rel old ks : forall w w', same_state w w' -> same_state (files_rotate old ks w) (files_rotate old ks w').
Proof.
  induction ks as [|k ks IH]; intros w w' S; cbn [files_rotate]; [exact S|]. apply IH. pose proof (slot_rel w w' k S) as R.
  destruct (slot k w) as [r|], (slot k w') as [r'|]; try contradiction; [|exact S]. pose proof R as (_ & X & _). rewrite X.
  destruct (_ && _); [|exact S]. rewrite (est_rel w w' r r' S R). apply put_est_rel; assumption.
Qed.

Lemma load_rel smode l l' : Forall2 same_stored l l' -> forall i t,
  match load_all smode i l t, load_all smode i l' t with
  | Some (t1, rs), Some (t1', rs') => t1' = t1 /\ Forall2 same_rec rs rs'
  | None, None => True
  | _, _ => False
  end.
Proof.
  induction 1 as [|[[n d] k] [[n' d'] k'] l l' (N & K & D) _ IH]; intros i t; cbn [load_all]; [auto|]. cbn [fst snd] in *. subst n' k'. unfold namespace_load.
  destruct (descriptor_load n d) as [[c e]|], (descriptor_load n d') as [[c' e']|]; try contradiction; [|apply IH].
  destruct (store_open smode i t k) as [s|]; [|exact I]. specialize (IH (i + 1) (tb s)).
  destruct (load_all smode (i + 1) l (tb s)) as [[t2 rs]|], (load_all smode (i + 1) l' (tb s)) as [[t2' rs']|]; try contradiction; [|exact I].
  destruct IH as (-> & F). split; [reflexivity|]. constructor; [|exact F]. split; [exact D|auto].
Qed.

Lemma boot_rel g g' l l' : same_server g g' -> Forall2 same_stored l l' ->
  match boot g l, boot g' l' with Some w, Some w' => same_state w w' | None, None => True | _, _ => False end.
Proof.
  intros (Gs & _) F. pose proof (load_rel (g_mode (v_set g)) l l' F 0 empty_table) as R. unfold boot. rewrite Gs.
  destruct (load_all (g_mode (v_set g)) 0 l empty_table) as [[t rs]|], (load_all (g_mode (v_set g)) 0 l' empty_table) as [[t' rs']|]; try contradiction;
    (destruct F as [|[[n d] k] [[n' d'] k'] l l' (N & K & D) F]; [exact I|]); cbn [fst snd] in *; subst n' k';
    (destruct (descriptor_load n d) as [[c e]|], (descriptor_load n d') as [[c' e']|]; try contradiction; [|exact I]); [|exact I].
  destruct R as (-> & R). split; [reflexivity|]. split; [apply (f2_nlen _ _ _ R)|]. split; [reflexivity|exact R].
Qed.

Lemma event_rel g g' e e' w w' : same_server g g' -> same_state w w' -> same_event e e' w ->
  match run_sevent g e w, run_sevent g' e' w' with
  | SDone out st w1, SDone out' st' w1' => (asks e -> answer out' = answer out) ->
      st' = st /\ same_state w1 w1' /\ filter (ordinary w1') out' = filter (ordinary w1) out
  | _, _ => True
  end.
Proof.
  intros G S H. pose proof S as (T & E & C & F). pose proof G as (Gs & Gp & Gr & Gt & Ga).
  destruct e as [fd|fd|fd v a|now old|l]; cbn [same_event] in H.
  - subst e'. cbn [run_sevent]. unfold connect. unfold client_at at 2. rewrite C. fold (client_at fd w). destruct (client_at fd w); [exact I|]. intros _.
    assert (Nc : new_client g' = new_client g) by (unfold new_client; rewrite Gp; destruct (v_adminpwd g), (v_adminpwd g'); try contradiction; reflexivity).
    rewrite Nc. split; [reflexivity|]. split; [repeat split; auto|reflexivity].
  - subst e'. cbn [run_sevent]. unfold close. rewrite C. intros _. split; [reflexivity|]. split; [repeat split; auto|reflexivity].
  - destruct e' as [?|?|fd' v' a'|? ?|?]; try discriminate H. destruct H as (-> & -> & H). cbn [run_sevent]. unfold Server.request, is_master in *.
    assert (Cc : client_at fd w' = client_at fd w) by (unfold client_at; rewrite C; reflexivity). rewrite Cc.
    destruct (client_at fd w) as [cl|] eqn:Cl; [|exact I]. destruct (c_master cl) eqn:M.
    + assert (Q : blen (last a' []) = blen (last a []) /\ nlen a' = nlen a /\ same_words (removelast a) (removelast a')).
      { destruct H as [->|(b & b' & x & -> & -> & W)]; [repeat split; constructor|]. rewrite !last_app_one, !removelast_one. split; [reflexivity|]. split; [|exact W].
        rewrite !nlen_app. pose proof (words_argc _ _ W) as X. unfold argc in X. lia. }
      destruct Q as (Q1 & Q2 & Q3). rewrite Q1, Q2. destruct (32 <? _); [auto|]. destruct (nlen a <=? 1) eqn:La; [exact I|].
      pose proof (body_rel g g' v fd cl _ _ w w' G S Cl Q3) as B. cbv beta zeta in B.
      assert (Ne : a <> [] /\ removelast a <> [] /\ arg 0 (removelast a) = arg 0 a).
      { destruct a as [|x [|y a]]; [cbn in La; discriminate|cbn in La; discriminate|]. split; [discriminate|]. split; [cbn [removelast]; discriminate|reflexivity]. }
      destruct Ne as (N1 & N2 & N3).
      destruct (match dispatch g v fd cl (removelast a) w with Done _ _ _ => _ | Undef => _ end) as [out st w1|]; [|exact I].
      destruct (match dispatch g' v fd cl (removelast a') w' with Done _ _ _ => _ | Undef => _ end) as [out' st' w1'|]; [|exact I].
      intros An. apply B. intros h c L A. apply An. exact (asks_first fd v (removelast a) a h c N3 N2 N1 L A).
    + pose proof (body_rel g g' v fd cl _ _ w w' G S Cl H) as B. cbv beta zeta in B.
      destruct (match dispatch g v fd cl a w with Done _ _ _ => _ | Undef => _ end) as [out st w1|]; [|exact I].
      destruct (match dispatch g' v fd cl a' w' with Done _ _ _ => _ | Undef => _ end) as [out' st' w1'|]; [|exact I].
      intros An. apply B. intros h c L A. apply An. pose proof (means_arg a h c L A) as Mn. destruct a as [|x a]; [contradiction|].
      exact (asks_first fd v (x :: a) (x :: a) h c eq_refl ltac:(discriminate) ltac:(discriminate) L A).
  - subst e'. cbn [run_sevent]. unfold idle. rewrite C. destruct (watch_timeout now 0 (w_clients w)) as [out l]. intros _. rewrite Gt, (f2_length F).
    assert (S1 : same_state (mkWorld (w_tb w) (w_slots w) (w_eff w) l) (mkWorld (w_tb w') (w_slots w') (w_eff w') l)) by (repeat split; auto).
    assert (Cf : forall old ks x, w_clients (files_rotate old ks x) = w_clients x).
    { intros old0 ks. induction ks as [|k ks IH]; intros x; cbn [files_rotate]; [reflexivity|]. rewrite IH. destruct (slot k x) as [r|]; [|reflexivity]. destruct (_ && _); reflexivity. }
    split; [reflexivity|]. destruct (v_rotate g).
    + split; [apply rotate_rel; exact S1|]. apply filter_ext. intros m. unfold ordinary, client_at. rewrite !Cf. reflexivity.
    + split; [exact S1|]. reflexivity.
  - destruct e' as [?|?|? ? ?|? ?|l']; try discriminate H. cbn [run_sevent]. pose proof (boot_rel g g' l l' G H) as B.
    destruct (boot g l) as [w1|], (boot g' l') as [w1'|]; try contradiction; [|exact I]. intros _. split; [reflexivity|]. split; [exact B|reflexivity].
Qed.

Lemma secret_run g g' es : same_server g g' -> forall es' w w' outs outs' w1 w1', same_state w w' -> alike g g' es es' w w' ->
  run_sevents g es w = Some (outs, w1) -> run_sevents g' es' w' = Some (outs', w1') ->
  received g' es' w' = received g es w /\ same_state w1 w1'.
Proof.
  intros G. induction es as [|e es IH]; intros es' w w' outs outs' w1 w1' S A R R'; destruct es' as [|e' es']; cbn [alike] in A; try contradiction.
  - injection R as _ <-. injection R' as _ <-. auto.
  - destruct A as (Ev & A). cbn [run_sevents] in R, R'. cbn [received]. pose proof (event_rel g g' e e' w w' G S Ev) as X.
    destruct (run_sevent g e w) as [out st w2|]; [|discriminate]. destruct (run_sevent g' e' w') as [out' st' w2'|]; [|discriminate]. destruct A as (An & A).
    destruct (X An) as (-> & S2 & Fi). destruct (run_sevents g es w2) as [[o w3]|] eqn:R2; [|discriminate]. injection R as _ <-.
    destruct (run_sevents g' es' w2') as [[o' w3']|] eqn:R2'; [|discriminate]. injection R' as _ <-. destruct (IH es' w2 w2' o o' w3 w3' S2 A R2 R2') as (-> & S3).
    rewrite Fi. auto.
Qed.

Lemma same_stored_refl x : same_stored x x.
Proof. split; [reflexivity|]. split; [reflexivity|]. destruct (descriptor_load _ _) as [[c e]|]; [apply same_conf_refl|exact I]. Qed.

Lemma boot_two g g' l w w' : same_server g g' -> boot g l = Some w -> boot g' l = Some w' -> same_state w w'.
Proof.
  intros G B B'. assert (F : Forall2 same_stored l l) by (clear; induction l as [|x l IH]; [constructor|constructor; [apply same_stored_refl|exact IH]]).
  pose proof (boot_rel g g' l l G F) as X. rewrite B, B' in X. exact X.
Qed.

Lemma first_two g g' w w' : same_server g g' -> first_boot g = Some w -> first_boot g' = Some w' -> same_state w w'.
Proof.
  unfold first_boot. generalize ([(NAMESPACE_DEFAULT, [], empty_disk)] : list stored). intros l. exact (boot_two g g' l w w').
Qed.

Lemma secret_first g g' es es' w0 w0' outs outs' w w' : same_server g g' -> first_boot g = Some w0 -> first_boot g' = Some w0' -> alike g g' es es' w0 w0' ->
  run_sevents g es w0 = Some (outs, w) -> run_sevents g' es' w0' = Some (outs', w') -> received g' es' w0' = received g es w0 /\ same_state w w'.
Proof.
  intros G B B' A R R'. exact (secret_run g g' es G es' w0 w0' outs outs' w w' (first_two g g' w0 w0' G B B') A R R').
Qed.

(* what like servers leave on disk is alike *)
Lemma stored_alike g g' w w' D D' : SrvInv g w D -> SrvInv g' w' D' -> same_state w w' -> Forall2 same_stored (stored_of w) (stored_of w').
Proof.
  intros V V' (_ & _ & _ & F).
  assert (L : forall i r, slot i w = Some r -> desc_ok (r_cfg r) (r_desc r)) by (intros i r S; destruct (sv_live _ _ _ V i r S) as (x & _ & _ & _ & _ & De); exact De).
  assert (L' : forall i r, slot i w' = Some r -> desc_ok (r_cfg r) (r_desc r)) by (intros i r S; destruct (sv_live _ _ _ V' i r S) as (x & _ & _ & _ & _ & De); exact De).
  unfold stored_of. assert (X : forall l l', Forall2 same_rec l l' -> (forall i r, oget i l = Some r -> desc_ok (r_cfg r) (r_desc r)) -> (forall i r, oget i l' = Some r -> desc_ok (r_cfg r) (r_desc r)) ->
    Forall2 same_stored (flat_map (fun o => match o with Some r => [(n_name (r_cfg r), r_desc r, r_dk r)] | None => [] end) l)
      (flat_map (fun o => match o with Some r => [(n_name (r_cfg r), r_desc r, r_dk r)] | None => [] end) l')).
  { clear. induction 1 as [|o o' l l' R F IH]; intros H H'; cbn [flat_map]; [constructor|]. apply Forall2_app.
    - destruct o as [r|], o' as [r'|]; try contradiction; [|constructor]. constructor; [|constructor]. destruct R as (Cf & _ & _ & K). pose proof Cf as (N & _).
      split; [exact N|]. split; [exact K|]. cbn [fst snd]. destruct (H 0 r eq_refl) as (E & _). destruct (H' 0 r' eq_refl) as (E' & _). rewrite N in E'. rewrite E, E'.
      destruct Cf as (A & B & C & D & _ & P). repeat split; auto.
    - apply IH; [intros i r O; apply (H (i + 1) r)|intros i r O; apply (H' (i + 1) r)]; rewrite oget_cons; (replace (i + 1 =? 0) with false by lia);
        (replace (N.pred (i + 1)) with i by lia); exact O. }
  apply X; [exact F|intros i r; rewrite <- slot_oget; apply L|intros i r; rewrite <- slot_oget; apply L'].
Qed.

Lemma secret_stored g g' es es' w0 w0' outs outs' w w' : server_ok g -> server_ok g' -> first_boot g = Some w0 -> first_boot g' = Some w0' ->
  all_covered g es w0 -> all_covered g' es' w0' -> run_sevents g es w0 = Some (outs, w) -> run_sevents g' es' w0' = Some (outs', w') ->
  same_state w w' -> Forall2 same_stored (stored_of w) (stored_of w').
Proof.
  intros G G' B B' C C' R R' S. destruct (server_run g es outs w0 w G B C R) as (D & _ & V). destruct (server_run g' es' outs' w0' w' G' B' C' R') as (D' & _ & V').
  exact (stored_alike g g' w w' D D' V V' S).
Qed.

(* ---- deciding, for the examples ---- *)

Definition means_b (x : bytes) (c : cmd) : bool :=
  match lookup_handler x with Some (_, CAuth) => match c with CAuth => true | _ => false end
  | Some (_, CSelect) => match c with CSelect => true | _ => false end
  | Some (_, CNsset) => match c with CNsset => true | _ => false end | _ => false end.

Lemma means_b_ok x c : means_b x c = true -> means x c.
Proof.
  unfold means_b, means. destruct (lookup_handler x) as [[h k]|]; [|discriminate]. intros H. exists h. destruct k; try discriminate H; destruct c; try discriminate H; reflexivity.
Qed.

Lemma means_b_no x c : c = CAuth \/ c = CSelect \/ c = CNsset -> means x c -> means_b x c = true.
Proof. intros H (h & E). unfold means_b. rewrite E. destruct H as [->|[->| ->]]; reflexivity. Qed.

Definition words_b (a a' : list bytes) : bool :=
  (if list_eq_dec (list_eq_dec Byte.byte_eq_dec) a a' then true else false) ||
  match a, a' with
  | [x; p], [x'; p'] => bseqb x x' && means_b x CAuth
  | [x; y; p], [x'; y'; p'] => bseqb x x' && bseqb y y' &&
      (means_b x CSelect || means_b x CAuth && negb (ncase_eq p (str "CHALLENGE")) && negb (ncase_eq p' (str "CHALLENGE")))
  | [x; y; z; p], [x'; y'; z'; p'] => bseqb x x' && bseqb y y' && bseqb z z' &&
      (means_b x CSelect || means_b x CNsset && bseqb (text z) (str "password") && Bool.eqb (bseqb (text p) (str "*")) (bseqb (text p') (str "*")))
  | _, _ => false
  end.

Lemma words_b_ok a a' : words_b a a' = true -> same_words a a'.
Proof.
  unfold words_b. destruct (list_eq_dec (list_eq_dec Byte.byte_eq_dec) a a') as [->|_]; [intros; constructor|]. cbn [orb].
  assert (Nc : forall p, ncase_eq p (str "CHALLENGE") = false -> ~ abbreviates p (str "CHALLENGE")).
  { intros p E A. apply (ncase_spec (str "CHALLENGE")) in A; [congruence|repeat constructor; discriminate]. }
  destruct a as [|x [|y [|z [|p [|]]]]], a' as [|x' [|y' [|z' [|p' [|]]]]]; try discriminate; rewrite ?andb_true_iff, ?orb_true_iff, ?andb_true_iff; intros H.
  - destruct H as (E & M). apply bseqb_eq in E. subst x'. apply sw_auth. apply means_b_ok. exact M.
  - destruct H as ((E & E2) & M). apply bseqb_eq in E, E2. subst x' y'. destruct M as [M|((M & N1) & N2)].
    + apply sw_select. apply means_b_ok. exact M.
    + apply sw_digest; [apply means_b_ok; exact M|apply Nc; destruct (ncase_eq z _); [discriminate|reflexivity]|apply Nc; destruct (ncase_eq z' _); [discriminate|reflexivity]].
  - destruct H as (((E & E2) & E3) & M). apply bseqb_eq in E, E2, E3. subst x' y' z'. destruct M as [M|((M & N1) & N2)].
    + apply sw_secure. apply means_b_ok. exact M.
    + apply sw_nsset; [apply means_b_ok; exact M|apply bseqb_eq; exact N1|]. apply Bool.eqb_prop in N2.
      split; intros T; apply bseqb_eq; [rewrite <- N2|rewrite N2]; rewrite T; apply bseqb_refl.
Qed.

(* two histories side by side, without masters and restarts *)
Inductive twin :=
| TBoth (e : sevent)                                  (* the same event in both *)
| TReq (fd : N) (v : env) (a a' : list bytes).        (* a request with other words *)
Definition left_event (t : twin) : sevent := match t with TBoth e => e | TReq fd v a _ => SRequest fd v a end.
Definition right_event (t : twin) : sevent := match t with TBoth e => e | TReq fd v _ a' => SRequest fd v a' end.

Definition asks_b (e : sevent) : bool :=
  match e with SRequest _ _ (x :: _) => means_b x CAuth || means_b x CSelect || means_b x CNsset | _ => false end.

Lemma asks_b_ok e : asks e -> asks_b e = true.
Proof.
  destruct e as [?|?|fd v a|? ?|?]; cbn [asks asks_b]; try contradiction. destruct a as [|x a]; [contradiction|].
  rewrite !orb_true_iff. intros [H|[H|H]]; [left; left|left; right|right]; apply means_b_no; auto.
Qed.

Fixpoint alike_b (g g' : server) (l : list twin) (w w' : world) : bool :=
  match l with
  | [] => true
  | t :: r =>
      match t with TBoth _ => true | TReq fd _ a a' => negb (is_master fd w) && words_b a a' end &&
      match run_sevent g (left_event t) w, run_sevent g' (right_event t) w' with
      | SDone out _ w1, SDone out' _ w1' => (negb (asks_b (left_event t)) || bseqb (answer out') (answer out)) && alike_b g g' r w1 w1'
      | _, _ => false
      end
  end.

Lemma same_event_refl e w : same_event e e w.
Proof.
  destruct e; cbn [same_event]; auto.
  - split; [reflexivity|]. split; [reflexivity|]. destruct (is_master fd w); [auto|constructor].
  - induction ord as [|x l IH]; constructor; auto. apply same_stored_refl.
Qed.

Lemma alike_b_ok g g' l : forall w w', alike_b g g' l w w' = true -> alike g g' (map left_event l) (map right_event l) w w'.
Proof.
  induction l as [|t l IH]; intros w w' H; cbn [alike_b alike map] in *; [exact I|]. apply andb_true_iff in H. destruct H as (A & B). split.
  - destruct t as [e|fd v a a']; cbn [left_event right_event]; [apply same_event_refl|]. apply andb_true_iff in A. destruct A as (A1 & A2).
    cbn [same_event]. split; [reflexivity|]. split; [reflexivity|]. destruct (is_master fd w); [discriminate|]. apply words_b_ok. exact A2.
  - destruct (run_sevent g (left_event t) w) as [out st w1|]; [|discriminate]. destruct (run_sevent g' (right_event t) w') as [out' st' w1'|]; [|discriminate].
    apply andb_true_iff in B. destruct B as (B1 & B2). split; [|apply IH; exact B2]. intros X. apply asks_b_ok in X. rewrite X in B1. apply bseqb_eq. exact B1.
Qed.
