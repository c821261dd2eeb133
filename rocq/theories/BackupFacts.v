(* PROOFS about backups made by the hook program. *)
From Coq Require Import Strings.String Strings.Byte List Sorted NArith ZArith Bool Lia ZifyBool ZifyN ZifyNat.
From Verif Require Import Bytes BytesFacts Layout LayoutFacts Store DataFacts Text TextFacts Commands System SpecKV Machine CrashModel SpecDirty DirtyFacts JumpHook SpecBackup.
Import ListNotations.
Open Scope N_scope.
Local Notation length := List.length.

(* ---- only a jump changes the current file ---- *)

Lemma id_set i x : x_indexid (index_dirty_set i x) = x_indexid x.
Proof. unfold index_dirty_set. destruct (nget _ _); reflexivity. Qed.

Lemma id_append s id e ok e' s' : index_append s id e = (ok, e', s') -> x_indexid (ix s') = x_indexid (ix s).
Proof. unfold index_append. destruct (try_write _ _) as [k d1]. destruct k; intros X; injection X as _ _ <-; reflexivity. Qed.

Lemma id_delete_disk s e ok s' : index_entry_delete_disk s e = (ok, s') -> x_indexid (ix s') = x_indexid (ix s).
Proof.
  unfold index_entry_delete_disk. destruct (ifile _ _); [|intros X; injection X as _ <-; reflexivity]. cbn zeta.
  destruct (_ =? _); [|intros X; injection X as _ <-; reflexivity].
  destruct (try_write _ _) as [[|] d]; intros X; injection X as _ <-; [apply id_set|reflexivity].
Qed.

Lemma id_overwrite s id e ok s' : index_seq_overwrite s id e = (ok, s') -> x_indexid (ix s') = x_indexid (ix s).
Proof.
  unfold index_seq_overwrite. destruct (x_seq _); [|intros X; injection X as _ <-; reflexivity].
  destruct (index_seqmap_from_seq _ _) as [[st f]|]; [|intros X; injection X as _ <-; reflexivity]. cbn zeta.
  destruct (ifile _ _); [|intros X; injection X as _ <-; reflexivity].
  destruct (_ =? _); [|intros X; injection X as _ <-; reflexivity].
  destruct (try_write _ _) as [[|] d]; intros X; injection X as _ <-; [apply id_set|reflexivity].
Qed.

Lemma id_iset s id e x r s' : index_set s id e x = (r, s') -> x_indexid (ix s') = x_indexid (ix s).
Proof.
  unfold index_set, index_update_entry_memkey, index_update_entry_sequential, index_insert_entry_memkey,
    index_insert_entry_sequential. intros E.
  destruct x as [prev|]; destruct (_ =? _).
  - destruct (index_entry_delete_disk s prev) as [k s1] eqn:E1. apply id_delete_disk in E1.
    destruct (update_memory_memkey _ _ _ _ _) as [[t1 x1] e1] eqn:U. unfold update_memory_memkey in U. injection U as _ <- _.
    destruct (index_append _ _ _) as [[k2 e2] s3] eqn:E2. apply id_append in E2.
    injection E as _ <-. etransitivity; [exact E2|]. exact E1.
  - destruct (index_append _ _ _) as [[k2 e2] s1] eqn:E2. apply id_append in E2.
    destruct k2; [|injection E as _ <-; exact E2].
    destruct (index_seq_overwrite _ _ _) as [k3 s2] eqn:E3. apply id_overwrite in E3.
    injection E as _ <-. etransitivity; [exact E3|]. exact E2.
  - destruct (index_append _ _ _) as [[k2 e2] s1] eqn:E2. apply id_append in E2.
    destruct k2; [|injection E as _ <-; exact E2].
    destruct (insert_memory_memkey _ _ _ _) as [[t1 x1] e1] eqn:U. unfold insert_memory_memkey in U. injection U as _ <- _.
    injection E as _ <-. exact E2.
  - destruct (index_append _ _ _) as [[k2 e2] s1] eqn:E2. apply id_append in E2.
    destruct k2; injection E as _ <-; exact E2.
Qed.

Lemma id_delete s e ok s' : index_entry_delete s e = (ok, s') -> x_indexid (ix s') = x_indexid (ix s).
Proof.
  unfold index_entry_delete. destruct (index_entry_delete_disk s e) as [k s1] eqn:E1. apply id_delete_disk in E1.
  destruct k.
  - destruct (index_entry_delete_memory _ _ _) as [t1 x1] eqn:U. unfold index_entry_delete_memory in U.
    intros X; injection X as _ <-. destruct (_ =? _) in U; injection U as _ <-; exact E1.
  - destruct (_ =? _); intros X; injection X as _ <-; exact E1.
Qed.

Lemma id_insert s q off s' : data_insert s q = (off, s') -> x_indexid (ix s') = x_indexid (ix s).
Proof.
  unfold data_insert. destruct (try_write _ _) as [[|] d1]; [|intros X; injection X as _ <-; reflexivity].
  destruct (try_write _ _) as [[|] d2]; intros X; injection X as _ <-; reflexivity.
Qed.

Lemma id_ddelete s id ts ok s' : data_delete s id ts = (ok, s') -> x_indexid (ix s') = x_indexid (ix s).
Proof. unfold data_delete. destruct (data_insert _ _) as [off s1] eqn:E. intros X. injection X as _ <-. exact (id_insert _ _ _ _ E). Qed.

Lemma id_userkey argv now ex s : x_indexid (ix (snd (set_handler_userkey argv now ex s))) = x_indexid (ix s).
Proof.
  unfold set_handler_userkey. destruct (_ =? 0); [reflexivity|]. destruct (unchanged _ _ _); [reflexivity|].
  destruct (data_insert _ _) as [off s1] eqn:E. apply id_insert in E.
  destruct (off =? 0); [exact E|]. destruct (index_set _ _ _ _) as [[r|] s2] eqn:E2; apply id_iset in E2; cbn [snd]; congruence.
Qed.

Lemma id_sequential argv now ex s : x_indexid (ix (snd (set_handler_sequential argv now ex s))) = x_indexid (ix s).
Proof.
  unfold set_handler_sequential. destruct ex as [x|].
  - destruct (unchanged _ _ _); [reflexivity|].
    destruct (data_insert _ _) as [off s1] eqn:E. apply id_insert in E.
    destruct (off =? 0); [exact E|]. destruct (index_set _ _ _ _) as [[r|] s2] eqn:E2; apply id_iset in E2; cbn [snd]; congruence.
  - destruct (negb _); [reflexivity|].
    destruct (data_insert _ _) as [off s1] eqn:E. apply id_insert in E.
    destruct (off =? 0); [exact E|]. destruct (index_set _ _ _ _) as [[r|] s2] eqn:E2; apply id_iset in E2; cbn [snd]; congruence.
Qed.

Lemma id_del p now argv c s : x_indexid (ix (snd (command_del p now argv c s))) = x_indexid (ix s).
Proof.
  unfold command_del. destruct (if argc argv =? 3 then _ else _); [reflexivity|].
  destruct (_ <? _); [reflexivity|]. destruct (negb (p_writable p)); [reflexivity|].
  destruct (is_frozen c); [reflexivity|]. destruct (is_locked c); [reflexivity|].
  destruct (index_get s _) as [e|]; [|reflexivity]. destruct (n_worm c); [reflexivity|].
  cbn zeta. destruct (data_delete _ _ _) as [k s1] eqn:E. apply id_ddelete in E.
  destruct k; [|exact E]. destruct (index_entry_delete _ _) as [k2 s2] eqn:E2. apply id_delete in E2.
  destruct k2; cbn [snd]; congruence.
Qed.

(* ---- the copies ---- *)

Definition good (s : est) (b : copies) : Prop :=
  cov s /\ forall f, f < x_indexid (ix s) -> index_dirty_get f (ix s) = false -> b f = nget f (dk_i (dk s)).

Lemma good_step s s' b : step s s' -> x_indexid (ix s') = x_indexid (ix s) -> nlen (dk_i (dk s')) < 2 ^ 32 -> good s b -> good s' b.
Proof.
  intros S E B [C G]. destruct (S C) as (C' & L & W & W1 & W2 & W3 & W4). split; [exact C'|].
  intros f Hf D. rewrite E in Hf. destruct (W4 B) as [_ Q].
  assert (N1 : ~ (index_dirty_get f (ix s) = true \/ In (N.to_nat f) (overwrites (fs s) W))) by (rewrite <- W3; congruence).
  assert (D0 : index_dirty_get f (ix s) = false) by (destruct (index_dirty_get f (ix s)); tauto).
  rewrite (G f Hf D0). destruct C as (_ & C2 & _). destruct (nget_Some f (dk_i (dk s))) as (x & X); [lia|].
  rewrite X. symmetry. apply (Q f x Hf X). tauto.
Qed.

(* the list of the hook *)
Lemma number_digits l : forall acc t, forallb is_digit l = true -> number (l ++ x20 :: t) acc = (parse_digits l acc, t).
Proof.
  induction l as [|b l IH]; intros acc t H; [reflexivity|]. cbn [forallb] in H. apply andb_true_iff in H. destruct H as [Hb Hl].
  cbn [app number parse_digits]. rewrite Hb.
  assert (Byte.eqb b x20 = false) as ->. { destruct (Byte.eqb b x20) eqn:E; [|reflexivity]. apply Byte.byte_dec_bl in E. subst b. discriminate Hb. }
  now rewrite IH.
Qed.

Lemma number_end l : forall acc, forallb is_digit l = true -> number l acc = (parse_digits l acc, []).
Proof.
  induction l as [|b l IH]; intros acc H; [reflexivity|]. cbn [forallb] in H. apply andb_true_iff in H. destruct H as [Hb Hl].
  cbn [number parse_digits]. rewrite Hb.
  assert (Byte.eqb b x20 = false) as ->. { destruct (Byte.eqb b x20) eqn:E; [|reflexivity]. apply Byte.byte_dec_bl in E. subst b. discriminate Hb. }
  now rewrite IH.
Qed.

Lemma numbers_words : forall l m, (length (removelast (List.concat (map (fun f => dec f ++ [x20]) l))) <= m)%nat ->
  numbers m (removelast (List.concat (map (fun f => dec f ++ [x20]) l))) = l.
Proof.
  induction l as [|n l IH]; intros m H; [destruct m; reflexivity|].
  cbn [map List.concat] in *. set (r := List.concat (map (fun f => dec f ++ [x20]) l)) in *.
  destruct l as [|n2 l].
  - subst r. cbn [map List.concat] in *. rewrite app_nil_r, removelast_last in *.
    destruct (dec n) as [|c t] eqn:E; [now apply dec_nonempty in E|]. destruct m as [|m]; [cbn in H; lia|].
    cbn [numbers]. rewrite <- E, number_end by apply dec_all. rewrite parse_dec. destruct m; reflexivity.
  - assert (R : r <> []). { subst r. cbn [map List.concat]. intro X. apply app_eq_nil in X. destruct X as [X _]. apply app_eq_nil in X. destruct X; discriminate. }
    rewrite <- app_assoc in *. cbn [app] in *. rewrite removelast_app in * by discriminate.
    assert (X : removelast (x20 :: r) = x20 :: removelast r) by (destruct r; [congruence|reflexivity]). rewrite X in *.
    destruct (dec n) as [|c t] eqn:E; [now apply dec_nonempty in E|]. destruct m as [|m]; [cbn in H; lia|].
    cbn [app]. cbn [numbers]. change (c :: t ++ x20 :: removelast r) with ((c :: t) ++ x20 :: removelast r).
    rewrite <- E, number_digits by apply dec_all. rewrite parse_dec. f_equal. apply IH.
    rewrite app_length in H. cbn [length] in H. lia.
Qed.

Lemma told_list s code r s' : index_jump_hook code s = (r, s') -> told r = index_dirty_list (ix s).
Proof. unfold index_jump_hook. intros X. injection X as <- _. unfold told. cbn [r_dirty]. apply numbers_words, Nat.le_refl. Qed.

Lemma copy_cases fs r b f : copy fs r b f = nget f (r_files r) \/ (~ In f fs /\ copy fs r b f = b f).
Proof.
  unfold copy. destruct (existsb (N.eqb f) fs) eqn:E; [left; symmetry; apply nget_nth|].
  right. split; [|reflexivity]. intros I. assert (existsb (N.eqb f) fs = true); [|congruence].
  apply existsb_exists. exists f. split; [exact I|lia].
Qed.

Lemma jump_facts s code r s' : index_jump_hook code s = (r, s') -> cov s -> nlen (dk_i (dk s')) < 2 ^ 32 ->
  cov s' /\ nlen (dk_i (dk s)) <= nlen (dk_i (dk s')) /\ r_closed r = x_indexid (ix s) /\ r_opened r = x_indexid (ix s) + 1 /\
  x_indexid (ix s') = r_opened r /\ r_files r = dk_i (dk s') /\
  (forall f, index_dirty_get f (ix s') = (if code =? 0 then false else index_dirty_get f (ix s))) /\
  (forall f, f < x_indexid (ix s) -> nget f (dk_i (dk s')) = nget f (dk_i (dk s))).
Proof.
  intros X C B.
  assert (F : dk_i (dk s') = dk_i (dk (index_jump_next s)) /\ x_indexid (ix s') = x_indexid (ix (index_jump_next s))).
  { unfold index_jump_hook in X. injection X as _ <-. destruct (code =? 0); auto. }
  destruct F as [F1 F2]. rewrite F1 in B.
  destruct (step_jump s C) as (C' & L & W & W1 & W2 & W3 & W4). destruct (W4 B) as [Q1 Q2].
  assert (O : x_indexid (ix (index_jump_next s)) = x_indexid (ix s) + 1).
  { assert (x_indexid (ix (index_jump_next s)) = u32 (x_indexid (ix s) + 1)) as ->.
    { unfold index_jump_next, index_seqid_push, index_set_id, index_dirty_resize. cbn [set_dk set_ix ix].
      repeat match goal with |- context [match ?z with _ => _ end] => destruct z end; reflexivity. }
    destruct C as (_ & C2 & _). unfold u32. rewrite N.mod_small; [reflexivity|]. change (2 ^ 32) with 4294967296 in B. lia. }
  assert (D : forall f, index_dirty_get f (ix (index_jump_next s)) = index_dirty_get f (ix s)).
  { intro f. unfold index_jump_next, index_set_id. cbn [ix set_dk set_ix].
    rewrite (get_same (index_dirty_resize (u32 (x_indexid (ix s) + 1)) (x_set_indexid (u32 (x_indexid (ix s) + 1)) (x_set_next (x_nextentry (ix s)) 0 (ix s))))).
    - rewrite resize_get. reflexivity.
    - unfold index_seqid_push. cbn [x_seq x_set_updated]. destruct (x_seq _); reflexivity. }
  assert (Nt : forall f, f < x_indexid (ix s) -> nget f (dk_i (dk (index_jump_next s))) = nget f (dk_i (dk s))).
  { intros f Hf. destruct C as (_ & C2 & _). destruct (nget_Some f (dk_i (dk s))) as (x & G); [lia|]. rewrite G.
    unfold index_jump_next. cbn [dk set_dk do_write dk_i apply_write fst snd].
    set (k := u32 (x_indexid (ix s) + 1)).
    assert (Hk : k = x_indexid (ix s) + 1) by (unfold k, u32; change (2 ^ 32) with 4294967296 in B; rewrite N.mod_small; lia).
    rewrite nget_wr.
    assert (G1 : nget f (mkfile k (dk_i (dk s))) = Some x).
    { unfold mkfile. destruct (_ =? _); [|exact G]. rewrite nget_app1; [exact G|]. now apply nget_lt in G. }
    change (dk_i (do_write (MkI k) (dk s))) with (mkfile k (dk_i (dk s))).
    destruct (nget k (mkfile k (dk_i (dk s)))); [|exact G1]. destruct (N.eqb_spec f k); [lia|exact G1]. }
  unfold index_jump_hook in X. injection X as <- E. cbn [r_closed r_opened r_files].
  split; [subst s'; destruct (code =? 0); [apply reset_cov|]; exact C'|]. rewrite F1, F2.
  split; [exact L|]. split; [reflexivity|]. split; [exact O|]. split; [reflexivity|]. split; [reflexivity|]. split; [|exact Nt].
  intro f. subst s'. destruct (code =? 0); [cbn [ix set_ix]; apply reset_get|apply D].
Qed.

Lemma jump_good s code r s' fs b : index_jump_hook code s = (r, s') -> careful code fs r -> nlen (dk_i (dk s')) < 2 ^ 32 -> good s b ->
  good s' (copy fs r b) /\ (code = 0 -> forall f, f < r_opened r -> copy fs r b f = nget f (r_files r)).
Proof.
  intros X [K1 K2] B [C G]. destruct (jump_facts s code r s' X C B) as (C' & _ & R1 & R2 & R3 & R4 & D & Nt).
  pose proof (told_list s code r s' X) as T.
  assert (A : forall f, f < r_opened r -> index_dirty_get f (ix s) = false \/ code = 0 -> copy fs r b f = nget f (r_files r)).
  { intros f Hf O. destruct (copy_cases fs r b f) as [Y|[Y Z]]; [exact Y|]. rewrite Z, R4.
    assert (f <> x_indexid (ix s)) by (intros ->; apply Y; rewrite <- R1; exact K1).
    assert (Hf' : f < x_indexid (ix s)) by lia.
    assert (index_dirty_get f (ix s) = false).
    { destruct O as [O|O]; [exact O|]. destruct (index_dirty_get f (ix s)) eqn:E; [|reflexivity].
      exfalso. apply Y, (K2 O). rewrite T. now apply list_in. }
    rewrite Nt by exact Hf'. now apply G. }
  split.
  - split; [exact C'|]. intros f Hf Df. rewrite R3 in Hf. rewrite (A f Hf), R4; [reflexivity|]. rewrite D in Df.
    destruct (N.eqb_spec code 0); auto.
  - intros E f Hf. apply A; auto.
Qed.

Lemma data_jump_step k s : step s (data_jump_next k s) /\ x_indexid (ix (data_jump_next k s)) = x_indexid (ix s).
Proof. split; [|reflexivity]. unfold data_jump_next. eapply step_same; [apply step_init|repeat split]. Qed.

Lemma jumphook_good s code r s' fs b : jump_hook code s = (r, s') -> careful code fs r -> nlen (dk_i (dk s')) < 2 ^ 32 -> good s b ->
  good s' (copy fs r b) /\ (code = 0 -> forall f, f < r_opened r -> copy fs r b f = nget f (r_files r)).
Proof.
  unfold jump_hook. intros X K B G. destruct (index_jump_hook code s) as [r1 s1] eqn:E. injection X as <- <-.
  destruct (data_jump_step (x_indexid (ix s1)) s1) as [S1 S2].
  destruct (jump_good s code r1 s1 fs b E K) as [G1 G2]; [exact B|exact G|]. split; [|exact G2].
  exact (good_step s1 _ _ S1 S2 B G1).
Qed.

(* growth *)
Lemma jumphook_cov s code r s' : jump_hook code s = (r, s') -> cov s -> cov s' /\ nlen (dk_i (dk s)) <= nlen (dk_i (dk s')).
Proof.
  unfold jump_hook. intros X C. destruct (index_jump_hook code s) as [r1 s1] eqn:E. injection X as _ <-.
  assert (C1 : cov s1 /\ nlen (dk_i (dk s)) <= nlen (dk_i (dk s1))).
  { unfold index_jump_hook in E. injection E as _ <-. destruct (step_jump s C) as (C' & L & _).
    destruct (code =? 0); [split; [now apply reset_cov|exact L]|auto]. }
  destruct C1 as [C1 L1]. destruct (data_jump_step (x_indexid (ix s1)) s1) as [S1 _]. destruct (S1 C1) as (C2 & L2 & _). split; [exact C2|lia].
Qed.

(* one event *)
Definition outcome (e : bevent) (code : N) (s s' : est) (o : option jreport) : Prop :=
  exists s1, step s1 s' /\ x_indexid (ix s') = x_indexid (ix s1) /\
    match o with None => s1 = s | Some r => jump_hook code s = (r, s1) end.

Lemma set_outcome code g p now argv c s o s' e : command_set_hook code g p now argv c s = (o, s') -> outcome e code s s' o.
Proof.
  unfold command_set_hook. intros X.
  assert (Z : (None, s) = (o, s') -> outcome e code s s' o).
  { intros Y. injection Y as <- <-. exists s. split; [apply step_refl|auto]. }
  destruct (if argc argv =? 4 then _ else _); [auto|].
  destruct (_ <? _); [auto|]. destruct (negb (p_writable p)); [auto|].
  destruct (is_frozen c); [auto|]. destruct (is_locked c); [auto|]. cbn zeta in X. revert X.
  generalize (if blen (arg 1 argv) =? 0 then None else index_get s (arg 1 argv)) as ex. intros ex X.
  destruct (match ex with Some _ => n_worm c | None => false end); [auto|].
  destruct (_ && _); [auto|].
  assert (J : exists r1 s1, (if g_datasize g <? dsize (dk s) (d_dataid (dt s)) + blen (arg 2 argv)
     then let '(r, s1) := jump_hook code s in (Some r, s1) else (None, s)) = (r1, s1) /\
     match r1 with None => s1 = s | Some r => jump_hook code s = (r, s1) end).
  { destruct (_ <? _); [|exists None, s; auto]. destruct (jump_hook code s) as [r s1]. exists (Some r), s1. auto. }
  destruct J as (r1 & s1 & J1 & J2). rewrite J1 in X. injection X as <- <-. exists s1. split; [|split; [|exact J2]].
  - destruct (_ =? _); [apply step_userkey|apply step_sequential].
  - destruct (_ =? _); [apply id_userkey|apply id_sequential].
Qed.

Lemma bstep_outcome e code s o s' : no_reset (e, (code, [])) -> bstep e code s = Some (o, s') -> outcome e code s s' o.
Proof.
  intros NR X. destruct e as [g p now q c| |p argv]; cbn [bstep] in X.
  - assert (Z : Some (None, s) = Some (o, s') -> outcome (BReq g p now q c) code s s' o).
    { intros Y. injection Y as <- <-. exists s. split; [apply step_refl|auto]. }
    destruct q; try (apply Z; exact X).
    + injection X as X. eapply set_outcome. exact X.
    + cbn [run_req] in X. injection X as <- <-. exists s. split; [apply step_del|]. split; [apply id_del|reflexivity].
    + injection X as X. unfold command_nsjump_hook in X. destruct (admin_authorized p); [apply Z; congruence|].
      destruct (jump_hook code s) as [r s1] eqn:E. injection X as <- <-. exists s1. split; [apply step_refl|auto].
  - destruct (x_updated (ix s)).
    + destruct (jump_hook code s) as [r s1] eqn:E. injection X as <- <-. exists s1. split; [apply step_refl|auto].
    + injection X as <- <-. exists s. split; [apply step_refl|auto].
  - destruct (command_index p argv s) as [[r s1]|] eqn:E; [|discriminate]. injection X as <- <-.
    assert (s1 = s) as ->; [|exists s; split; [apply step_refl|auto]].
    cbn [no_reset fst] in NR. unfold command_index in E.
    destruct (admin_authorized p); [congruence|]. destruct (args_validate_min argv 2); [congruence|].
    destruct (args_overflow argv 1 COMMAND_MAXLEN); [congruence|]. destruct (sprint_max _) as [w|]; [|discriminate].
    destruct (case_eq w _); [|congruence]. unfold command_index_dirty in E.
    destruct (N.eqb_spec (argc argv) 3) as [H|H]; [|cbn zeta in E; congruence].
    exfalso. apply NR. unfold argc in H. rewrite ?nlen_length in H. lia.
Qed.

Lemma outcome_cov e code s s' o : outcome e code s s' o -> cov s -> cov s' /\ nlen (dk_i (dk s)) <= nlen (dk_i (dk s')).
Proof.
  intros (s1 & S & _ & J) C.
  assert (C1 : cov s1 /\ nlen (dk_i (dk s)) <= nlen (dk_i (dk s1))).
  { destruct o as [r|]; [now apply (jumphook_cov s code r)|]. subst s1. split; [exact C|lia]. }
  destruct C1 as [C1 L1]. destruct (S C1) as (C2 & L2 & _). split; [exact C2|lia].
Qed.

Lemma outcome_good e code s s' o fs b : outcome e code s s' o -> nlen (dk_i (dk s')) < 2 ^ 32 -> good s b ->
  match o with Some r => careful code fs r | None => True end ->
  good s' (match o with Some r => copy fs r b | None => b end) /\
  (forall r, o = Some r -> code = 0 -> forall f, f < r_opened r -> copy fs r b f = nget f (r_files r)).
Proof.
  intros (s1 & S & E & J) B G K. destruct o as [r|].
  - assert (C1 : cov s1) by (apply (jumphook_cov s code r s1 J), G).
    assert (B1 : nlen (dk_i (dk s1)) < 2 ^ 32) by (destruct (S C1) as (_ & L & _); lia).
    destruct (jumphook_good s code r s1 fs b J K B1 G) as [G1 G2].
    split; [exact (good_step s1 s' _ S E B G1)|]. intros r' Q. injection Q as <-. exact G2.
  - subst s1. split; [exact (good_step s s' b S E B G)|discriminate].
Qed.

Lemma follow_good : forall h s b s' b', follow h s b = Some (s', b') -> Forall no_reset h -> cov s ->
  cov s' /\ nlen (dk_i (dk s)) <= nlen (dk_i (dk s')) /\
  (nlen (dk_i (dk s')) < 2 ^ 32 -> all_careful h s -> good s b -> good s' b').
Proof.
  induction h as [|[e [code fs]] h IH]; intros s b s' b' F NR C; cbn [follow] in F.
  - injection F as <- <-. split; [exact C|]. split; [lia|auto].
  - apply Forall_cons_iff in NR. destruct NR as [NR NRs]. destruct (bstep e code s) as [[o s1]|] eqn:E; [|discriminate].
    pose proof (bstep_outcome e code s o s1 NR E) as O. destruct (outcome_cov _ _ _ _ _ O C) as [C1 L1].
    destruct (IH _ _ _ _ F NRs C1) as (C2 & L2 & G2). split; [exact C2|]. split; [lia|]. intros B K G.
    cbn [all_careful] in K. rewrite E in K. destruct K as [K1 K2].
    apply G2; [exact B|exact K2|]. apply (outcome_good e code s s1 o fs b O); [lia|exact G|exact K1].
Qed.

Lemma start_good mode n t d s0 (b0 : copies) : dk_io d = [] -> store_open mode n t d = Some s0 ->
  (forall f, (f < N.to_nat (x_indexid (ix s0)))%nat -> saved s0 b0 f) -> good s0 b0.
Proof.
  intros I O H. destruct (open_cov _ _ _ _ _ O I) as [C _]. split; [exact C|]. intros f Hf _.
  specialize (H (N.to_nat f) ltac:(lia)). unfold saved in H. rewrite N2Nat.id in H. now rewrite H, nget_nth.
Qed.

Theorem backup_ok : forall mode n t d s0 b0 h s b,
  dk_io d = [] -> store_open mode n t d = Some s0 -> (forall f, (f < N.to_nat (x_indexid (ix s0)))%nat -> saved s0 b0 f) ->
  follow h s0 b0 = Some (s, b) -> Forall no_reset h -> all_careful h s0 -> nlen (dk_i (dk s)) < 2 ^ 31 ->
  exists l, lists s l /\ forall f, (f < N.to_nat (x_indexid (ix s)))%nat -> ~ In f l -> saved s b f.
Proof.
  intros mode n t d s0 b0 h s b I O H F NR K B. pose proof (start_good _ _ _ _ _ _ I O H) as G0.
  destruct (follow_good _ _ _ _ _ F NR (proj1 G0)) as (_ & _ & G).
  destruct (G ltac:(change (2 ^ 31) with 2147483648 in B; change (2 ^ 32) with 4294967296; lia) K G0) as [_ G1].
  exists (map N.to_nat (index_dirty_list (ix s))). split; [apply lists_ok|]. intros f Hf Nf.
  unfold saved. rewrite <- (Nat2N.id f) at 2. rewrite <- nget_nth. apply G1; [lia|].
  destruct (index_dirty_get (N.of_nat f) (ix s)) eqn:E; [|reflexivity]. exfalso. apply Nf.
  apply in_map_iff. exists (N.of_nat f). split; [lia|]. now apply list_in.
Qed.

Theorem complete_ok : forall mode n t d s0 b0 h s b e fs r s1,
  dk_io d = [] -> store_open mode n t d = Some s0 -> (forall f, (f < N.to_nat (x_indexid (ix s0)))%nat -> saved s0 b0 f) ->
  follow h s0 b0 = Some (s, b) -> Forall no_reset h -> all_careful h s0 ->
  no_reset (e, (0, fs)) -> bstep e 0 s = Some (Some r, s1) -> careful 0 fs r -> nlen (dk_i (dk s1)) < 2 ^ 31 ->
  r_closed r = x_indexid (ix s) /\ r_opened r = x_indexid (ix s) + 1 /\ lists s (map N.to_nat (told r)) /\
  forall f, (f < N.to_nat (r_opened r))%nat -> copy fs r b (N.of_nat f) = nth_error (r_files r) f.
Proof.
  intros mode n t d s0 b0 h s b e fs r s1 I O H F NR K NR1 S K1 B. pose proof (start_good _ _ _ _ _ _ I O H) as G0.
  assert (B' : nlen (dk_i (dk s1)) < 2 ^ 32) by (change (2 ^ 31) with 2147483648 in B; change (2 ^ 32) with 4294967296; lia).
  destruct (follow_good _ _ _ _ _ F NR (proj1 G0)) as (C & _ & G).
  pose proof (bstep_outcome e 0 s (Some r) s1 NR1 S) as Q. destruct (outcome_cov _ _ _ _ _ Q C) as [C1 L1].
  assert (G1 : good s b) by (apply G; [lia|exact K|exact G0]).
  destruct (outcome_good e 0 s s1 (Some r) fs b Q B' G1 K1) as [_ Z].
  destruct Q as (s2 & S2 & _ & J). unfold jump_hook in J. destruct (index_jump_hook 0 s) as [r' s3] eqn:E. injection J as <- <-.
  pose proof (told_list s 0 r' s3 E) as T.
  assert (B3 : nlen (dk_i (dk s3)) < 2 ^ 32).
  { destruct (data_jump_step (x_indexid (ix s3)) s3) as [S3 _].
    assert (C3 : cov s3) by (unfold index_jump_hook in E; injection E as _ <-; apply reset_cov, step_jump, C).
    destruct (S3 C3) as (C4 & L3 & _). destruct (S2 C4) as (_ & L4 & _). lia. }
  destruct (jump_facts s 0 r' s3 E C B3) as (_ & _ & R1 & R2 & _).
  split; [exact R1|]. split; [exact R2|]. split; [rewrite T; apply lists_ok|].
  intros f Hf. rewrite (Z r' eq_refl eq_refl) by lia. now rewrite nget_nth, Nat2N.id.
Qed.

(* a hook that does not succeed changes nothing *)
Lemma jump_same code s : code <> 0 -> snd (jump_hook code s) = jump_next s.
Proof. intros H. unfold jump_hook, index_jump_hook, jump_next. destruct (N.eqb_spec code 0); [contradiction|reflexivity]. Qed.

Lemma set_same code g p now argv c s : code <> 0 -> snd (command_set_hook code g p now argv c s) = snd (command_set g p now argv c s).
Proof.
  intros H. unfold command_set_hook, command_set. destruct (if argc argv =? 4 then _ else _); [reflexivity|].
  destruct (_ <? _); [reflexivity|]. destruct (negb (p_writable p)); [reflexivity|].
  destruct (is_frozen c); [reflexivity|]. destruct (is_locked c); [reflexivity|]. cbn zeta.
  generalize (if blen (arg 1 argv) =? 0 then None else index_get s (arg 1 argv)) as ex. intros ex.
  destruct (match ex with Some _ => n_worm c | None => false end); [reflexivity|].
  destruct (_ && _); [reflexivity|]. destruct (g_datasize g <? _).
  - rewrite <- (jump_same code s H). destruct (jump_hook code s) as [r s1]. cbn [snd]. destruct (_ =? _); reflexivity.
  - cbn [snd]. destruct (_ =? _); reflexivity.
Qed.

Theorem same_server : forall g p now q c code s, code <> 0 ->
  exists o, bstep (BReq g p now q c) code s = Some (o, snd (run_req g p now q c s)).
Proof.
  intros g p now q c code s H. destruct q; cbn [bstep run_req]; try (eexists; reflexivity).
  - rewrite <- (set_same code g p now _ c s H). destruct (command_set_hook _ _ _ _ _ _ _) as [o s1]. exists o. reflexivity.
  - unfold command_nsjump_hook, command_nsjump. destruct (admin_authorized p); [exists None; reflexivity|].
    cbn [snd]. rewrite <- (jump_same code s H). destruct (jump_hook code s) as [r s1]. exists (Some r). reflexivity.
Qed.
