(* PROOFS.  What the commands do to sessions, settings and notifications. *)
From Coq Require Import Strings.Ascii Strings.String Strings.Byte List NArith ZArith Bool Lia ZifyBool ZifyN ZifyNat.
From Verif Require Import Bytes BytesFacts Layout Store Text Commands Sha1 Dispatch Namespace System Resp Server
  SpecSha Sha1Facts SpecAuth.
Import ListNotations.
Open Scope N_scope.

(* ---- slots and clients ---- *)

Definition oget {A} (i : N) (l : list (option A)) : option A := match nget i l with Some o => o | None => None end.

Lemma slot_oget i w : slot i w = oget i (w_slots w).
Proof. reflexivity. Qed.
Lemma client_oget i w : client_at i w = oget i (w_clients w).
Proof. reflexivity. Qed.

Lemma oget_lt {A} i (l : list (option A)) x : oget i l = Some x -> i < nlen l.
Proof. unfold oget. destruct (nget i l) eqn:E; [|discriminate]. intros _. apply nget_lt in E. exact E. Qed.

Lemma oget_nset {A} i j (x : option A) l : oget j (nset i x l) = if (i =? j) && (i <? nlen l) then x else oget j l.
Proof.
  unfold oget. rewrite nget_nset.
  destruct (N.eqb_spec i j), (N.ltb_spec i (nlen l)); cbn [andb]; subst;
    repeat match goal with |- context [if ?b then _ else _] => destruct b eqn:?; cbn [andb] in * end;
    try reflexivity; try lia;
    match goal with |- context [nget ?k ?m] => destruct (nget k m) eqn:G end; try reflexivity;
    first [apply nget_lt in G; lia | idtac].
Qed.

Lemma client_put k fd c w : client_at k (put_client fd c w) =
  if (fd =? k) && (fd <? nlen (w_clients w)) then Some c else client_at k w.
Proof. unfold put_client. rewrite !client_oget. cbn [w_clients]. apply oget_nset. Qed.

Lemma client_put_same fd c c0 w : client_at fd w = Some c0 -> client_at fd (put_client fd c w) = Some c.
Proof.
  intro H. rewrite client_put, N.eqb_refl. rewrite client_oget in H. apply oget_lt in H.
  replace (fd <? nlen (w_clients w)) with true by lia. reflexivity.
Qed.

Lemma client_put_other k fd c w : k <> fd -> client_at k (put_client fd c w) = client_at k w.
Proof. intro H. rewrite client_put. replace (fd =? k) with false by lia. reflexivity. Qed.

Lemma detach_at k i l : oget k (map (detach_client i) l) = detach_client i (oget k l).
Proof.
  unfold oget. rewrite !nget_nth, nth_error_map. destruct (nth_error l (N.to_nat k)); reflexivity.
Qed.

Lemma text_cstr a : cstr a = text a.
Proof. induction a as [|b a IH]; [reflexivity|]. cbn [cstr text]. rewrite IH. destruct b; reflexivity. Qed.

Lemma text_id a : Forall (fun x => x <> x00) a -> text a = a.
Proof.
  induction 1 as [|b a H _ IH]; [reflexivity|]. cbn [text]. destruct (beqb_spec b x00); [contradiction|]. rewrite IH. reflexivity.
Qed.

Lemma text_full a : blen (text a) = blen a -> text a = a.
Proof.
  assert (G : forall l, blen (text l) <= blen l).
  { induction l as [|b l IH]; cbn [text blen]; [lia|]. destruct (beqb b x00); cbn [blen]; lia. }
  induction a as [|b a IH]; [reflexivity|]. cbn [text blen]. destruct (beqb b x00); cbn [blen]; [lia|].
  intro H. rewrite IH by lia. reflexivity.
Qed.

(* a given digest of 40 characters equal as text is equal *)
Lemma digest_given given n p : blen given = 40 -> bseqb (cstr given) (zdb_hash_password n p) = true ->
  given = challenge_digest n p.
Proof.
  intros L H. apply bseqb_eq in H. rewrite hash_ok, text_cstr in H. rewrite <- H.
  symmetry. apply text_full. rewrite H, L, blen_length, digest_length. reflexivity.
Qed.

Lemma digest_accepted n p : bseqb (cstr (challenge_digest n p)) (zdb_hash_password n p) = true.
Proof. apply bseqb_eq. rewrite hash_ok, text_cstr. apply text_id, digest_text. Qed.

(* ---- SELECT ---- *)

Lemma argc_1 argv : argc argv = 1 -> exists a, argv = [a].
Proof. unfold argc. destruct argv as [|a [|b r]]; cbn [nlen]; try lia. intros _. exists a. reflexivity. Qed.
Lemma argc_2 argv : argc argv = 2 -> exists a b, argv = [a; b].
Proof. unfold argc. destruct argv as [|a [|b [|c r]]]; cbn [nlen]; try lia. intros _. exists a, b. reflexivity. Qed.
Lemma argc_3 argv : argc argv = 3 -> exists a b c, argv = [a; b; c].
Proof. unfold argc. destruct argv as [|a [|b [|c [|d r]]]]; cbn [nlen]; try lia. intros _. exists a, b, c. reflexivity. Qed.
Lemma argc_4 argv : argc argv = 4 -> exists a b c d, argv = [a; b; c; d].
Proof. unfold argc. destruct argv as [|a [|b [|c [|d [|e r]]]]]; cbn [nlen]; try lia. intros _. exists a, b, c, d. reflexivity. Qed.

Lemma hardsend_error s : is_error (hardsend (String "-"%char s)).
Proof. unfold hardsend, is_error. eexists. reflexivity. Qed.

Lemma select_check_sound argv nonce c pw : n_pass c = Some pw ->
  match select_check argv nonce c with
  | inl err => is_error err
  | inr true => select_proof nonce argv pw
  | inr false => argc argv < 3 /\ n_public c = true
  end.
Proof.
  intro P. unfold select_check. rewrite P.
  destruct (N.ltb_spec (argc argv) 3).
  - destruct (n_public c); cbn [negb]; [split; [assumption|reflexivity]|apply hardsend_error].
  - destruct (N.ltb_spec 4 (argc argv)); [apply hardsend_error|].
    destruct (N.eqb_spec (argc argv) 3) as [E|NE].
    + destruct (argc_3 _ E) as (x & y & z & ->).
      destruct (255 <? _); [apply hardsend_error|].
      destruct (bseqb _ _) eqn:B; [|apply hardsend_error].
      apply bseqb_eq in B. left. exists x, y, z. split; [reflexivity|]. unfold gives_password. rewrite <- text_cstr. exact B.
    + destruct (argc_4 argv ltac:(lia)) as (x & y & z & u & ->).
      destruct (ncase_eq _ _); cbn [negb]; [|apply hardsend_error].
      destruct nonce as [n|]; [|apply hardsend_error].
      destruct (N.eqb_spec (blen (arg 3 [x; y; z; u])) 40) as [L|]; cbn [negb]; [|apply hardsend_error].
      destruct (bseqb _ _) eqn:B; [|apply hardsend_error].
      right. exists x, y, z, u. split; [reflexivity|]. exists n. split; [reflexivity|].
      apply digest_given; assumption.
Qed.

Lemma blen_digest n p : blen (challenge_digest n p) = 40.
Proof. rewrite blen_length, digest_length. reflexivity. Qed.

(* ---- what a command may touch ---- *)

Definition session_cmd (c : cmd) : bool :=
  match c with CNsdel | CSelect | CAuth | CWait | CMirror | CMaster => true | _ => false end.

Definition ns_cmd (c : cmd) : bool := match c with CNsnew | CNsdel | CNsset => true | _ => false end.

Ltac destr_res H :=
  repeat match type of H with
  | context [match ?x with _ => _ end] => destruct x eqn:?; try discriminate H
  end.

Lemma reload_clients g i r w w' : namespace_reload g i r w = Some w' ->
  w_clients w' = w_clients w /\ w_eff w' = w_eff w.
Proof. unfold namespace_reload. intro H. destr_res H. injection H as <-. split; reflexivity. Qed.

Ltac done_inv H := injection H as <- <- <-.

Lemma told_inv o w rep st w' : told o w = Done rep st w' -> st = SUCCESS /\ w' = w.
Proof. unfold told. destruct o; [|discriminate]. intros [= _ <- <-]. auto. Qed.

Ltac told_step H := cbv zeta in H; apply told_inv in H; destruct H as (-> & ->).

Lemma handle_clients g v fd cl i r c argv w rep st w' : session_cmd c = false ->
  handle g v fd cl i r c argv w = Done rep st w' -> w_clients w' = w_clients w.
Proof.
  intros S H. destruct c; try discriminate S; unfold handle in H;
    try (done_inv H; reflexivity); try (told_step H; reflexivity).
  - destr_res H; done_inv H; reflexivity.
  - destr_res H; done_inv H; reflexivity.
  - unfold on_ns in H. destr_res H. done_inv H. reflexivity.
  - unfold on_ns in H. destr_res H. done_inv H. reflexivity.
  - destr_res H; done_inv H; reflexivity.
  - unfold command_nsnew in H. destr_res H; done_inv H; reflexivity.
  - unfold command_nsset in H. destr_res H; done_inv H; reflexivity.
  - unfold on_ns in H. destr_res H. done_inv H. reflexivity.
  - unfold command_reload in H. destr_res H; done_inv H; try reflexivity.
    match goal with E : namespace_reload _ _ _ _ = Some _ |- _ => apply reload_clients in E; apply E end.
  - unfold command_flush in H. destr_res H; done_inv H; try reflexivity.
    match goal with E : namespace_reload _ _ _ _ = Some _ |- _ => apply reload_clients in E; apply E end.
Qed.

Definition conf (o : option nsrec) : option (nscfg * bytes) := option_map (fun r => (r_cfg r, r_desc r)) o.
Definition confs (w : world) := map conf (w_slots w).

Lemma confs_slot w w' i : confs w' = confs w -> conf (slot i w') = conf (slot i w).
Proof.
  unfold confs, slot. intro H. rewrite !nget_nth.
  assert (E : nth_error (map conf (w_slots w')) (N.to_nat i) = nth_error (map conf (w_slots w)) (N.to_nat i)) by (rewrite H; reflexivity).
  rewrite !nth_error_map in E.
  destruct (nth_error (w_slots w') (N.to_nat i)), (nth_error (w_slots w) (N.to_nat i)); cbn [option_map] in E; try discriminate; try reflexivity.
  congruence.
Qed.

Lemma conf_nset i r x d k l : oget i l = Some r ->
  map conf (nset i (Some (mkNs (r_cfg r) (r_desc r) x d k)) l) = map conf l.
Proof.
  revert i. induction l as [|o l IH]; intros i H; [reflexivity|]. cbn [nset].
  unfold oget in H. cbn [nget] in H. destruct (i =? 0).
  - subst o. reflexivity.
  - cbn [map]. rewrite IH; [reflexivity|exact H].
Qed.

Lemma confs_put_est i r s w : slot i w = Some r -> confs (put_est i r s w) = confs w.
Proof. intro H. unfold confs, put_est. cbn [w_slots]. apply conf_nset. exact H. Qed.

Lemma find_ns_slot name : forall l i k r, find_ns name i l = Some (k, r) ->
  i <= k /\ oget (k - i) l = Some r /\ n_name (r_cfg r) = name.
Proof.
  induction l as [|o l IH]; intros i k r H; [discriminate|]. cbn [find_ns] in H.
  assert (Hl : find_ns name (i + 1) l = Some (k, r) -> i <= k /\ oget (k - i) (o :: l) = Some r /\ n_name (r_cfg r) = name).
  { intro G. apply IH in G. destruct G as (A & B & C). split; [lia|]. split; [|exact C].
    unfold oget in *. cbn [nget]. replace (k - i =? 0) with false by lia.
    replace (N.pred (k - i)) with (k - (i + 1)) by lia. exact B. }
  destruct o as [r0|]; [|apply Hl; exact H].
  destruct (bseqb (n_name (r_cfg r0)) name) eqn:E; [|apply Hl; exact H].
  injection H as <- <-. split; [lia|]. rewrite N.sub_diag. split; [reflexivity|]. apply bseqb_eq. exact E.
Qed.

Lemma get_slot name w i r : namespace_get name w = Some (i, r) -> slot i w = Some r /\ n_name (r_cfg r) = name.
Proof.
  unfold namespace_get. intro H. apply find_ns_slot in H. destruct H as (_ & A & B).
  rewrite N.sub_0_r in A. split; [exact A|exact B].
Qed.

Lemma reload_confs g i r w w' : slot i w = Some r -> namespace_reload g i r w = Some w' -> confs w' = confs w.
Proof. intro S. unfold namespace_reload. intro H. destr_res H. injection H as <-. apply confs_put_est. exact S. Qed.

Lemma handle_confs g v fd cl i r c argv w rep st w' : ns_cmd c = false -> slot i w = Some r ->
  handle g v fd cl i r c argv w = Done rep st w' -> confs w' = confs w /\ w_eff w' = w_eff w.
Proof.
  intros S Sl H. destruct c; try discriminate S; unfold handle in H;
    try (done_inv H; split; reflexivity); try (told_step H; split; reflexivity).
  - unfold command_wait in H. destr_res H; done_inv H; split; reflexivity.
  - destr_res H; done_inv H; split; reflexivity.
  - destr_res H; done_inv H; split; reflexivity.
  - unfold command_auth in H. destr_res H; done_inv H; split; reflexivity.
  - destr_res H; done_inv H; split; reflexivity.
  - destr_res H; done_inv H; split; try reflexivity. apply confs_put_est; exact Sl.
  - unfold on_ns in H. destr_res H. done_inv H. split; [apply confs_put_est; exact Sl|reflexivity].
  - unfold on_ns in H. destr_res H. done_inv H. split; [apply confs_put_est; exact Sl|reflexivity].
  - destr_res H; done_inv H; split; reflexivity.
  - unfold on_ns in H. destr_res H. done_inv H. split; [apply confs_put_est; exact Sl|reflexivity].
  - unfold command_select in H. destr_res H; done_inv H; split; reflexivity.
  - unfold command_reload in H. destr_res H; done_inv H; try (split; reflexivity).
    match goal with E : namespace_reload _ _ _ _ = Some _ |- _ => 
      pose proof (reload_clients _ _ _ _ _ E) as [_ ?];
      eapply reload_confs in E end; [split; eassumption|].
    match goal with E : namespace_get _ _ = Some _ |- _ => apply get_slot in E; apply E end.
  - unfold command_flush in H. destr_res H; done_inv H; try (split; reflexivity).
    match goal with E : namespace_reload _ _ _ _ = Some _ |- _ => 
      pose proof (reload_clients _ _ _ _ _ E) as [_ ?];
      eapply reload_confs in E end; [split; eassumption|exact Sl].
Qed.

(* ---- sessions ---- *)

Definition session_change (g : server) (v : env) (w : world) (argv : list bytes) (c : cmd) (cl cl' : client) : Prop :=
  match c with
  | CSelect => exists i r b, cl' = c_set_ns (Some i) b cl /\ namespace_get (cstr (arg 1 argv)) w = Some (i, r) /\
                 select_check argv (c_nonce cl) (r_cfg r) = inr b
  | CAuth =>
      (exists pw, v_adminpwd g = Some pw /\ cl' = c_set_admin true cl /\ argc argv = 2 /\ auth_proof (c_nonce cl) argv pw)
      \/ cl' = c_set_nonce (Some (v_nonce v)) cl /\ argc argv = 3 /\ ncase_eq (arg 2 argv) (str "CHALLENGE") = true
      \/ (exists pw, v_adminpwd g = Some pw /\ cl' = c_set_nonce None (c_set_admin true cl) /\ argc argv = 3 /\ auth_proof (c_nonce cl) argv pw)
      \/ cl' = c_set_nonce None cl
  | CWait => exists h tmo, cl' = c_set_watch (Some h) (v_sec v, v_usec v) tmo cl
  | CMirror => c_admin cl = true /\ cl' = c_set_mirror cl
  | CMaster => c_admin cl = true /\ cl' = c_set_master cl
  | _ => False
  end.

Lemma handle_sessions g v fd cl i r c argv w rep st w' :
  handle g v fd cl i r c argv w = Done rep st w' ->
  w_clients w' = w_clients w
  \/ (c = CNsdel /\ exists j r', slot j w = Some r' /\ c_ns cl <> Some j /\ w_clients w' = map (detach_client j) (w_clients w)
        /\ w_slots w' = nset j None (w_slots w))
  \/ exists cl', w' = put_client fd cl' w /\ session_change g v w argv c cl cl'.
Proof.
  intro H. destruct (session_cmd c) eqn:S; [|left; eapply handle_clients; eassumption].
  destruct c; try discriminate S; unfold handle in H.
  - unfold command_wait in H. destr_res H; done_inv H; try (left; reflexivity);
      right; right; eexists; (split; [reflexivity|]); cbn [session_change]; eexists _, _; reflexivity.
  - unfold admin_authorized in H. destruct (p_admin _) eqn:A; done_inv H; [|left; reflexivity].
    right; right. eexists. split; [reflexivity|]. split; [exact A|reflexivity].
  - unfold admin_authorized in H. destruct (p_admin _) eqn:A; done_inv H; [|left; reflexivity].
    right; right. eexists. split; [reflexivity|]. split; [exact A|reflexivity].
  - unfold command_auth in H. destruct (N.eqb_spec (argc argv) 2) as [E2|N2].
    + destruct (v_adminpwd g) as [pw|] eqn:Pw; [|done_inv H; left; reflexivity].
      destruct (args_validate argv 2); [done_inv H; left; reflexivity|].
      destruct (128 <? _); [done_inv H; left; reflexivity|].
      destruct (password_check _ _) eqn:Pc; done_inv H; [|left; reflexivity].
      right; right. eexists. split; [reflexivity|]. left. exists pw. split; [exact Pw|]. split; [reflexivity|].
      split; [exact E2|]. destruct (argc_2 _ E2) as (x & y & ->). left. exists x, y. split; [reflexivity|].
      unfold password_check in Pc. apply bseqb_eq in Pc. unfold gives_password. rewrite <- text_cstr. exact Pc.
    + destruct (N.eqb_spec (argc argv) 3) as [E3|N3]; [|done_inv H; left; reflexivity].
      destruct (args_validate argv 3); [done_inv H; left; reflexivity|].
      destruct (ncase_eq (arg 1 argv) _); cbn [negb] in H; [|done_inv H; left; reflexivity].
      destruct (ncase_eq (arg 2 argv) _) eqn:Ch.
      { done_inv H. right; right. eexists. split; [reflexivity|]. right; left. split; [reflexivity|]. split; assumption. }
      destruct (v_adminpwd g) as [pw|] eqn:Pw; [|done_inv H; left; reflexivity].
      destruct (c_nonce cl) as [n|] eqn:No; [|done_inv H; left; reflexivity].
      destruct (N.eqb_spec (blen (arg 2 argv)) 40) as [L|]; cbn [negb] in H; [|done_inv H; left; reflexivity].
      destruct (password_check _ _) eqn:Pc; done_inv H; right; right; eexists; (split; [reflexivity|]).
      * right; right; left. exists pw. split; [assumption|]. split; [reflexivity|]. split; [exact E3|].
        destruct (argc_3 _ E3) as (x & y & z & ->). right. exists x, y, z. split; [reflexivity|].
        exists n. split; [assumption|]. apply digest_given; [exact L|exact Pc].
      * right; right; right. reflexivity.
  - unfold command_nsdel in H. destr_res H; done_inv H; try (left; reflexivity).
    + right; left. split; [reflexivity|].
      match goal with E : namespace_get _ _ = Some (?j, ?r) |- _ => pose proof (get_slot _ _ _ _ E) as [Sj _]; exists j, r end.
      split; [exact Sj|]. split; [|split; reflexivity]. intro E. rewrite E in *. rewrite N.eqb_refl in *. discriminate.
  - unfold command_select in H. destr_res H; done_inv H; try (left; reflexivity).
    right; right. eexists. split; [reflexivity|]. do 3 eexists. split; [reflexivity|]. split; [eassumption|assumption].
Qed.

Definition same_session (c c' : client) : Prop :=
  c_ns c' = c_ns c /\ c_admin c' = c_admin c /\ c_writable c' = c_writable c /\ c_mirror c' = c_mirror c /\
  c_master c' = c_master c /\ c_nonce c' = c_nonce c /\ c_exec c' = c_exec c.

Definition same_sessions (l l' : list (option client)) : Prop :=
  forall k, match oget k l' with
            | Some c' => exists c, oget k l = Some c /\ same_session c c'
            | None => oget k l = None
            end.

Lemma same_session_refl c : same_session c c.
Proof. repeat split. Qed.

Lemma oget_cons {A} k (o : option A) l : oget k (o :: l) = if k =? 0 then o else oget (N.pred k) l.
Proof. unfold oget. cbn [nget]. destruct (k =? 0); reflexivity. Qed.

Lemma same_sessions_cons o o' l l' :
  same_sessions l l' ->
  (match o' with Some c' => exists c, o = Some c /\ same_session c c' | None => o = None end) ->
  same_sessions (o :: l) (o' :: l').
Proof.
  intros H Ho k. rewrite !oget_cons. destruct (k =? 0); [exact Ho|apply H].
Qed.

Lemma same_sessions_refl l : same_sessions l l.
Proof. intro k. destruct (oget k l) as [c|]; [exists c; split; [reflexivity|apply same_session_refl]|reflexivity]. Qed.

Lemma same_o (o : option client) : match o with Some c' => exists c, o = Some c /\ same_session c c' | None => o = None end.
Proof. destruct o as [c|]; [exists c; split; [reflexivity|apply same_session_refl]|reflexivity]. Qed.

Lemma posthandle_sessions v argv w fd cl h l : forall k out l',
  posthandle v argv w fd cl h k l = Some (out, l') -> same_sessions l l'.
Proof.
  induction l as [|o l IH]; intros k out l' H; cbn [posthandle] in H.
  { injection H as <- <-. apply same_sessions_refl. }
  destruct (posthandle v argv w fd cl h (k + 1) l) as [[out0 t']|] eqn:E; [|discriminate].
  apply IH in E.
  destr_res H; injection H as <- <-; (apply same_sessions_cons; [assumption|]); subst; try reflexivity;
  eexists; (split; [reflexivity|]); repeat split.
Qed.

Lemma posthandler_world v fd argv w out w' : posthandler v fd argv w = Some (out, w') ->
  w_tb w' = w_tb w /\ w_slots w' = w_slots w /\ w_eff w' = w_eff w /\ same_sessions (w_clients w) (w_clients w').
Proof.
  unfold posthandler. intro H. destr_res H; injection H as <- <-;
    try (repeat split; apply same_sessions_refl).
  cbn [w_tb w_slots w_eff w_clients]. repeat split. eapply posthandle_sessions. eassumption.
Qed.

Lemma timeout_sessions now l : forall k, same_sessions l (snd (watch_timeout now k l)).
Proof.
  induction l as [|o l IH]; intro k; cbn [watch_timeout].
  { apply same_sessions_refl. }
  specialize (IH (k + 1)). destruct (watch_timeout now (k + 1) l) as [out t'] eqn:E. cbn [snd] in IH.
  destruct o as [c|]; cbn [snd].
  - destruct (c_watch c); [destruct (_ <? _)|]; cbn [snd]; (apply same_sessions_cons; [assumption|]).
    + eexists. split; [reflexivity|]. repeat split.
    + apply same_o with (o := Some c).
    + apply same_o with (o := Some c).
  - apply same_sessions_cons; [assumption|reflexivity].
Qed.

Lemma rotate_frame old ks : forall w, w_clients (files_rotate old ks w) = w_clients w /\ w_eff (files_rotate old ks w) = w_eff w
  /\ confs (files_rotate old ks w) = confs w.
Proof.
  induction ks as [|k ks IH]; intro w; cbn [files_rotate]; [repeat split|].
  destruct (IH (match slot k w with
                | Some r => if x_updated (r_ix r) && existsb (N.eqb k) old
                            then put_est k r (jump_next (est_of w r)) w else w
                | None => w
                end)) as (A & B & C).
  rewrite A, B, C. destruct (slot k w) as [r|] eqn:S; [|repeat split].
  destruct (_ && _); [|repeat split]. split; [reflexivity|]. split; [reflexivity|]. apply confs_put_est. exact S.
Qed.

(* ---- requests ---- *)

(* the words a request is executed with: a replication master's last one is a number
   used by the replication only *)
Definition effective (cl : client) (argv : list bytes) : list bytes :=
  if c_master cl then removelast argv else argv.

Lemma request_inv g v fd argv w out st w' : request g v fd argv w = SDone out st w' ->
  exists cl, client_at fd w = Some cl /\
   ((out = [] /\ w' = w) \/
    exists rep w1 out1, dispatch g v fd cl (effective cl argv) w = Done rep st w1 /\
      posthandler v fd (effective cl argv) w1 = Some (out1, w') /\ out = (fd, rep) :: out1).
Proof.
  unfold request, effective. intro H. destruct (client_at fd w) as [cl|]; [|discriminate].
  exists cl. split; [reflexivity|].
  destruct (c_master cl).
  - destruct (32 <? _); [injection H as <- <- <-; left; split; reflexivity|].
    destruct (_ <=? _); [discriminate|].
    destruct (dispatch _ _ _ _ _ _) as [rep st1 w1|] eqn:D; [|discriminate].
    destruct (posthandler _ _ _ _) as [[o1 w2]|] eqn:P; [|discriminate].
    injection H as <- <- <-. right. exists rep, w1, o1. repeat split; assumption.
  - destruct (dispatch _ _ _ _ _ _) as [rep st1 w1|] eqn:D; [|discriminate].
    destruct (posthandler _ _ _ _) as [[o1 w2]|] eqn:P; [|discriminate].
    injection H as <- <- <-. right. exists rep, w1, o1. repeat split; assumption.
Qed.

Lemma dispatch_inv g v fd cl argv w rep st w' : dispatch g v fd cl argv w = Done rep st w' ->
  (c_ns cl = None /\ w' = w /\ is_error rep) \/
  (exists i r, c_ns cl = Some i /\ slot i w = Some r /\
    ((lookup_handler (arg 0 argv) = None /\ w' = put_client fd (c_set_exec None cl) w /\ is_error rep) \/
     exists h c, lookup_handler (arg 0 argv) = Some (h, c) /\
       handle g v fd (c_set_exec (Some h) cl) i r c argv (put_client fd (c_set_exec (Some h) cl) w) = Done rep st w')).
Proof.
  unfold dispatch. intro H. destruct (c_ns cl) as [i|].
  2:{ done_inv H. left. split; [reflexivity|]. split; [reflexivity|apply hardsend_error]. }
  right. destruct (slot i w) as [r|] eqn:S; [|discriminate]. exists i, r. split; [reflexivity|]. split; [exact S|].
  destruct (lookup_handler (arg 0 argv)) as [[h c]|].
  - right. exists h, c. split; [reflexivity|exact H].
  - left. done_inv H. split; [reflexivity|]. split; [reflexivity|apply hardsend_error].
Qed.

Definition kept (c c' : client) : Prop :=
  (c_ns c' = c_ns c \/ c_ns c' = None) /\ c_writable c' = c_writable c /\ c_admin c' = c_admin c /\ c_nonce c' = c_nonce c
  /\ c_master c' = c_master c /\ c_mirror c' = c_mirror c.

Lemma kept_refl c : kept c c.
Proof. repeat split. left. reflexivity. Qed.

Lemma kept_same c c1 c' : kept c c1 -> same_session c1 c' -> kept c c'.
Proof.
  intros (A & B & C & D & E & F) (A' & C' & B' & F' & E' & D' & _). unfold kept.
  rewrite A', B', C', D', E', F'. repeat split; assumption.
Qed.

Lemma kept_exec h c c1 : kept (c_set_exec h c) c1 -> kept c c1.
Proof. intro H. exact H. Qed.

Lemma connect_at g fd w k c' :
  client_at k (mkWorld (w_tb w) (w_slots w) (w_eff w) (nset fd (Some (new_client g)) (grow (fd + 1) (w_clients w)))) = Some c' ->
  (k = fd /\ c' = new_client g) \/ client_at k w = Some c'.
Proof.
  rewrite !client_oget. cbn [w_clients]. rewrite oget_nset.
  destruct (N.eqb_spec fd k) as [->|]; cbn [andb].
  - destruct (_ <? _) eqn:L; [intro H; left; split; congruence|].
    intro H. apply oget_lt in H. lia.
  - intro H. right. unfold oget, grow in *.
    destruct (N.lt_ge_cases k (nlen (w_clients w))).
    + rewrite nget_app1 in H by assumption. exact H.
    + rewrite nget_app2 in H by assumption. destruct (nget _ _) as [o|] eqn:E; [|discriminate].
      apply nget_In in E. apply repeat_spec in E. subst o. discriminate.
Qed.

Lemma boot_inv g l w : boot g l = Some w -> exists name desc d rest x t slots, l = (name, desc, d) :: rest /\ descriptor_load name desc = Some x /\
  load_all (g_mode (v_set g)) 0 l empty_table = Some (t, slots) /\ w = mkWorld t slots (nlen slots) [].
Proof.
  unfold boot. destruct l as [|((name, desc), d) rest]; [discriminate|]. destruct (descriptor_load name desc) as [x|] eqn:D; [|discriminate].
  destruct (load_all _ _ _ _) as [[t slots]|] eqn:L; [|discriminate]. intro H. injection H as <-. exists name, desc, d, rest, x, t, slots. auto.
Qed.

Lemma step_session g e w out st w' k c' :
  run_sevent g e w = SDone out st w' -> client_at k w' = Some c' ->
  (e = SConnect k /\ c' = new_client g /\ w_slots w' = w_slots w) \/
  exists c, client_at k w = Some c /\
    (kept c c' \/
     exists v argv h cmd cl', e = SRequest k v argv /\ lookup_handler (arg 0 (effective c argv)) = Some (h, cmd) /\
       session_change g v (put_client k (c_set_exec (Some h) c) w) (effective c argv) cmd (c_set_exec (Some h) c) cl' /\
       same_session cl' c' /\ w_slots w' = w_slots w).
Proof.
  intros R C. destruct e as [fd|fd|fd v argv|now old|ord]; cbn [run_sevent] in R.
  - unfold connect in R. destruct (client_at fd w); [discriminate|]. injection R as <- <- <-.
    apply connect_at in C. destruct C as [[-> ->]|C]; [left; repeat split|].
    right. exists c'. split; [exact C|]. left. apply kept_refl.
  - unfold close in R. injection R as <- <- <-. right. exists c'. split; [|left; apply kept_refl].
    rewrite client_oget in *. cbn [w_clients] in C. rewrite oget_nset in C.
    destruct (_ && _); [discriminate|exact C].
  - right. apply request_inv in R. destruct R as (cl & Hcl & [[-> ->]|(rep & w1 & out1 & D & P & ->)]).
    { exists c'. split; [exact C|left; apply kept_refl]. }
    apply posthandler_world in P. destruct P as (_ & Psl & _ & Ps).
    specialize (Ps k). rewrite client_oget in C. rewrite C in Ps. destruct Ps as (c1 & C1 & Same).
    apply dispatch_inv in D. destruct D as [(_ & -> & _)|(i & r & Hns & Hsl & D)].
    { exists c1. split; [exact C1|]. left. apply (kept_same _ c1); [apply kept_refl|exact Same]. }
    destruct D as [(_ & -> & _)|(h & cmd & Lk & D)].
    { change (oget k (w_clients (put_client fd (c_set_exec None cl) w))) with (client_at k (put_client fd (c_set_exec None cl) w)) in C1.
      destruct (N.eq_dec k fd) as [->|NE].
      - rewrite (client_put_same _ _ cl) in C1 by exact Hcl. injection C1 as <-. exists cl. split; [exact Hcl|].
        left. apply (kept_same _ (c_set_exec None cl)); [apply (kept_exec None), kept_refl|exact Same].
      - rewrite client_put_other in C1 by exact NE. exists c1. split; [exact C1|]. left. apply (kept_same _ c1); [apply kept_refl|exact Same]. }
    set (cl1 := c_set_exec (Some h) cl) in *. set (w0 := put_client fd cl1 w) in *.
    assert (H0 : client_at fd w0 = Some cl1) by (apply (client_put_same _ _ cl); exact Hcl).
    assert (Back : forall c0, client_at k w0 = Some c0 -> exists c, client_at k w = Some c /\ kept c c0).
    { intros c0 G. destruct (N.eq_dec k fd) as [->|NE].
      - rewrite H0 in G. injection G as <-. exists cl. split; [exact Hcl|]. apply (kept_exec (Some h)), kept_refl.
      - unfold w0 in G. rewrite client_put_other in G by exact NE. exists c0. split; [exact G|apply kept_refl]. }
    apply handle_sessions in D. destruct D as [E|[(_ & j & r' & _ & _ & E & _)|(cl' & E & Ch)]].
    + rewrite E in C1. destruct (Back c1 C1) as (c & Hc & K). exists c. split; [exact Hc|]. left. exact (kept_same _ _ _ K Same).
    + rewrite E, detach_at in C1. destruct (oget k (w_clients w0)) as [c0|] eqn:G; [|discriminate].
      destruct (Back c0 G) as (c & Hc & K). exists c. split; [exact Hc|]. left.
      assert (K1 : kept c c1).
      { cbn [detach_client] in C1. destruct (c_ns c0) as [b|]; [destruct (b =? j)|]; injection C1 as <-; try exact K.
        destruct K as (K1 & K2). split; [right; reflexivity|exact K2]. }
      exact (kept_same _ _ _ K1 Same).
    + subst w1. destruct (N.eq_dec k fd) as [->|NE].
      * change (oget fd (w_clients (put_client fd cl' w0))) with (client_at fd (put_client fd cl' w0)) in C1.
        rewrite (client_put_same _ _ cl1) in C1 by exact H0. injection C1 as <-.
        exists cl. split; [exact Hcl|]. right. exists v, argv, h, cmd, cl'. split; [reflexivity|]. split; [exact Lk|].
        split; [exact Ch|]. split; [exact Same|]. rewrite Psl. reflexivity.
      * change (oget k (w_clients (put_client fd cl' w0))) with (client_at k (put_client fd cl' w0)) in C1.
        rewrite client_put_other in C1 by exact NE. destruct (Back c1 C1) as (c & Hc & K).
        exists c. split; [exact Hc|]. left. exact (kept_same _ _ _ K Same).
  - right. unfold idle in R.
    pose proof (timeout_sessions now (w_clients w) 0 k) as S.
    destruct (watch_timeout now 0 (w_clients w)) as [o l] eqn:E. cbn [snd] in S.
    injection R as <- <- <-.
    assert (Ck : oget k l = Some c').
    { rewrite client_oget in C. destruct (v_rotate g); [|exact C].
      destruct (rotate_frame old (upto (length (w_slots w)) 0) (mkWorld (w_tb w) (w_slots w) (w_eff w) l)) as (Rc & _).
      rewrite Rc in C. exact C. }
    rewrite Ck in S. destruct S as (c & Hc & Same). exists c. split; [exact Hc|]. left.
    apply (kept_same _ c); [apply kept_refl|exact Same].
  - destruct (boot g ord) as [w1|] eqn:B; [|discriminate]. injection R as <- <- <-.
    apply boot_inv in B. destruct B as (? & ? & ? & ? & ? & t & sl & _ & _ & _ & ->). discriminate C.
Qed.

(* ---- C18 ---- *)

Lemma write_needs_password g e w out st w' fd c' i r' pw :
  run_sevent g e w = SDone out st w' ->
  client_at fd w' = Some c' -> c_ns c' = Some i -> c_writable c' = true ->
  slot i w' = Some r' -> n_pass (r_cfg r') = Some pw ->
  (exists c, client_at fd w = Some c /\ c_ns c = Some i /\ c_writable c = true)
  \/ (e = SConnect fd /\ i = 0 /\ v_protect g = false)
  \/ (exists v argv c h, e = SRequest fd v argv /\ client_at fd w = Some c /\
        lookup_handler (arg 0 (effective c argv)) = Some (h, CSelect) /\
        text (arg 1 (effective c argv)) = n_name (r_cfg r') /\
        select_proof (c_nonce c) (effective c argv) pw).
Proof.
  intros R C Hn Hw Hs Hp. destruct (step_session _ _ _ _ _ _ _ _ R C) as [(-> & -> & _)|(c & Hc & [K|X])].
  - right; left. split; [reflexivity|]. cbn in Hn, Hw. split; [congruence|]. destruct (v_protect g); [discriminate|reflexivity].
  - left. exists c. split; [exact Hc|]. destruct K as ([K|K] & Kw & _); [|congruence]. split; congruence.
  - destruct X as (v & argv & h & cmd & cl' & -> & Lk & Ch & Same & Sl).
    destruct Same as (Sn & _ & Sw & _).
    destruct cmd; cbn [session_change] in Ch; try contradiction.
    + destruct Ch as (h' & tmo & ->). left. exists c. split; [exact Hc|]. cbn in Sn, Sw. split; congruence.
    + destruct Ch as (_ & ->). left. exists c. split; [exact Hc|]. cbn in Sn, Sw. split; congruence.
    + destruct Ch as (_ & ->). left. exists c. split; [exact Hc|]. cbn in Sn, Sw. split; congruence.
    + left. exists c. split; [exact Hc|].
      destruct Ch as [(p & _ & -> & _)|[[-> _]|[(p & _ & -> & _)| ->]]]; cbn in Sn, Sw; split; congruence.
    + right; right. destruct Ch as (i1 & r1 & b & -> & G & Sc). cbn in Sn, Sw.
      apply get_slot in G. destruct G as (G & Gn).
      assert (i1 = i) by congruence. subst i1.
      assert (r1 = r').
      { unfold slot in G, Hs. rewrite Sl in Hs. cbn [put_client w_slots] in G. rewrite Hs in G. congruence. }
      subst r1. exists v, argv, c, h. split; [reflexivity|]. split; [exact Hc|]. split; [exact Lk|].
      rewrite text_cstr in Gn. split; [symmetry; exact Gn|].
      pose proof (select_check_sound (effective c argv) (c_nonce c) (r_cfg r') pw Hp) as S0.
      cbn [c_set_exec c_nonce] in Sc. rewrite Sc in S0. destruct b; [exact S0|congruence].
Qed.

(* the decision of SELECT on a protected namespace *)
Lemma select_decision g v fd cl argv w rep st w' h j rj pw i0 r0 :
  client_at fd w = Some cl -> c_ns cl = Some i0 -> slot i0 w = Some r0 ->
  lookup_handler (arg 0 argv) = Some (h, CSelect) ->
  namespace_get (text (arg 1 argv)) w = Some (j, rj) -> n_pass (r_cfg rj) = Some pw ->
  dispatch g v fd cl argv w = Done rep st w' ->
  exists cl', client_at fd w' = Some cl' /\ w_slots w' = w_slots w /\ w_tb w' = w_tb w /\
   ((rep = hardsend "+OK" /\ c_ns cl' = Some j /\ c_writable cl' = true /\ select_proof (c_nonce cl) argv pw)
    \/ (rep = hardsend "+OK" /\ c_ns cl' = Some j /\ c_writable cl' = false /\ argc argv = 2 /\ n_public (r_cfg rj) = true)
    \/ (is_error rep /\ c_ns cl' = c_ns cl /\ c_writable cl' = c_writable cl)).
Proof.
  intros Hc Hn Hs Lk G Hp D. unfold dispatch in D. rewrite Hn, Hs, Lk in D. unfold handle in D.
  set (cl1 := c_set_exec (Some h) cl) in *. set (w0 := put_client fd cl1 w) in *.
  assert (H0 : client_at fd w0 = Some cl1) by (apply (client_put_same _ _ cl); exact Hc).
  unfold command_select in D.
  assert (Err : forall e : bytes, is_error e -> Done e SUCCESS w0 = Done rep st w' ->
     exists cl', client_at fd w' = Some cl' /\ w_slots w' = w_slots w /\ w_tb w' = w_tb w /\
   ((rep = hardsend "+OK" /\ c_ns cl' = Some j /\ c_writable cl' = true /\ select_proof (c_nonce cl) argv pw)
    \/ (rep = hardsend "+OK" /\ c_ns cl' = Some j /\ c_writable cl' = false /\ argc argv = 2 /\ n_public (r_cfg rj) = true)
    \/ (is_error rep /\ c_ns cl' = c_ns cl /\ c_writable cl' = c_writable cl))).
  { intros e He X. injection X as <- <- <-. exists cl1. split; [exact H0|]. split; [reflexivity|]. split; [reflexivity|].
    right; right. split; [exact He|]. split; reflexivity. }
  destruct (N.ltb_spec (argc argv) 2); [apply (Err _ (hardsend_error _) D)|].
  unfold args_namespace in D. destruct (128 <? _); [apply (Err _ (hardsend_error _) D)|].
  rewrite text_cstr in D. change (namespace_get (text (arg 1 argv)) w0) with (namespace_get (text (arg 1 argv)) w) in D.
  rewrite G in D.
  pose proof (select_check_sound argv (c_nonce cl) (r_cfg rj) pw Hp) as S0.
  change (c_nonce cl1) with (c_nonce cl) in D.
  destruct (select_check argv (c_nonce cl) (r_cfg rj)) as [e|b]; [apply (Err _ S0 D)|].
  injection D as <- <- <-. eexists. split; [apply (client_put_same _ _ cl1); exact H0|].
  split; [reflexivity|]. split; [reflexivity|]. destruct b.
  - left. repeat split. exact S0.
  - right; left. destruct S0 as (A & P). repeat split; [lia|exact P].
Qed.

(* the right password opens the namespace *)
Lemma select_accepts g v fd cl argv w h j rj pw i0 r0 :
  client_at fd w = Some cl -> c_ns cl = Some i0 -> slot i0 w = Some r0 ->
  lookup_handler (arg 0 argv) = Some (h, CSelect) ->
  namespace_get (text (arg 1 argv)) w = Some (j, rj) -> n_pass (r_cfg rj) = Some pw ->
  blen (arg 1 argv) <= 128 ->
  ((exists c0 name given, argv = [c0; name; given] /\ text given = pw /\ blen given <= 255)
   \/ (exists c0 name n, argv = [c0; name; str "SECURE"; challenge_digest n pw] /\ c_nonce cl = Some n)) ->
  exists w' cl', dispatch g v fd cl argv w = Done (hardsend "+OK") SUCCESS w' /\
    client_at fd w' = Some cl' /\ c_ns cl' = Some j /\ c_writable cl' = true.
Proof.
  intros Hc Hn Hs Lk G Hp L P. unfold dispatch. rewrite Hn, Hs, Lk. unfold handle.
  set (cl1 := c_set_exec (Some h) cl) in *. set (w0 := put_client fd cl1 w) in *.
  assert (H0 : client_at fd w0 = Some cl1) by (apply (client_put_same _ _ cl); exact Hc).
  unfold command_select.
  replace (argc argv <? 2) with false by (destruct P as [(? & ? & ? & -> & _)|(? & ? & ? & -> & _)]; reflexivity).
  unfold args_namespace. replace (128 <? blen (arg 1 argv)) with false by lia.
  rewrite text_cstr. change (namespace_get (text (arg 1 argv)) w0) with (namespace_get (text (arg 1 argv)) w).
  rewrite G.
  assert (S : select_check argv (c_nonce cl1) (r_cfg rj) = inr true).
  { change (c_nonce cl1) with (c_nonce cl). unfold select_check. rewrite Hp.
    destruct P as [(a & b & c & -> & T & L3)|(a & b & n & -> & No)].
    - change (argc [a; b; c]) with 3. cbn [N.ltb N.compare N.eqb Pos.compare Pos.compare_cont Pos.eqb].
      change (arg 2 [a; b; c]) with c. replace (255 <? blen c) with false by lia.
      rewrite text_cstr, T, bseqb_refl. reflexivity.
    - change (argc [a; b; str "SECURE"; challenge_digest n pw]) with 4.
      cbn [N.ltb N.compare N.eqb Pos.compare Pos.compare_cont Pos.eqb].
      change (arg 2 [a; b; str "SECURE"; challenge_digest n pw]) with (str "SECURE").
      change (arg 3 [a; b; str "SECURE"; challenge_digest n pw]) with (challenge_digest n pw).
      change (ncase_eq (str "SECURE") (str "SECURE")) with true. cbn [negb]. rewrite No, blen_digest, digest_accepted. reflexivity. }
  rewrite S. eexists _, _. split; [reflexivity|]. split; [apply (client_put_same _ _ cl1); exact H0|]. split; reflexivity.
Qed.

(* ---- C19 ---- *)

Definition admin_cmd (c : cmd) : bool :=
  match c with
  | CNsnew | CNsdel | CNsset | CReload | CNsjump | CIndex | CData | CHooks | CMirror | CMaster => true
  | _ => false
  end.

Lemma nset_same {A} i (l : list A) x : nget i l = Some x -> nset i x l = l.
Proof.
  revert i. induction l as [|a l IH]; intros i H; [reflexivity|]. cbn [nset nget] in *.
  destruct (i =? 0); [congruence|]. rewrite IH by exact H. reflexivity.
Qed.

Lemma put_est_same i r w : slot i w = Some r -> put_est i r (est_of w r) w = w.
Proof.
  intro H. unfold put_est, est_of. cbn [tb ix dt dk].
  unfold slot in H. destruct (nget i (w_slots w)) as [o|] eqn:E; [|discriminate]. subst o.
  rewrite nset_same; [destruct w; reflexivity|]. rewrite E. destruct r; reflexivity.
Qed.

Lemma admin_denied g v fd cl argv w i0 r0 h c :
  c_ns cl = Some i0 -> slot i0 w = Some r0 -> c_admin cl = false ->
  lookup_handler (arg 0 argv) = Some (h, c) -> admin_cmd c = true ->
  dispatch g v fd cl argv w = Done (hardsend "-Permission denied") SUCCESS (put_client fd (c_set_exec (Some h) cl) w).
Proof.
  intros Hn Hs Ha Lk A. unfold dispatch. rewrite Hn, Hs, Lk.
  set (w0 := put_client fd (c_set_exec (Some h) cl) w).
  assert (S0 : slot i0 w0 = Some r0) by exact Hs.
  assert (Pa : p_admin (perm_of (c_set_exec (Some h) cl)) = false) by exact Ha.
  destruct c; try discriminate A; unfold handle;
    unfold command_index, command_data, command_nsnew, command_nsdel, command_nsset, command_reload, on_ns, command_nsjump,
      admin_authorized; rewrite Pa; try reflexivity; rewrite put_est_same by exact S0; reflexivity.
Qed.

Lemma ns_cmd_admin c : ns_cmd c = true -> admin_cmd c = true.
Proof. destruct c; intro H; try discriminate H; reflexivity. Qed.

Lemma nonadmin_settings g v fd argv w out st w' cl :
  client_at fd w = Some cl -> c_admin cl = false -> request g v fd argv w = SDone out st w' ->
  confs w' = confs w /\ w_eff w' = w_eff w.
Proof.
  intros Hc Ha R. apply request_inv in R. destruct R as (cl0 & Hcl & R). rewrite Hc in Hcl. injection Hcl as <-.
  destruct R as [[-> ->]|(rep & w1 & out1 & D & P & ->)]; [split; reflexivity|].
  apply posthandler_world in P. destruct P as (_ & Ps & Pe & _).
  unfold confs. rewrite Ps, Pe. change (map conf (w_slots w1)) with (confs w1).
  pose proof D as D0. apply dispatch_inv in D. destruct D as [(_ & -> & _)|(i & r & Hn & Hs & [(_ & -> & _)|(h & c & Lk & D)])].
  - split; reflexivity.
  - split; reflexivity.
  - destruct (ns_cmd c) eqn:Nc.
    + rewrite (admin_denied g v fd cl _ w i r h c Hn Hs Ha Lk (ns_cmd_admin c Nc)) in D0. injection D0 as <- <- <-. split; reflexivity.
    + apply handle_confs in D; [exact D|exact Nc|exact Hs].
Qed.

Lemma admin_needs_proof g e w out st w' fd c' :
  run_sevent g e w = SDone out st w' -> client_at fd w' = Some c' -> c_admin c' = true ->
  (exists c, client_at fd w = Some c /\ c_admin c = true)
  \/ (e = SConnect fd /\ v_adminpwd g = None)
  \/ (exists v argv c h pw, e = SRequest fd v argv /\ client_at fd w = Some c /\
        lookup_handler (arg 0 (effective c argv)) = Some (h, CAuth) /\
        v_adminpwd g = Some pw /\ auth_proof (c_nonce c) (effective c argv) pw).
Proof.
  intros R C Ha. destruct (step_session _ _ _ _ _ _ _ _ R C) as [(-> & -> & _)|(c & Hc & [K|X])].
  - right; left. split; [reflexivity|]. cbn in Ha. destruct (v_adminpwd g); [discriminate|reflexivity].
  - left. exists c. split; [exact Hc|]. destruct K as (_ & _ & K & _). congruence.
  - destruct X as (v & argv & h & cmd & cl' & -> & Lk & Ch & Same & Sl).
    destruct Same as (_ & Sa & _). rewrite Sa in Ha.
    destruct cmd; cbn [session_change] in Ch; try contradiction.
    + destruct Ch as (h' & tmo & ->). left. exists c. split; assumption.
    + destruct Ch as (_ & ->). left. exists c. split; assumption.
    + destruct Ch as (_ & ->). left. exists c. split; assumption.
    + destruct Ch as [(p & Hp & -> & _ & Pr)|[[-> _]|[(p & Hp & -> & _ & Pr)| ->]]].
      * right; right. exists v, argv, c, h, p. repeat split; assumption.
      * left. exists c. split; assumption.
      * right; right. exists v, argv, c, h, p. repeat split; assumption.
      * left. exists c. split; assumption.
    + destruct Ch as (i1 & r1 & b & -> & _). left. exists c. split; assumption.
Qed.

(* ---- letter case and abbreviations ---- *)

Lemma tolower_ok b : tolower b = lower_byte b.
Proof. destruct b; reflexivity. Qed.

Lemma lower_nul b : lower_byte b = x00 <-> b = x00.
Proof. destruct b; split; intro H; try discriminate H; reflexivity. Qed.

Lemma ncase_spec name : Forall (fun x => x <> x00) name -> forall key, ncase_eq key name = true <-> abbreviates key name.
Proof.
  unfold abbreviates. induction name as [|c name IH]; intros F key.
  - destruct key as [|k key]; cbn [ncase_eq lower map].
    + split; [|reflexivity]. intros _. left. exists []. reflexivity.
    + destruct (beqb_spec k x00) as [->|NE].
      * split; [|reflexivity]. intros _. right. exists [], key. split; reflexivity.
      * split; [discriminate|]. intros [(rest & H)|(k0 & junk & E & H)]; [discriminate H|].
        destruct k0 as [|? ?]; [|discriminate H]. cbn [app] in E. congruence.
  - inversion F as [|? ? Fc Fn]. subst. specialize (IH Fn). destruct key as [|k key]; cbn [ncase_eq].
    + split; [|reflexivity]. intros _. left. exists (lower (c :: name)). reflexivity.
    + rewrite !tolower_ok, andb_true_iff, IH. split.
      * intros [E H]. destruct (beqb_spec (lower_byte k) (lower_byte c)) as [El|]; [|discriminate].
        destruct H as [(rest & H)|(k0 & junk & -> & H)].
        -- left. exists rest. cbn [lower map app]. unfold lower in H. rewrite H, El. reflexivity.
        -- right. exists (k :: k0), junk. split; [reflexivity|]. cbn [lower map]. unfold lower in H. rewrite H, El. reflexivity.
      * intros [(rest & H)|(k0 & junk & E & H)].
        -- cbn [lower map app] in H. pose proof (f_equal (hd x00) H) as Hh. pose proof (f_equal (@tl byte) H) as Ht.
           cbn [hd tl] in Hh, Ht. split; [rewrite Hh; destruct (beqb_spec (lower_byte k) (lower_byte k)); [reflexivity|contradiction]|].
           left. exists rest. exact Ht.
        -- destruct k0 as [|k' k0]; [discriminate H|]. cbn [app] in E. injection E as <- ->.
           cbn [lower map] in H. pose proof (f_equal (hd x00) H) as Hh. pose proof (f_equal (@tl byte) H) as Ht.
           cbn [hd tl] in Hh, Ht. split; [rewrite Hh; destruct (beqb_spec (lower_byte c) (lower_byte c)); [reflexivity|contradiction]|].
           right. exists k0, junk. split; [reflexivity|exact Ht].
Qed.

Lemma names_text : Forall (fun p => Forall (fun x => x <> x00) (str (fst p))) commands_handlers.
Proof. unfold commands_handlers. repeat (apply Forall_cons; [repeat (apply Forall_cons; [discriminate|]); apply Forall_nil|]). apply Forall_nil. Qed.

Lemma find_handler_spec key l : Forall (fun p => Forall (fun x => x <> x00) (str (fst p))) l -> forall i,
  match find_handler key i l with
  | Some (k, c) => exists a name b, l = a ++ (name, c) :: b /\ k = i + nlen a /\ abbreviates key (str name) /\
                     Forall (fun p => ~ abbreviates key (str (fst p))) a
  | None => Forall (fun p => ~ abbreviates key (str (fst p))) l
  end.
Proof.
  induction 1 as [|[name c] l F _ IH]; intro i; cbn [find_handler]; [constructor|].
  cbn [fst] in F. pose proof (ncase_spec _ F key) as Sp. destruct (ncase_eq key (str name)).
  - exists [], name, l. cbn [app nlen]. split; [reflexivity|]. split; [lia|]. split; [apply Sp; reflexivity|constructor].
  - assert (Nn : ~ abbreviates key (str name)) by (intro A; apply Sp in A; discriminate A).
    specialize (IH (i + 1)). destruct (find_handler key (i + 1) l) as [[k c']|].
    + destruct IH as (a & nm & b & -> & -> & A & Fa). exists ((name, c) :: a), nm, b.
      split; [reflexivity|]. cbn [nlen]. split; [lia|]. split; [exact A|]. constructor; assumption.
    + constructor; assumption.
Qed.

Lemma ncase_lower name : forall key key', lower key = lower key' -> ncase_eq key name = ncase_eq key' name.
Proof.
  induction name as [|c name IH]; intros key key' E.
  - destruct key as [|k key], key' as [|k' key']; try discriminate E; [reflexivity|].
    cbn [lower map] in E. pose proof (f_equal (hd x00) E) as Hh. cbn [hd] in Hh. cbn [ncase_eq].
    destruct (beqb_spec k x00) as [->|N1], (beqb_spec k' x00) as [->|N2]; try reflexivity; exfalso.
    + apply N2. apply lower_nul. rewrite <- Hh. reflexivity.
    + apply N1. apply lower_nul. rewrite Hh. reflexivity.
  - destruct key as [|k key], key' as [|k' key']; try discriminate E; [reflexivity|].
    cbn [lower map] in E. pose proof (f_equal (hd x00) E) as Hh. pose proof (f_equal (@tl byte) E) as Ht. cbn [hd tl] in Hh, Ht.
    cbn [ncase_eq]. rewrite !tolower_ok, Hh, (IH key key' Ht). reflexivity.
Qed.

Lemma find_lower key key' l : lower key = lower key' -> forall i, find_handler key i l = find_handler key' i l.
Proof.
  intro E. induction l as [|[name c] l IH]; intro i; cbn [find_handler]; [reflexivity|].
  rewrite (ncase_lower _ _ _ E), IH. reflexivity.
Qed.

Lemma full_names i name c key : nget i commands_handlers = Some (name, c) -> lower key = lower (str name) ->
  lookup_handler key = Some (i, c).
Proof.
  intros G E. unfold lookup_handler. rewrite (find_lower key (str name) _ E).
  assert (L : i < 37) by (apply nget_lt in G; exact G).
  assert (K : forall j, j < 37 -> match nget j commands_handlers with
                            | Some (nm, d) => find_handler (str nm) 0 commands_handlers = Some (j, d) | None => True end).
  { intros j Lj. destruct j as [|p]; [reflexivity|].
    do 6 (try (destruct p as [p|p|]; [| |reflexivity])); try lia; try reflexivity. }
  specialize (K i L). rewrite G in K. exact K.
Qed.

Lemma unknown_runs_none g v fd cl argv w i r :
  c_ns cl = Some i -> slot i w = Some r ->
  Forall (fun p => ~ abbreviates (arg 0 argv) (str (fst p))) commands_handlers ->
  dispatch g v fd cl argv w = Done (hardsend "-Command not supported") SUCCESS (put_client fd (c_set_exec None cl) w).
Proof.
  intros Hn Hs F. unfold dispatch. rewrite Hn, Hs. unfold lookup_handler.
  pose proof (find_handler_spec (arg 0 argv) commands_handlers names_text 0) as Sp.
  destruct (find_handler _ 0 _) as [[k c]|]; [|reflexivity].
  exfalso. destruct Sp as (a & name & b & E & _ & A & _). rewrite E in F. apply Forall_app in F. destruct F as (_ & F).
  apply Forall_inv in F. exact (F A).
Qed.
