(* PROOFS.  The names of the namespaces, the namespaces the clients are in, and NSINFO
   of a namespace nothing is done to, for any events. *)
From Coq Require Import Strings.String Strings.Byte List NArith ZArith Bool Lia ZifyBool ZifyN ZifyNat Sorting.Permutation.
From Verif Require Import Bytes BytesFacts Layout LayoutFacts Store Text Commands SpecKV
  SpecSeq Machine Reach SeqReach SeqFacts TableFacts FrameFacts Sha1 Dispatch Namespace System Resp Server SpecAuth AuthFacts SpecServer CrashPre IsolFacts SrvInv SrvRun.
Import ListNotations.
Open Scope N_scope.
Local Notation length := List.length.

Definition nm (o : option nsrec) : option bytes := option_map (fun r => n_name (r_cfg r)) o.
Definition nms (w : world) := map nm (w_slots w).

Lemma nms_names l : ns_names l = flat_map (fun o : option bytes => match o with Some n => [n] | None => [] end) (map nm l).
Proof. induction l as [|[r|] l IH]; [reflexivity| |]; unfold ns_names in *; cbn [flat_map map nm option_map]; rewrite IH; reflexivity. Qed.

Lemma nm_oget l k : nm (oget k l) = oget k (map nm l).
Proof.
  revert k. induction l as [|o l IH]; intro k; [reflexivity|]. cbn [map]. rewrite !oget_cons. destruct (k =? 0); [reflexivity|apply IH].
Qed.

Lemma nm_slot w k : nm (slot k w) = oget k (nms w).
Proof. rewrite slot_oget. apply nm_oget. Qed.

Lemma nms_confs w w' : confs w' = confs w -> nms w' = nms w.
Proof.
  unfold confs, nms. intro H. rewrite <- (map_ext (fun o => option_map (fun p : nscfg * bytes => n_name (fst p)) (conf o)) nm), <- (map_map conf), H, map_map;
    [apply map_ext|]; intros [r|]; reflexivity.
Qed.

Lemma nms_nset k r r' l : oget k l = Some r -> n_name (r_cfg r') = n_name (r_cfg r) -> map nm (nset k (Some r') l) = map nm l.
Proof.
  revert k. induction l as [|o l IH]; intros k H E; [reflexivity|]. cbn [nset]. rewrite oget_cons in H. destruct (k =? 0); cbn [map].
  - subst o. cbn [nm option_map]. rewrite E. reflexivity.
  - rewrite (IH _ H E). reflexivity.
Qed.

(* the descriptors can be read *)
Definition good_desc (f : bytes) : Prop := exists h rest, f = enc_nshdr h ++ rest /\ nh_version h = NAMESPACE_CURRENT_VERSION.
Definition readable (w : world) : Prop := forall i r, slot i w = Some r -> good_desc (r_desc r).

Lemma fwrite_head f b : fwrite f 0 b = b ++ nskip (blen b) f.
Proof. exact (fwrite_seq [] f b). Qed.

Lemma fwrite_after a r b n : blen a <= n -> exists r', fwrite (a ++ r) n b = a ++ r'.
Proof.
  intro H. unfold fwrite. rewrite nfirst_app2 by (rewrite <- blen_nlen; exact H). rewrite <- !app_assoc. eexists. reflexivity.
Qed.

Lemma good_load name f : good_desc f -> exists c, descriptor_load name f = Some (c, f).
Proof.
  intros (h & rest & -> & V). unfold descriptor_load.
  assert (R : fread (enc_nshdr h ++ rest) 0 15 = enc_nshdr h) by (apply (fread_app [] (enc_nshdr h)); symmetry; apply blen_enc_nshdr).
  rewrite R, blen_enc_nshdr. cbn [N.eqb Pos.eqb negb].
  assert (Hv : nh_version (dec_nshdr (enc_nshdr h)) = NAMESPACE_CURRENT_VERSION).
  { rewrite <- (app_nil_r (enc_nshdr h)). unfold dec_nshdr, enc_nshdr. rewrite <- !app_assoc. rewrite !rd_le. cbn [nh_version]. rewrite V. reflexivity. }
  rewrite Hv. cbn [N.eqb Pos.eqb negb NAMESPACE_CURRENT_VERSION]. eexists. reflexivity.
Qed.

Lemma commit_good c f : good_desc (namespace_commit c f).
Proof.
  unfold namespace_commit, descriptor_update. rewrite fwrite_head. set (h := descriptor_header c). assert (L : blen (enc_nshdr h) = 15) by apply blen_enc_nshdr.
  destruct (fwrite_after (enc_nshdr h) (nskip (blen (enc_nshdr h)) f) (nfirst (nh_namelen h) (n_name c)) (0 + 15)) as (r1 & E1); [lia|]. rewrite E1.
  destruct (n_pass c) as [p|].
  - destruct (fwrite_after (enc_nshdr h) r1 (nfirst (nh_passlen h) p) (0 + 15 + nh_namelen h)) as (r2 & E2); [lia|]. rewrite E2. exists h, r2. split; reflexivity.
  - exists h, r1. split; reflexivity.
Qed.

Lemma empty_good name c f : descriptor_load name [] = Some (c, f) -> good_desc f.
Proof. intro H. injection H as _ <-. apply (commit_good (default_cfg name)). Qed.

Lemma load_desc smode i name desc d t t' r : namespace_load smode i name desc d t = Some (t', r) -> descriptor_load name desc = Some (r_cfg r, r_desc r).
Proof.
  unfold namespace_load. destruct (descriptor_load name desc) as [[c de]|]; [|discriminate]. destruct (store_open _ _ _ _); [|discriminate].
  intro L. injection L as _ <-. reflexivity.
Qed.

Lemma readable_confs w w' : confs w' = confs w -> readable w -> readable w'.
Proof.
  intros E R i r S. rewrite slot_oget in S.
  assert (X : option_map conf (nget i (w_slots w')) = option_map conf (nget i (w_slots w))) by (rewrite !nget_nth, <- !nth_error_map; unfold confs in E; rewrite E; reflexivity).
  unfold oget in S. destruct (nget i (w_slots w')) as [o'|]; [|discriminate]. subst o'. destruct (nget i (w_slots w)) as [[r0|]|] eqn:G; cbn [option_map conf] in X; try discriminate.
  injection X as _ X. rewrite X. apply (R i). rewrite slot_oget. unfold oget. rewrite G. reflexivity.
Qed.

Lemma readable_put k r tb w : readable w -> good_desc (r_desc r) -> readable (mkWorld tb (nset k (Some r) (w_slots w)) (w_eff w) (w_clients w)).
Proof.
  intros R G i r' S. rewrite slot_oget in S. cbn [w_slots] in S. rewrite oget_nset in S. destruct ((k =? i) && _); [injection S as <-; exact G|].
  apply (R i). rewrite slot_oget. exact S.
Qed.

(* where a client is *)
Definition at_of (w : world) (fd : N) : seat :=
  option_map (fun cl => match c_ns cl with Some i => nm (slot i w) | None => None end) (client_at fd w).

Record NmInv (w : world) (S : nameset) : Prop := {
  nm_mem : forall n, S n = true <-> In n (ns_names (w_slots w));
  nm_uniq : forall i j r r', slot i w = Some r -> slot j w = Some r' -> n_name (r_cfg r) = n_name (r_cfg r') -> i = j;
  nm_def : nm (slot 0 w) = Some (str "default");
  nm_eff : w_eff w = nlen (ns_names (w_slots w));
  nm_cl : forall fd cl i, client_at fd w = Some cl -> c_ns cl = Some i -> slot i w <> None;
  nm_read : readable w
}.

(* nothing changes *)
Definition calm (w w' : world) : Prop :=
  nms w' = nms w /\ w_eff w' = w_eff w /\ (forall k, option_map c_ns (client_at k w') = option_map c_ns (client_at k w)) /\ (readable w -> readable w').

Lemma calm_refl w : calm w w.
Proof. repeat split. auto. Qed.

Lemma calm_trans a b c : calm a b -> calm b c -> calm a c.
Proof. intros (A & B & C & R) (A' & B' & C' & R'). split; [congruence|]. split; [congruence|]. split; [intro k; rewrite C'; apply C|auto]. Qed.

Lemma calm_slot w w' k : calm w w' -> nm (slot k w') = nm (slot k w).
Proof. intros (A & _). rewrite !nm_slot, A. reflexivity. Qed.

Lemma calm_at w w' fd : calm w w' -> at_of w' fd = at_of w fd.
Proof.
  intro C. pose proof C as (_ & _ & K & _). specialize (K fd). unfold at_of.
  destruct (client_at fd w') as [c'|], (client_at fd w) as [c|]; cbn [option_map] in *; try discriminate; [|reflexivity].
  injection K as ->. destruct (c_ns c); [rewrite (calm_slot w w' _ C)|]; reflexivity.
Qed.

Lemma nm_none o : nm o = None <-> o = None.
Proof. destruct o; split; intro H; try discriminate; reflexivity. Qed.

Lemma calm_inv w w' S : calm w w' -> NmInv w S -> NmInv w' S.
Proof.
  intros C V. pose proof C as (A & B & K & Rd). assert (Nn : ns_names (w_slots w') = ns_names (w_slots w)) by (rewrite !nms_names; fold (nms w'); fold (nms w); rewrite A; reflexivity).
  split.
  - intro n. rewrite Nn. apply (nm_mem _ _ V).
  - intros i j r r' Hi Hj E. pose proof (calm_slot w w' i C) as Ci. pose proof (calm_slot w w' j C) as Cj. rewrite Hi in Ci. rewrite Hj in Cj.
    destruct (slot i w) as [ri|] eqn:Si; [|discriminate]. destruct (slot j w) as [rj|] eqn:Sj; [|discriminate]. cbn [nm option_map] in Ci, Cj.
    apply (nm_uniq _ _ V i j ri rj Si Sj). congruence.
  - rewrite (calm_slot w w' 0 C). apply (nm_def _ _ V).
  - rewrite B, Nn. apply (nm_eff _ _ V).
  - intros fd cl i Hc Hi N. apply nm_none in N. rewrite (calm_slot w w' i C), nm_none in N. specialize (K fd). rewrite Hc in K.
    destruct (client_at fd w) as [c|] eqn:E; [|discriminate]. cbn [option_map] in K. injection K as K.
    apply (nm_cl _ _ V fd c i E); [congruence|exact N].
  - apply Rd, (nm_read _ _ V).
Qed.

Lemma get_name w S n : NmInv w S ->
  match namespace_get n w with
  | Some (i, r) => slot i w = Some r /\ n_name (r_cfg r) = n /\ S n = true
  | None => S n = false
  end.
Proof.
  intro V. destruct (namespace_get n w) as [[i r]|] eqn:G.
  - apply get_slot in G. destruct G as (Si & <-). split; [exact Si|]. split; [reflexivity|]. apply (nm_mem _ _ V). apply names_in. exists i, r. auto.
  - destruct (S n) eqn:E; [|reflexivity]. apply (nm_mem _ _ V), names_in in E. destruct E as (i & r & Si & N). exfalso.
    exact (find_none n _ 0 G i r Si N).
Qed.

(* a client record changed in seat *)
Lemma put_calm fd cl0 cl w : client_at fd w = Some cl0 -> c_ns cl = c_ns cl0 -> calm w (put_client fd cl w).
Proof.
  intros H E. split; [reflexivity|]. split; [reflexivity|]. split; [|intro R; exact R]. intro k. destruct (N.eq_dec k fd) as [->|Ne].
  - rewrite (client_put_same _ _ cl0) by exact H. rewrite H. cbn [option_map]. rewrite E. reflexivity.
  - rewrite client_put_other by exact Ne. reflexivity.
Qed.

Lemma post_calm v fd argv w out w' : posthandler v fd argv w = Some (out, w') -> calm w w'.
Proof.
  intro P. apply posthandler_world in P. destruct P as (_ & A & B & C). split; [unfold nms; rewrite A; reflexivity|]. split; [exact B|].
  split; [|apply readable_confs; unfold confs; rewrite A; reflexivity]. intro k. specialize (C k). rewrite !client_oget. destruct (oget k (w_clients w')) as [c'|].
  - destruct C as (c & -> & E). cbn [option_map]. destruct E as (-> & _). reflexivity.
  - rewrite C. reflexivity.
Qed.

(* commands other than NSNEW, NSDEL, SELECT *)
Lemma handle_calm g v fd cl i r c argv w rep st w' : c <> CNsnew -> c <> CNsdel -> c <> CSelect -> slot i w = Some r ->
  client_at fd w = Some cl -> handle g v fd cl i r c argv w = Done rep st w' -> calm w w'.
Proof.
  intros N1 N2 N3 S C H.
  assert (A : nms w' = nms w /\ w_eff w' = w_eff w /\ (readable w -> readable w')).
  { destruct (ns_cmd c) eqn:Nc.
    - destruct c; try discriminate Nc; try congruence. unfold handle, command_nsset in H.
      destr_res H; done_inv H; try (split; [reflexivity|split; [reflexivity|intro R; exact R]]);
        match goal with G : namespace_get _ _ = Some _ |- _ => apply get_slot in G; destruct G as (Sk & Nk); rewrite slot_oget in Sk end.
      + split; [|split; [reflexivity|]].
        * unfold nms, put_est. cbn [w_slots]. apply (nms_nset _ _ _ _ Sk). reflexivity.
        * intro R. eapply readable_put; [exact R|apply commit_good].
      + split; [|split; [reflexivity|intro R; eapply readable_put; [exact R|apply commit_good]]]. unfold nms, put_slot. cbn [w_slots]. apply (nms_nset _ _ _ _ Sk). cbn [r_cfg].
        match goal with G : nsset_apply _ _ _ _ = inr _ |- _ => unfold nsset_apply in G; destr_res G; injection G as <-; reflexivity end.
    - destruct (handle_confs g v fd cl i r c argv w rep st w' Nc S H) as (A & B). split; [apply nms_confs; exact A|]. split; [exact B|apply readable_confs; exact A]. }
  destruct A as (A & B & Rd). split; [exact A|]. split; [exact B|]. split; [|exact Rd]. intro k.
  apply handle_sessions in H. destruct H as [E|[(E & _)|(cl' & -> & Ch)]]; [|congruence|].
  - rewrite !client_oget, E. reflexivity.
  - assert (Ns : c_ns cl' = c_ns cl).
    { destruct c; cbn [session_change] in Ch; try contradiction; try congruence.
      - destruct Ch as (h & tmo & ->). reflexivity.
      - destruct Ch as (_ & ->). reflexivity.
      - destruct Ch as (_ & ->). reflexivity.
      - destruct Ch as [(pw & _ & -> & _)|[(-> & _)|[(pw & _ & -> & _)| ->]]]; reflexivity. }
    apply (put_calm fd cl cl' w C Ns).
Qed.

Lemma nput_same n b S : nput n b S n = b.
Proof. unfold nput. rewrite bseqb_refl. reflexivity. Qed.
Lemma nput_other n m b S : m <> n -> nput n b S m = S m.
Proof. intro H. unfold nput. rewrite bseqb_neq by exact H. reflexivity. Qed.

(* what a request does to the seats *)
Definition moved (c : cmd) (argv : list bytes) (rep : bytes) (fd : N) (w w' : world) : Prop :=
  forall k, at_of w' k =
    match c with
    | CSelect => if (fd =? k) && bseqb rep (enc_reply ROk) then Some (Some (text (arg 1 argv))) else at_of w k
    | CNsdel => match at_of w k with
                | Some (Some n) => if bseqb rep (enc_reply ROk) && bseqb n (text (arg 1 argv)) then Some None else at_of w k
                | p => p
                end
    | _ => at_of w k
    end.

Lemma error_not_ok rep : is_error rep -> bseqb rep (enc_reply ROk) = false.
Proof. intros (m & ->). reflexivity. Qed.

Lemma moved_error c argv rep fd w : is_error rep -> moved c argv rep fd w w.
Proof.
  intros E k. rewrite (error_not_ok _ E). rewrite andb_false_r. destruct c; try reflexivity.
  cbn [andb]. destruct (at_of w k) as [[n|]|]; reflexivity.
Qed.

Lemma moved_calm c argv rep fd w w' : c <> CNsdel -> c <> CSelect -> calm w w' -> moved c argv rep fd w w'.
Proof. intros N1 N2 C k. rewrite (calm_at w w' k C). destruct c; congruence || reflexivity. Qed.

Lemma load_name smode i name desc d t t' r : namespace_load smode i name desc d t = Some (t', r) -> n_name (r_cfg r) = name.
Proof.
  unfold namespace_load. destruct (descriptor_load name desc) as [[c de]|] eqn:De; [|discriminate].
  destruct (store_open _ _ _ _); [|discriminate]. intro L. injection L as _ <-. cbn [r_cfg].
  unfold descriptor_load in De. destruct (negb _); [injection De as <- _; reflexivity|]. cbv zeta in De. destruct (negb _); [discriminate|].
  injection De as <- _. reflexivity.
Qed.

Lemma nsnew_names g cl me argv w S rep st w' fd : NmInv w S -> command_nsnew g (perm_of cl) argv w = Done rep st w' ->
  exists S', names_request cl me CNsnew argv rep S S' /\ NmInv w' S' /\ moved CNsnew argv rep fd w w'.
Proof.
  intros V H. unfold command_nsnew in H. apply guard_spec in H. cbn [perm_of p_admin] in H. cbv beta iota delta [names_request]. cbv zeta.
  destruct H as [(F & H)|(F & E & ->)].
  2:{ rewrite F. cbn [andb]. exists S. split; [split; [exact E|reflexivity]|]. split; [exact V|apply moved_error; exact E]. }
  rewrite F. cbn [andb]. rewrite text_cstr in H. rewrite valid_allowed in H. destruct (allowed_name _) eqn:Al; cbn [negb andb] in *.
  2:{ done_inv H. exists S. split; [split; [apply hardsend_error|reflexivity]|]. split; [exact V|apply moved_error; apply hardsend_error]. }
  pose proof (get_name w S (text (arg 1 argv)) V) as Gd. destruct (namespace_get _ w) as [[i r]|].
  { destruct Gd as (_ & _ & Sn). rewrite Sn. done_inv H. exists S. split; [split; [apply hardsend_error|reflexivity]|].
    split; [exact V|apply moved_error; apply hardsend_error]. }
  rewrite Gd. destruct (_ =? 0); [discriminate|]. destruct (namespace_load _ _ _ _ _ _) as [[t r]|] eqn:L; [|discriminate].
  assert (Nr : n_name (r_cfg r) = text (arg 1 argv)).
  { eapply load_name. exact L. }
  done_inv H. set (k := free_slot 0 (w_slots w)).
  assert (Sl : forall j, slot j (mkWorld t (push_slot k r (w_slots w)) (w_eff w + 1) (w_clients w)) = if j =? k then Some r else slot j w).
  { intro j. rewrite !slot_oget. cbn [w_slots]. apply push_at. reflexivity. }
  assert (Fr : slot k w = None) by (rewrite slot_oget; apply free_none).
  assert (Z : k <> 0) by (intro Z; rewrite Z in Fr; pose proof (nm_def _ _ V) as Df; rewrite Fr in Df; discriminate).
  eexists. split; [split; reflexivity|]. split.
  - split.
    + intro n. rewrite names_in. cbn [w_slots]. destruct (bseqb n (text (arg 1 argv))) eqn:E.
      * apply bseqb_eq in E. subst n. rewrite nput_same. split; [|reflexivity]. intros _. exists k, r. rewrite push_at, N.eqb_refl by reflexivity. auto.
      * rewrite nput_other by (intros ->; rewrite bseqb_refl in E; discriminate). rewrite (nm_mem _ _ V), names_in. split; intros (j & rj & G & Nj).
        -- exists j, rj. rewrite push_at by reflexivity. destruct (N.eqb_spec j k) as [->|]; [rewrite slot_oget in Fr; congruence|auto].
        -- rewrite push_at in G by reflexivity. destruct (N.eqb_spec j k) as [->|]; [|exists j, rj; auto]. injection G as <-.
           rewrite <- Nj, Nr, bseqb_refl in E. discriminate.
    + intros i j ri rj. rewrite !Sl. intros A B E.
      assert (X : forall j rj, slot j w = Some rj -> n_name (r_cfg rj) <> text (arg 1 argv)).
      { intros j0 r0 G0 E0. enough (S (text (arg 1 argv)) = true) by congruence. apply (nm_mem _ _ V), names_in. exists j0, r0. auto. }
      destruct (N.eqb_spec i k) as [->|], (N.eqb_spec j k) as [->|]; try reflexivity.
      * injection A as <-. exfalso. apply (X j rj B). congruence.
      * injection B as <-. exfalso. apply (X i ri A). congruence.
      * apply (nm_uniq _ _ V i j ri rj A B E).
    + rewrite Sl. replace (0 =? k) with false by lia. apply (nm_def _ _ V).
    + cbn [w_eff w_slots]. unfold k. rewrite names_push, (nm_eff _ _ V). reflexivity.
    + intros fd0 c0 i Hc Hi. rewrite Sl. destruct (i =? k); [discriminate|]. apply (nm_cl _ _ V fd0 c0 i Hc Hi).
    + intros i ri. rewrite Sl. destruct (i =? k); [|apply (nm_read _ _ V)]. intro X. injection X as <-. apply load_desc in L. exact (empty_good _ _ _ L).
  - intro j. unfold at_of. change (client_at j (mkWorld t (push_slot k r (w_slots w)) (w_eff w + 1) (w_clients w))) with (client_at j w).
    destruct (client_at j w) as [c0|] eqn:C; [|reflexivity]. cbn [option_map]. f_equal. destruct (c_ns c0) as [i|] eqn:I; [|reflexivity].
    rewrite Sl. destruct (N.eqb_spec i k) as [->|]; [|reflexivity]. exfalso. apply (nm_cl _ _ V j c0 k C I Fr).
Qed.

Lemma nsdel_names cl i r argv w S rep st w' fd : NmInv w S -> c_ns cl = Some i -> slot i w = Some r ->
  command_nsdel (perm_of cl) (c_ns cl) argv w = Done rep st w' ->
  exists S', names_request cl (n_name (r_cfg r)) CNsdel argv rep S S' /\ NmInv w' S' /\ moved CNsdel argv rep fd w w'.
Proof.
  intros V Ci Si H. unfold command_nsdel in H. apply guard_spec in H. cbn [perm_of p_admin] in H. cbv beta iota delta [names_request]. cbv zeta.
  assert (Er : forall rep, is_error rep -> exists S', (is_error rep /\ S' = S) /\ NmInv w S' /\ moved CNsdel argv rep fd w w).
  { intros rp E. exists S. split; [split; [exact E|reflexivity]|]. split; [exact V|apply moved_error; exact E]. }
  destruct H as [(F & H)|(F & E & ->)]; [|rewrite F; cbn [andb]; apply Er; exact E].
  rewrite F. cbn [andb]. rewrite text_cstr in H. unfold NAMESPACE_DEFAULT in H. destruct (bseqb (text (arg 1 argv)) (str "default")) eqn:Ed; cbn [negb andb].
  { done_inv H. apply Er, hardsend_error. }
  pose proof (get_name w S (text (arg 1 argv)) V) as Gd. destruct (namespace_get _ w) as [[k rk]|].
  2:{ rewrite Gd. done_inv H. apply Er, hardsend_error. }
  destruct Gd as (Sk & Nk & Sn). rewrite Sn. cbn [negb andb]. rewrite Ci in H.
  destruct (N.eqb_spec i k) as [->|Ne].
  { rewrite Si in Sk. injection Sk as <-. rewrite Nk, bseqb_refl. done_inv H. apply Er, hardsend_error. }
  rewrite bseqb_neq. 2:{ intro E. apply Ne. apply (nm_uniq _ _ V i k r rk Si Sk). congruence. }
  done_inv H. set (w' := mkWorld _ _ _ _).
  assert (Sl : forall j, slot j w' = if j =? k then None else slot j w).
  { intro j. unfold w'. rewrite !slot_oget. cbn [w_slots]. rewrite oget_nset, (N.eqb_sym j). rewrite slot_oget in Sk. apply oget_lt in Sk.
    replace (k <? _) with true by lia. rewrite andb_true_r. reflexivity. }
  assert (Z : k <> 0).
  { intros ->. pose proof (nm_def _ _ V) as Df. rewrite Sk in Df. cbn [nm option_map] in Df. injection Df as Df. rewrite <- Nk, Df, bseqb_refl in Ed. discriminate. }
  eexists. split; [split; reflexivity|]. split.
  - split.
    + intro n. rewrite names_in. destruct (bseqb n (text (arg 1 argv))) eqn:E.
      * apply bseqb_eq in E. subst n. rewrite nput_same. split; [discriminate|]. intros (j & rj & G & Nj). change (oget j (w_slots w')) with (slot j w') in G.
        rewrite Sl in G. destruct (N.eqb_spec j k); [discriminate|]. exfalso. apply n. apply (nm_uniq _ _ V j k rj rk G Sk). congruence.
      * rewrite nput_other by (intros ->; rewrite bseqb_refl in E; discriminate). rewrite (nm_mem _ _ V), names_in. split; intros (j & rj & G & Nj);
          exists j, rj; change (oget j (w_slots w')) with (slot j w') in *; change (oget j (w_slots w)) with (slot j w) in *; rewrite Sl in *;
          destruct (N.eqb_spec j k) as [->|]; auto; [|discriminate]. exfalso. assert (rj = rk) by congruence. subst rj. rewrite <- Nj, Nk, bseqb_refl in E. discriminate.
    + intros a b ra rb. rewrite !Sl. destruct (a =? k); [discriminate|]. destruct (b =? k); [discriminate|]. apply (nm_uniq _ _ V).
    + rewrite Sl. replace (0 =? k) with false by lia. apply (nm_def _ _ V).
    + unfold w'. cbn [w_eff w_slots]. rewrite slot_oget in Sk. pose proof (names_drop k rk (w_slots w) Sk). rewrite (nm_eff _ _ V). lia.
    + intros f0 c0 a Hc Ha. rewrite Sl. unfold w' in Hc. rewrite client_oget in Hc. cbn [w_clients] in Hc. rewrite detach_at in Hc.
      destruct (oget f0 (w_clients w)) as [c1|] eqn:C1; [|discriminate]. cbn [detach_client] in Hc.
      destruct (c_ns c1) as [b|] eqn:B.
      * destruct (N.eqb_spec b k); injection Hc as <-; [discriminate|]. rewrite B in Ha. injection Ha as ->.
        replace (a =? k) with false by lia. apply (nm_cl _ _ V f0 c1 a C1 B).
      * injection Hc as <-. congruence.
    + intros a ra. rewrite Sl. destruct (a =? k); [discriminate|]. apply (nm_read _ _ V).
  - intro j. unfold at_of. unfold w' at 2. rewrite client_oget. cbn [w_clients]. rewrite detach_at, <- client_oget.
    destruct (client_at j w) as [c0|] eqn:C; [|reflexivity]. cbn [option_map detach_client].
    destruct (c_ns c0) as [b|] eqn:B; [|cbn [option_map]; rewrite B; reflexivity].
    destruct (slot b w) as [rb|] eqn:Sb; [|destruct (nm_cl _ _ V j c0 b C B Sb)]. cbn [nm option_map].
    change (bseqb (hardsend "+OK") (enc_reply ROk)) with true. cbn [andb].
    destruct (N.eqb_spec b k) as [->|Nb]; cbn [option_map c_ns c_set_ns].
    + rewrite Sk in Sb. injection Sb as <-. rewrite Nk, bseqb_refl. reflexivity.
    + rewrite B, Sl. replace (b =? k) with false by lia. rewrite Sb. cbn [nm option_map]. rewrite bseqb_neq; [reflexivity|].
      intro E. apply Nb. apply (nm_uniq _ _ V b k rb rk Sb Sk). congruence.
Qed.

Lemma select_names g v fd cl i r me argv w S rep st w' : NmInv w S -> client_at fd w = Some cl ->
  handle g v fd cl i r CSelect argv w = Done rep st w' ->
  names_request cl me CSelect argv rep S S /\ NmInv w' S /\ moved CSelect argv rep fd w w'.
Proof.
  intros V C H. unfold handle, command_select in H. cbv beta iota delta [names_request]. cbv zeta.
  assert (Er : forall rep, is_error rep -> (S = S /\ (S (text (arg 1 argv)) = false -> is_error rep)) /\ NmInv w S /\ moved CSelect argv rep fd w w).
  { intros rp E. split; [split; [reflexivity|intros _; exact E]|]. split; [exact V|apply moved_error; exact E]. }
  destruct (argc argv <? 2); [done_inv H; apply Er, hardsend_error|].
  unfold args_namespace in H. destruct (_ <? _); [done_inv H; apply Er, hardsend_error|].
  rewrite text_cstr in H. pose proof (get_name w S (text (arg 1 argv)) V) as Gd. destruct (namespace_get _ w) as [[k rk]|]; [|done_inv H; apply Er, hardsend_error].
  destruct Gd as (Sk & Nk & Sn). destruct (select_check argv (c_nonce cl) (r_cfg rk)) as [err|wr] eqn:Ck.
  { done_inv H. apply Er. unfold select_check in Ck. destr_res Ck; try discriminate; injection Ck as <-; apply hardsend_error. }
  done_inv H. split; [split; [reflexivity|congruence]|].
  assert (Cl : forall j, client_at j (put_client fd (c_set_ns (Some k) wr cl) w) = if fd =? j then Some (c_set_ns (Some k) wr cl) else client_at j w).
  { intro j. destruct (N.eqb_spec fd j) as [<-|]; [apply (client_put_same _ _ cl _ C)|apply client_put_other; congruence]. }
  split.
  - split; try apply V. intros f0 c0 a. rewrite Cl. destruct (fd =? f0); intros Hc Ha.
    + injection Hc as <-. cbn [c_ns c_set_ns] in Ha. injection Ha as <-. change (slot k (put_client fd (c_set_ns (Some k) wr cl) w)) with (slot k w). congruence.
    + exact (nm_cl _ _ V f0 c0 a Hc Ha).
  - intro j. unfold at_of at 1. rewrite Cl. change (bseqb (hardsend "+OK") (enc_reply ROk)) with true. rewrite andb_true_r.
    destruct (fd =? j); [|reflexivity]. cbn [option_map c_ns c_set_ns]. change (slot k (put_client fd (c_set_ns (Some k) wr cl) w)) with (slot k w).
    rewrite Sk. cbn [nm option_map]. rewrite Nk. reflexivity.
Qed.

Lemma nslist_names w S : NmInv w S ->
  exists names, NoDup names /\ (forall n, In n names <-> S n = true) /\ command_nslist w = enc_reply (RArr (map RBulk names)).
Proof.
  intro V. exists (ns_names (w_slots w)). split; [apply names_nodup; intros i j r r'; apply (nm_uniq _ _ V)|]. split.
  - intro n. symmetry. apply (nm_mem _ _ V).
  - unfold command_nslist. rewrite (nm_eff _ _ V). cbn [enc_reply]. unfold arrayhdr.
    rewrite <- app_assoc. f_equal.
    assert (L : nlen (map RBulk (ns_names (w_slots w))) = nlen (ns_names (w_slots w))) by (rewrite !nlen_length, map_length; reflexivity).
    rewrite L. rewrite <- !app_assoc. f_equal. f_equal. induction (ns_names (w_slots w)) as [|n l IH]; [reflexivity|].
    cbn [map List.concat]. rewrite IH by (rewrite !nlen_length, map_length; reflexivity). reflexivity.
Qed.

Lemma nsinfo_names v cl argv w S : NmInv w S ->
  if form 2 argv && S (text (arg 1 argv)) then exists t, command_nsinfo v cl argv w = enc_reply (RBulk t) else is_error (command_nsinfo v cl argv w).
Proof.
  intro V. unfold command_nsinfo, form. pose proof (validate_spec argv 2) as Va. destruct (args_validate argv 2) as [err|].
  { destruct Va as (-> & E). exact E. }
  rewrite Va. cbn [andb]. unfold args_namespace. destruct (N.ltb_spec 128 (blen (arg 1 argv))).
  { replace (_ <=? _) with false by lia. apply hardsend_error. }
  replace (_ <=? _) with true by lia. rewrite text_cstr. pose proof (get_name w S (text (arg 1 argv)) V) as Gd. cbn [andb].
  destruct (namespace_get _ w) as [[k r]|]; [|rewrite Gd; apply hardsend_error].
  destruct Gd as (_ & _ & ->). eexists. reflexivity.
Qed.

Lemma reload_names g cl argv w S rep st w' : NmInv w S -> command_reload g (perm_of cl) argv w = Done rep st w' ->
  if c_admin cl && form 2 argv && S (text (arg 1 argv)) then rep = enc_reply ROk else is_error rep.
Proof.
  intros V H. unfold command_reload in H. apply guard_spec in H. cbn [perm_of p_admin] in H.
  destruct H as [(F & H)|(F & E & ->)]; rewrite F; cbn [andb]; [|exact E].
  rewrite text_cstr in H. pose proof (get_name w S (text (arg 1 argv)) V) as Gd.
  destruct (namespace_get _ w) as [[k r]|]; [|rewrite Gd; done_inv H; apply hardsend_error].
  destruct Gd as (_ & _ & ->). destruct (namespace_reload _ _ _ _); [|discriminate]. done_inv H. reflexivity.
Qed.

Lemma nsset_names g cl argv w S rep st w' : NmInv w S -> command_nsset g (perm_of cl) argv w = Done rep st w' ->
  S (text (arg 1 argv)) = false -> is_error rep.
Proof.
  intros V H E. unfold command_nsset in H. apply guard_spec in H. destruct H as [(F & H)|(F & Er & _)]; [|exact Er].
  unfold args_overflow in H. destruct (_ <? _); [done_inv H; apply hardsend_error|]. destruct (_ <? _); [done_inv H; apply hardsend_error|].
  destruct (sprint_max _); [|discriminate]. rewrite text_cstr in H. pose proof (get_name w S (text (arg 1 argv)) V) as Gd.
  destruct (namespace_get _ w) as [[k r]|]; [destruct Gd as (_ & _ & Gd); congruence|]. done_inv H. apply hardsend_error.
Qed.

Lemma handle_names g v fd cl i r c argv w S rep st w' : NmInv w S -> c_ns cl = Some i -> slot i w = Some r -> client_at fd w = Some cl ->
  handle g v fd cl i r c argv w = Done rep st w' ->
  exists S', names_request cl (n_name (r_cfg r)) c argv rep S S' /\ NmInv w' S' /\ moved c argv rep fd w w'.
Proof.
  intros V Ci Si C H.
  destruct (match c with CNsnew | CNsdel | CSelect => true | _ => false end) eqn:K.
  { destruct c; try discriminate K.
    - eapply nsnew_names; [exact V|]. exact H.
    - eapply nsdel_names; [exact V|exact Ci|exact Si|]. exact H.
    - exists S. eapply select_names; eassumption. }
  assert (Ca : calm w w') by (eapply handle_calm; try eassumption; intros ->; discriminate).
  exists S. split; [|split; [exact (calm_inv _ _ _ Ca V)|apply moved_calm; [intros ->; discriminate|intros ->; discriminate|exact Ca]]].
  destruct c; try discriminate K; try reflexivity; cbv beta iota delta [names_request]; cbv zeta.
  - unfold handle in H. done_inv H. split; [reflexivity|apply nslist_names; exact V].
  - split; [reflexivity|]. eapply nsset_names; [exact V|]. exact H.
  - unfold handle in H. done_inv H. split; [reflexivity|apply nsinfo_names; exact V].
  - split; [reflexivity|]. eapply reload_names; [exact V|]. exact H.
Qed.

Definition seat_me (e : sevent) (w : world) : option bytes :=
  match e with SRequest fd _ _ => match at_of w fd with Some p => p | None => None end | _ => None end.

Lemma calm_seats w w' (P : N -> seat) : calm w w' -> (forall k, at_of w k = P k) -> forall k, at_of w' k = P k.
Proof. intros C H k. rewrite (calm_at _ _ _ C). apply H. Qed.

Lemma request_names g v fd argv w S out st w' : NmInv w S -> request g v fd argv w = SDone out st w' ->
  exists S', names_event (SRequest fd v argv) w (seat_me (SRequest fd v argv) w) out S S' /\ NmInv w' S' /\
    forall k, at_of w' k = seat_event (SRequest fd v argv) w out k (at_of w k).
Proof.
  intros V H. apply request_inv in H. destruct H as (cl & C & H). cbn [names_event seat_event seat_me]. rewrite C.
  destruct H as [(-> & ->)|(rep & w1 & o1 & Di & P & ->)].
  { exists S. split; [exists cl; split; [reflexivity|left; split; reflexivity]|]. split; [exact V|]. intro k. cbn [said_ok]. rewrite andb_false_r.
    destruct (lookup_handler _) as [[h []]|]; try reflexivity. destruct (at_of w k) as [[n|]|]; reflexivity. }
  apply post_calm in P. cbn [said_ok]. rewrite N.eqb_refl. cbn [andb].
  assert (Me : at_of w fd = Some (match c_ns cl with Some i => nm (slot i w) | None => None end)) by (unfold at_of; rewrite C; reflexivity).
  rewrite Me. apply dispatch_inv in Di. destruct Di as [(N & -> & E)|(i & r & Ci & Si & Di)].
  { exists S. rewrite N. split; [exists cl; split; [reflexivity|right; exists rep, o1; split; [reflexivity|split; [exact E|reflexivity]]]|].
    split; [exact (calm_inv _ _ _ P V)|]. apply (calm_seats w w' _ P). intro k. rewrite (error_not_ok _ E), andb_false_r. cbn [andb].
    destruct (lookup_handler _) as [[h []]|]; try reflexivity. destruct (at_of w k) as [[n|]|]; reflexivity. }
  rewrite Ci, Si. cbn [nm option_map]. destruct Di as [(L & -> & E)|(h & c & L & Di)]; rewrite L.
  { exists S. pose proof (calm_trans _ _ _ (put_calm fd cl (c_set_exec None cl) w C eq_refl) P) as P'.
    split; [exists cl; split; [reflexivity|right; exists rep, o1; split; [reflexivity|rewrite L; split; [exact E|reflexivity]]]|].
    split; [exact (calm_inv _ _ _ P' V)|]. apply (calm_seats w w' _ P'). reflexivity. }
  set (cl' := c_set_exec (Some h) cl) in *. set (w0 := put_client fd cl' w) in *.
  assert (C0 : calm w w0) by (apply (put_calm fd cl cl' w C eq_refl)).
  assert (H0 : client_at fd w0 = Some cl') by (apply (client_put_same _ _ cl); exact C).
  destruct (handle_names g v fd cl' i r c (effective cl argv) w0 S rep st w1 (calm_inv _ _ _ C0 V) Ci Si H0 Di) as (S' & A & B & M).
  exists S'. split; [exists cl; split; [reflexivity|right; exists rep, o1; split; [reflexivity|rewrite L; exact A]]|].
  split; [exact (calm_inv _ _ _ P B)|]. intro k. rewrite (calm_at _ _ k P), (M k), (calm_at _ _ k C0).
  destruct c; try reflexivity. destruct (at_of w k) as [[n|]|]; reflexivity.
Qed.

Lemma idle_names g now old w S out st w' : NmInv w S -> idle g now old w = SDone out st w' -> calm w w'.
Proof.
  intros V R. unfold idle in R. pose proof (timeout_sessions now (w_clients w) 0) as T.
  destruct (watch_timeout now 0 (w_clients w)) as [o l] eqn:E. cbn [snd] in T. injection R as <- <- <-.
  assert (K : forall k, option_map c_ns (oget k l) = option_map c_ns (client_at k w)).
  { intro k. specialize (T k). rewrite client_oget. destruct (oget k l) as [c'|]; [|rewrite T; reflexivity].
    destruct T as (c & -> & Ec & _). cbn [option_map]. rewrite Ec. reflexivity. }
  destruct (v_rotate g).
  - destruct (rotate_frame old (upto (length (w_slots w)) 0) (mkWorld (w_tb w) (w_slots w) (w_eff w) l)) as (Rc & Re & Rf).
    split; [rewrite (nms_confs _ _ Rf); reflexivity|]. split; [rewrite Re; reflexivity|]. split; [intro k; rewrite client_oget, Rc; apply K|].
    apply readable_confs. rewrite Rf. reflexivity.
  - split; [reflexivity|]. split; [reflexivity|]. split; [exact K|]. intro R. exact R.
Qed.

Definition starts (s : stored) : Prop := exists c de, descriptor_load (fst (fst s)) (snd (fst s)) = Some (c, de) /\ good_desc de.

Lemma good_starts name desc d : good_desc desc -> starts (name, desc, d).
Proof. intro G. destruct (good_load name desc G) as (c & E). exists c, desc. auto. Qed.

Lemma load_all_names smode : forall l i t t' slots, Forall starts l -> load_all smode i l t = Some (t', slots) ->
  map nm slots = map (fun s => Some (fst (fst s))) l /\ forall j r, oget j slots = Some r -> good_desc (r_desc r).
Proof.
  induction l as [|((name, desc), d) l IH]; intros i t t' slots F H; cbn [load_all] in H; [injection H as <- <-; split; [reflexivity|discriminate]|].
  inversion F as [|? ? F1 F2]; subst. destruct F1 as (c & de & Dl & G). cbn [fst snd] in Dl. rewrite Dl in H.
  destruct (namespace_load _ _ _ _ _ _) as [[t1 r]|] eqn:L; [|discriminate]. destruct (load_all _ _ _ _) as [[t2 rs]|] eqn:A; [|discriminate].
  injection H as <- <-. destruct (IH _ _ _ _ F2 A) as (B1 & B2). split.
  - cbn [map fst nm option_map]. rewrite B1, (load_name _ _ _ _ _ _ _ _ L). reflexivity.
  - intros j r0. rewrite oget_cons. destruct (j =? 0); [|apply B2]. intro X. injection X as <-. apply load_desc in L. rewrite Dl in L. injection L as _ <-. exact G.
Qed.

Lemma names_somes (l : list stored) : flat_map (fun o : option bytes => match o with Some n => [n] | None => [] end) (map (fun s => Some (fst (fst s))) l) = map (fun s => fst (fst s)) l.
Proof. induction l as [|s l IH]; [reflexivity|]. cbn [map flat_map app]. rewrite IH. reflexivity. Qed.

Lemma boot_names g ord w : Forall starts ord -> boot g ord = Some w ->
  nms w = map (fun s => Some (fst (fst s))) ord /\ w_eff w = nlen ord /\ w_clients w = [] /\ ns_names (w_slots w) = map (fun s => fst (fst s)) ord /\ readable w.
Proof.
  intros F H. apply boot_inv in H. destruct H as (? & ? & ? & ? & ? & t & slots & _ & _ & L & ->). apply (load_all_names _ _ _ _ _ _ F) in L. destruct L as (L & R).
  split; [exact L|]. split; [|split; [reflexivity|split]].
  - cbn [w_eff]. rewrite !nlen_length. rewrite <- (map_length nm), L, map_length. reflexivity.
  - cbn [w_slots]. rewrite nms_names, L. apply names_somes.
  - intros j r S. rewrite slot_oget in S. exact (R j r S).
Qed.

Lemma booted g ord w S : boot g ord = Some w -> (exists desc d l, ord = (str "default", desc, d) :: l) -> NoDup (map (fun s => fst (fst s)) ord) ->
  (forall n, S n = true <-> In n (map (fun s => fst (fst s)) ord)) -> Forall starts ord -> NmInv w S /\ forall k, at_of w k = None.
Proof.
  intros B (de & d & l & ->) Nd M F. apply (boot_names _ _ _ F) in B. destruct B as (A & E & C & N & Rd). split.
  - split.
    + intro n. rewrite N. apply M.
    + intros i j r r' Hi Hj Q. pose proof (nm_slot w i) as Ai. pose proof (nm_slot w j) as Aj. rewrite Hi, A in Ai. rewrite Hj, A in Aj.
      cbn [nm option_map] in Ai, Aj. rewrite <- Q in Aj.
      rewrite <- (map_map (fun s : stored => fst (fst s)) Some), oget_map in Ai. rewrite <- (map_map (fun s : stored => fst (fst s)) Some), oget_map in Aj.
      rewrite nget_nth in Ai, Aj. unfold stored in Ai, Aj. apply (proj1 (NoDup_nth_error _)) with (i := N.to_nat i) (j := N.to_nat j) in Nd; [lia| |congruence].
      apply nth_error_Some. congruence.
    + rewrite nm_slot, A. reflexivity.
    + rewrite E, N, !nlen_length, map_length. reflexivity.
    + intros fd cl i Hc. rewrite client_oget, C in Hc. discriminate.
    + exact Rd.
  - intro k. unfold at_of. rewrite client_oget, C. reflexivity.
Qed.

Lemma event_names g e w S out st w' : NmInv w S -> honest e w -> run_sevent g e w = SDone out st w' ->
  exists S', names_event e w (seat_me e w) out S S' /\ NmInv w' S' /\ forall k, at_of w' k = seat_event e w out k (at_of w k).
Proof.
  intros V Ho R. destruct e as [fd|fd|fd v argv|now old|ord]; cbn [run_sevent] in R.
  - unfold connect in R. destruct (client_at fd w) eqn:C; [discriminate|]. injection R as <- <- <-. exists S. split; [reflexivity|].
    set (w' := mkWorld _ _ _ _).
    assert (Cl : forall k, client_at k w' = if fd =? k then Some (new_client g) else client_at k w).
    { intro k. unfold w'. rewrite !client_oget. cbn [w_clients]. unfold grow. rewrite oget_nset, nlen_app.
      assert (L : nlen (repeat (@None client) (N.to_nat (fd + 1 - nlen (w_clients w)))) = fd + 1 - nlen (w_clients w)) by (rewrite nlen_length, repeat_length; lia).
      rewrite L. replace (fd <? _) with true by lia. rewrite andb_true_r. destruct (fd =? k); [reflexivity|]. unfold oget.
      destruct (N.lt_ge_cases k (nlen (w_clients w))); [rewrite nget_app1 by assumption; reflexivity|]. rewrite nget_app2 by assumption.
      rewrite (proj2 (nget_None k _)) by assumption. destruct (nget _ (repeat None _)) as [o|] eqn:G; [|reflexivity].
      apply nget_In in G. apply repeat_spec in G. exact G. }
    split.
    + split; try apply V. intros f0 c0 i. rewrite Cl. destruct (fd =? f0).
      * intros Hc Hi. injection Hc as <-. cbn [new_client c_ns] in Hi. injection Hi as <-. change (slot 0 w') with (slot 0 w). intro Z.
        pose proof (nm_def _ _ V) as Df. rewrite Z in Df. discriminate.
      * apply (nm_cl _ _ V).
    + intro k. cbn [seat_event]. unfold at_of. rewrite Cl. destruct (fd =? k); [|reflexivity]. cbn [option_map new_client c_ns].
      change (slot 0 w') with (slot 0 w). rewrite (nm_def _ _ V). reflexivity.
  - unfold close in R. injection R as <- <- <-. exists S. split; [reflexivity|]. set (w' := mkWorld _ _ _ _).
    assert (Cl : forall k, client_at k w' = if fd =? k then None else client_at k w).
    { intro k. unfold w'. rewrite !client_oget. cbn [w_clients]. rewrite oget_nset. destruct (N.eqb_spec fd k) as [->|]; [|reflexivity].
      cbn [andb]. destruct (N.ltb_spec k (nlen (w_clients w))); [reflexivity|]. unfold oget. rewrite (proj2 (nget_None k _)) by assumption. reflexivity. }
    split.
    + split; try apply V. intros f0 c0 i. rewrite Cl. destruct (fd =? f0); [discriminate|]. apply (nm_cl _ _ V).
    + intro k. cbn [seat_event]. unfold at_of. rewrite Cl. destruct (fd =? k); reflexivity.
  - apply (request_names g v fd argv w S out st w' V R).
  - pose proof (idle_names g now old w S out st w' V R) as C. exists S. split; [reflexivity|]. split; [exact (calm_inv _ _ _ C V)|].
    intro k. apply (calm_at _ _ _ C).
  - destruct (boot g ord) as [w1|] eqn:B; [|discriminate]. injection R as <- <- <-. exists S. split; [reflexivity|].
    destruct Ho as (Pm & Dd). assert (Nm : Permutation (map (fun s : stored => fst (fst s)) ord) (ns_names (w_slots w))).
    { rewrite <- stored_names. apply Permutation_map. exact Pm. }
    apply (booted g ord w1 S B Dd).
    + apply (Permutation_NoDup (Permutation_sym Nm)). apply names_nodup. intros i j r r'. apply (nm_uniq _ _ V).
    + intro n. rewrite (nm_mem _ _ V). split; apply Permutation_in; [apply Permutation_sym|]; exact Nm.
    + apply Forall_forall. intros s I. apply (Permutation_in _ Pm) in I. apply stored_in in I. destruct I as (i & r & Si & ->).
      apply good_starts. exact (nm_read _ _ V i r Si).
Qed.

Lemma seat_ext e w out fd p p' : p = p' -> seat_event e w out fd p = seat_event e w out fd p'.
Proof. intros ->. reflexivity. Qed.

Lemma events_names g es : forall w S P outs w', NmInv w S -> (forall k, at_of w k = P k) -> all_honest g es w ->
  run_sevents g es w = Some (outs, w') ->
  exists P' S', names_run g es w outs P S P' S' /\ NmInv w' S' /\ (forall k, at_of w' k = P' k).
Proof.
  induction es as [|e es IH]; intros w S P outs w' V A Ho R; cbn [run_sevents] in R.
  - injection R as <- <-. exists P, S. split; [split; reflexivity|]. split; assumption.
  - destruct (run_sevent g e w) as [out st w1|] eqn:E; [|discriminate]. destruct (run_sevents g es w1) as [[os w2]|] eqn:R2; [|discriminate].
    injection R as <- <-. cbn [all_honest] in Ho. destruct Ho as (Ho & Hr). rewrite E in Hr.
    destruct (event_names g e w S out st w1 V Ho E) as (S1 & N1 & V1 & A1).
    destruct (IH w1 S1 (fun k => seat_event e w out k (P k)) os w2 V1) as (P' & S' & B & C & D); [intro k; rewrite A1; apply seat_ext, A|exact Hr|exact R2|].
    exists P', S'. split; [|split; assumption]. cbn [names_run]. exists st, w1, S1. split; [exact E|]. split; [|exact B].
    unfold seat_me in N1. destruct e; try exact N1. rewrite A in N1. exact N1.
Qed.

Definition default_only : nameset := fun n => bseqb n (str "default").

Lemma first_boot_eq g : exists ord, ord = [(str "default", [], empty_disk)] /\ first_boot g = boot g ord.
Proof. eexists. split; reflexivity. Qed.

Lemma first_names g w : first_boot g = Some w -> NmInv w default_only /\ forall k, at_of w k = None.
Proof.
  intro B. destruct (first_boot_eq g) as (ord & Eo & Eb). rewrite Eb in B. clear Eb. apply (booted g _ w default_only B).
  - eexists _, _, _. exact Eo.
  - rewrite Eo. constructor; [intros []|constructor].
  - intro n. rewrite Eo. cbn [map fst In]. unfold default_only. rewrite bseqb_eq. split; [intros ->; left; reflexivity|]. intros [<-|[]]. reflexivity.
  - rewrite Eo. constructor; [|constructor]. eexists _, _. split; [reflexivity|]. apply (commit_good (default_cfg (str "default")) []).
Qed.

Lemma names_all g es w0 outs w : first_boot g = Some w0 -> all_honest g es w0 -> run_sevents g es w0 = Some (outs, w) ->
  exists P S, names_run g es w0 outs (fun _ => None) default_only P S /\ NmInv w S /\ (forall k, at_of w k = P k).
Proof. intros B Ho R. destruct (first_names g w0 B) as (V & A). exact (events_names g es w0 default_only _ outs w V A Ho R). Qed.

(* ---- NSINFO of a namespace nothing is done to ---- *)

Lemma get_unique w S j r : NmInv w S -> slot j w = Some r -> namespace_get (n_name (r_cfg r)) w = Some (j, r).
Proof.
  intros V Sj. pose proof (get_name w S (n_name (r_cfg r)) V) as G. destruct (namespace_get _ w) as [[i r']|].
  - destruct G as (Si & Ni & _). assert (i = j) by (apply (nm_uniq _ _ V i j r' r Si Sj Ni)). subst i. congruence.
  - enough (S (n_name (r_cfg r)) = true) by congruence. apply (nm_mem _ _ V), names_in. exists j, r. auto.
Qed.

Lemma spare_honest g j es : forall w, all_spare g j es w -> all_honest g es w.
Proof.
  induction es as [|e es IH]; intros w H; cbn [all_spare all_honest] in *; [exact I|]. destruct H as (A & B). split.
  - destruct e; cbn [spares honest] in *; tauto.
  - destruct (run_sevent g e w); [apply IH; exact B|exact I].
Qed.

Lemma nsinfo_isolated g es0 w0 outs0 w j r es outs w' v fd cl i argv h :
  first_boot g = Some w0 -> all_honest g es0 w0 -> run_sevents g es0 w0 = Some (outs0, w) ->
  slot j w = Some r -> all_spare g j es w -> run_sevents g es w = Some (outs, w') ->
  c_ns cl = Some i -> slot i w <> None -> slot i w' <> None ->
  lookup_handler (arg 0 argv) = Some (h, CNsinfo) -> text (arg 1 argv) = n_name (r_cfg r) ->
  reply_of (dispatch g v fd cl argv w') = reply_of (dispatch g v fd cl argv w).
Proof.
  intros B Ho R0 Sj A R Ci Si Si' L E. destruct (names_all g es0 w0 outs0 w B Ho R0) as (P & S & _ & V & At).
  destruct (events_names g es w S P outs w' V At (spare_honest g j es w A) R) as (P' & S' & _ & V' & _).
  destruct (run_spares g j r es w outs w' (run_numbered _ _ _ _ _ (first_numbered _ _ B) R0) Sj A R) as (Sj' & _).
  unfold dispatch. rewrite Ci. destruct (slot i w) as [ri|]; [|congruence]. destruct (slot i w') as [ri'|]; [|congruence]. rewrite L.
  unfold handle. cbn [reply_of]. f_equal. unfold command_nsinfo.
  destruct (args_validate argv 2); [reflexivity|]. destruct (args_namespace argv 1); [reflexivity|]. rewrite text_cstr, E.
  set (c1 := c_set_exec (Some h) cl).
  change (namespace_get (n_name (r_cfg r)) (put_client fd c1 w')) with (namespace_get (n_name (r_cfg r)) w').
  change (namespace_get (n_name (r_cfg r)) (put_client fd c1 w)) with (namespace_get (n_name (r_cfg r)) w).
  rewrite (get_unique w S j r V Sj), (get_unique w' S' j r V' Sj'). reflexivity.
Qed.

(* ---- a client whose namespace was deleted ---- *)

Lemma detached_refused g v fd cl argv w : c_ns cl = None ->
  exists rep st, dispatch g v fd cl argv w = Done rep st w /\ is_error rep.
Proof. intro N. unfold dispatch. rewrite N. eexists _, _. split; [reflexivity|apply hardsend_error]. Qed.

(* ---- tests, for the examples ---- *)

Definition seq_b (r : nsrec) : bool := x_mode (r_ix r) =? MODE_SEQ.
Definition calm_or (r : nsrec) (b : bool) : bool := negb (seq_b r) || b.
Definition coveredb (g : server) (e : sevent) (w : world) : bool :=
  match e with
  | SConnect _ | SClose _ => true
  | SRequest fd v argv =>
      match client_at fd w with
      | None => true
      | Some cl => match c_ns cl with None => true | Some i =>
          match slot i w with None => true | Some r =>
          match lookup_handler (arg 0 (effective cl argv)) with None => true | Some (h, c) =>
            let a := effective cl argv in
            match req_of c a with
            | Some q => req_wf_b q && (nlen (dk_i (r_dk r)) <? 2 ^ 32) && calm_or r (req_calm_b (v_set g) (perm_of cl) (v_sec v) q (r_cfg r) (est_of w r))
            | None => true
            end &&
            match c with
            | CFlush | CReload => forallb (fun o => match o with Some rk => calm_or rk (settled_b (est_of w rk)) | None => true end) (w_slots w)
            | CNsset => negb (bseqb (text (arg 2 a)) (str "password")) || negb (blen (text (arg 3 a)) =? 0)
            | _ => true
            end
          end end end
      end
  | SIdle _ old => forallb (fun o => match o with Some r => (nlen (dk_i (r_dk r)) <? 2 ^ 32) && calm_or r (settled_b (est_of w r)) | None => true end) (w_slots w)
  | SRestart _ => false
  end.

Lemma slots_forall (f : option nsrec -> bool) w k : f None = true -> forallb f (w_slots w) = true -> f (slot k w) = true.
Proof.
  intros N H. rewrite slot_oget. unfold oget. destruct (nget k (w_slots w)) as [o|] eqn:E; [|exact N].
  rewrite forallb_forall in H. apply H. eapply nget_In. exact E.
Qed.

Lemma calm_or_ok r b : calm_or r b = true -> in_sequential r -> b = true.
Proof. unfold calm_or, seq_b, in_sequential. intros H E. rewrite E in H. exact H. Qed.

Lemma req_wf_b_ok q : req_wf_b q = true -> req_wf q.
Proof.
  intro E1. destruct q as [k v [t|]|k [t|]| | | | | | | |]; cbn [req_wf_b req_wf ots_ok] in *; auto; try (split; [lia|]); try apply I;
      try (apply andb_prop in E1; destruct E1 as [_ E1]); now apply N.ltb_lt.
Qed.

Lemma coveredb_ok g e w : coveredb g e w = true -> covered g e w.
Proof.
  destruct e as [fd|fd|fd v argv|now old|ord]; cbn [coveredb covered]; intro H; auto; [| |discriminate].
  - intros cl i r h c C Ci S L. rewrite C, Ci, S, L in H. cbv zeta in *. apply andb_true_iff in H. destruct H as (A & B). split; [|split; [|split]].
    + intros q Q. rewrite Q in A. apply andb_true_iff in A. destruct A as (A & A2). apply andb_true_iff in A. destruct A as (A & A1).
      split; [apply req_wf_b_ok; exact A|]. split; [apply N.ltb_lt; exact A1|]. intro I. apply req_calm_b_ok. exact (calm_or_ok _ _ A2 I).
    + intros -> I. apply settled_b_ok. apply (calm_or_ok r); [|exact I].
      pose proof (slots_forall _ w i eq_refl B) as G. rewrite S in G. exact G.
    + intros -> k rk Sk _ I. apply settled_b_ok. apply (calm_or_ok rk); [|exact I].
      pose proof (slots_forall _ w k eq_refl B) as G. rewrite Sk in G. exact G.
    + intros -> E2 E3. rewrite E2, E3, bseqb_refl in B. discriminate.
  - intros k r _ S. pose proof (slots_forall _ w k eq_refl H) as G. rewrite S in G. apply andb_true_iff in G. destruct G as (G1 & G2).
    split; [apply N.ltb_lt; exact G1|]. intro I. apply settled_b_ok. exact (calm_or_ok _ _ G2 I).
Qed.

Fixpoint all_coveredb (g : server) (es : list sevent) (w : world) : bool :=
  match es with
  | [] => true
  | e :: r => coveredb g e w && match run_sevent g e w with SDone _ _ w1 => all_coveredb g r w1 | SUndef => true end
  end.

Lemma all_coveredb_ok g es : forall w, all_coveredb g es w = true -> all_covered g es w.
Proof.
  induction es as [|e es IH]; intros w H; cbn [all_coveredb all_covered] in *; [exact I|]. apply andb_true_iff in H. destruct H as (A & B).
  split; [apply coveredb_ok; exact A|]. destruct (run_sevent g e w); [apply IH; exact B|exact I].
Qed.

Lemma all_covered_app g es es' : forall w outs w1, all_covered g es w -> run_sevents g es w = Some (outs, w1) -> all_covered g es' w1 ->
  all_covered g (es ++ es') w.
Proof.
  induction es as [|e es IH]; intros w outs w1 A R B; cbn [run_sevents all_covered app] in *; [injection R as <- <-; exact B|].
  destruct A as (A1 & A2). split; [exact A1|]. destruct (run_sevent g e w) as [out st w2|]; [|exact I].
  destruct (run_sevents g es w2) as [[o w3]|] eqn:R2; [|discriminate]. injection R as <- <-. eapply IH; eassumption.
Qed.

(* a restart on what is stored *)
Definition restart_b (w : world) : bool :=
  match stored_of w with (n, _, _) :: _ => bseqb n (str "default") | [] => false end &&
  forallb (fun o => match o with Some rk => calm_or rk (settled_b (est_of w rk)) | None => true end) (w_slots w).

Lemma restart_b_ok g w : restart_b w = true -> covered g (SRestart (stored_of w)) w.
Proof.
  unfold restart_b. intro H. apply andb_true_iff in H. destruct H as (A & B). cbn [covered]. split; [apply Permutation_refl|]. split.
  - destruct (stored_of w) as [|((n, de), d) l]; [discriminate|]. apply bseqb_eq in A. subst n. exists de, d, l. reflexivity.
  - intros i r S I. apply settled_b_ok. apply (calm_or_ok r); [|exact I]. pose proof (slots_forall _ w i eq_refl B) as G. rewrite S in G. exact G.
Qed.

Lemma covered_honest g es : forall w, all_covered g es w -> all_honest g es w.
Proof.
  induction es as [|e es IH]; intros w H; cbn [all_covered all_honest] in *; [exact I|]. destruct H as (A & B). split.
  - destruct e; cbn [covered honest] in *; try exact I. tauto.
  - destruct (run_sevent g e w); [apply IH; exact B|exact I].
Qed.
