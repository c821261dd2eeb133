(* A server started with --protect *)
From Coq Require Import Strings.String Strings.Byte List NArith ZArith Bool Lia ZifyBool ZifyN ZifyNat.
From Verif Require Import Bytes BytesFacts Layout Store Text TextFacts Commands Dispatch Namespace System Resp Server
  SpecAuth AuthFacts SpecServer IsolFacts SrvInv SrvRun NamesFacts ConfFacts.
Import ListNotations.
Open Scope N_scope.
Local Notation length := List.length.

Definition pinned (pw : bytes) (w : world) : Prop :=
  exists r, slot 0 w = Some r /\ n_name (r_cfg r) = NAMESPACE_DEFAULT /\ n_pass (r_cfg r) = Some pw.

Lemma pinned_confs pw w w' : confs w' = confs w -> pinned pw w -> pinned pw w'.
Proof.
  intros E (r & S & N & P). pose proof (confs_slot w w' 0 E) as K. rewrite S in K. cbn [conf option_map] in K.
  destruct (slot 0 w') as [r'|] eqn:S'; [|discriminate]. cbn [option_map conf] in K. injection K as K1 K2.
  exists r'. split; [exact S'|]. rewrite K1. auto.
Qed.

Lemma pinned_slot pw w w' : slot 0 w' = slot 0 w -> pinned pw w -> pinned pw w'.
Proof. intros E (r & S & N). exists r. rewrite E. auto. Qed.

Lemma put_other k o w : k <> 0 -> slot 0 (put_slot k o w) = slot 0 w.
Proof. intros K. rewrite !slot_oget. unfold put_slot. cbn [w_slots]. rewrite oget_nset. replace (k =? 0) with false by lia. reflexivity. Qed.

Lemma handle_pinned g v fd cl i r c argv w rep st w' pw : pinned pw w -> slot i w = Some r ->
  handle g v fd cl i r c argv w = Done rep st w' -> pinned pw w'.
Proof.
  intros P Si H. destruct (ns_cmd c) eqn:Nc.
  2:{ destruct (handle_confs g v fd cl i r c argv w rep st w' Nc Si H) as (A & _). exact (pinned_confs _ _ _ A P). }
  assert (P0 := P). destruct P0 as (r0 & S0 & N0 & W0).
  assert (Z0 : 0 < nlen (w_slots w)) by (rewrite slot_oget in S0; now apply oget_lt in S0).
  destruct c; try discriminate Nc; cbn [handle] in H.
  - unfold command_nsnew in H. apply guard_spec in H. destruct H as [(F & H)|(F & E & ->)]; [|exact P].
    destruct (negb (namespace_valid_name _)); [done_inv H; exact P|].
    destruct (namespace_get _ w) as [[k rk]|]; [done_inv H; exact P|].
    destruct (_ =? 0); [discriminate|]. destruct (namespace_load _ _ _ _ _ _) as [[t rk]|]; [|discriminate]. done_inv H.
    set (k := free_slot 0 (w_slots w)). set (w' := mkWorld _ _ _ _).
    assert (Sl : forall j, slot j w' = if j =? k then Some rk else slot j w).
    { intro j. unfold w'. rewrite !slot_oget. cbn [w_slots]. apply push_at. reflexivity. }
    assert (Fr : slot k w = None) by (rewrite slot_oget; apply free_none).
    apply (pinned_slot pw w); auto. rewrite Sl. destruct (N.eqb_spec 0 k) as [Ek|]; auto. rewrite <- Ek in Fr. congruence.
  - unfold command_nsdel in H. apply guard_spec in H. destruct H as [(F & H)|(F & E & ->)]; [|exact P].
    destruct (bseqb (cstr (arg 1 argv)) NAMESPACE_DEFAULT) eqn:D; [done_inv H; exact P|].
    destruct (namespace_get _ w) as [[k rk]|] eqn:G; [|done_inv H; exact P].
    destruct (match c_ns cl with Some j => j =? k | None => false end); [done_inv H; exact P|]. done_inv H.
    apply get_slot in G. destruct G as (Sk & Nk). apply (pinned_slot pw w); auto. rewrite !slot_oget. cbn [w_slots].
    rewrite oget_nset. destruct (N.eqb_spec k 0) as [->|]; auto. exfalso. rewrite S0 in Sk. injection Sk as <-.
    rewrite <- Nk, N0, bseqb_refl in D. discriminate.
  - unfold command_nsset in H. apply guard_spec in H. destruct H as [(F & H)|(F & E & ->)]; [|exact P].
    unfold args_overflow in H. destruct (_ <? blen (arg 2 argv)); [done_inv H; exact P|].
    destruct (_ <? blen (arg 3 argv)); [done_inv H; exact P|].
    unfold sprint_max in H. destruct (_ <? COMMAND_MAXLEN); [|discriminate].
    destruct (namespace_get _ w) as [[k rk]|] eqn:G; [|done_inv H; exact P].
    apply get_slot in G. destruct G as (Sk & Nk).
    destruct (bseqb _ (str "mode")).
    + destruct (nsset_mode _ _ _) as [err|s']; done_inv H; [exact P|]. destruct (N.eqb_spec k 0) as [->|K].
      * assert (rk = r0) by congruence. subst rk. exists (mkNs (r_cfg r0) (namespace_commit (r_cfg r0) (r_desc r0)) (ix s') (dt s') (dk s')).
        split; [|auto]. rewrite slot_oget. unfold put_est. cbn [w_slots]. rewrite oget_nset. replace (_ && _) with true by (symmetry; lia). reflexivity.
      * apply (pinned_slot pw w); auto. rewrite !slot_oget. unfold put_est. cbn [w_slots]. rewrite oget_nset. replace (k =? 0) with false by lia. reflexivity.
    + destruct (nsset_apply _ _ _ _) as [err|c'] eqn:Ap; done_inv H; [exact P|]. destruct (N.eqb_spec k 0) as [->|K].
      * assert (rk = r0) by congruence. subst rk. unfold nsset_apply in Ap. rewrite <- Nk, N0, bseqb_refl in Ap.
        assert (Cc : n_name c' = n_name (r_cfg r0) /\ n_pass c' = n_pass (r_cfg r0)).
        { destruct (bseqb _ _); [injection Ap as <-; auto|]. destruct (bseqb _ _); [injection Ap as <-; auto|discriminate]. }
        destruct Cc as [C1 C2]. eexists. split; [rewrite slot_oget; unfold put_slot; cbn [w_slots]; rewrite oget_nset;
          replace (_ && _) with true by (symmetry; lia); reflexivity|]. cbn [r_cfg]. rewrite C1, C2. auto.
      * apply (pinned_slot pw w); auto. now apply put_other.
Qed.

Definition restarts (e : sevent) : bool := match e with SRestart _ => true | _ => false end.

Lemma event_pinned g e w out st w' pw : pinned pw w -> restarts e = false -> run_sevent g e w = SDone out st w' -> pinned pw w'.
Proof.
  intros V Nr R. destruct e as [fd|fd|fd v argv|now old|ord]; cbn [run_sevent] in R; try discriminate Nr.
  - unfold connect in R. destruct (client_at fd w); [discriminate|]. injection R as <- <- <-. apply (pinned_confs pw w); [reflexivity|exact V].
  - unfold close in R. injection R as <- <- <-. apply (pinned_confs pw w); [reflexivity|exact V].
  - apply request_inv in R. destruct R as (cl & Cl & H). destruct H as [(-> & ->)|(rep & w1 & o1 & Di & P & ->)]; [exact V|].
    apply posthandler_world in P. destruct P as (_ & P2 & _ & _).
    apply (pinned_confs pw w1); [unfold confs; now rewrite P2|].
    apply dispatch_inv in Di. destruct Di as [(N & -> & E)|(i & r & Ci & Si & Di)]; [exact V|].
    destruct Di as [(L & -> & E)|(h & c & L & Di)]; [exact V|].
    eapply handle_pinned; [|exact (Si : slot i (put_client fd (c_set_exec (Some h) cl) w) = Some r)|exact Di]. apply (pinned_confs pw w); [reflexivity|exact V].
  - apply (pinned_confs pw w); [|exact V]. unfold idle in R. destruct (watch_timeout _ _ _) as [o l]. injection R as <- <- <-.
    destruct (v_rotate g); [|reflexivity]. destruct (rotate_frame old (upto (length (w_slots w)) 0) (mkWorld (w_tb w) (w_slots w) (w_eff w) l)) as (_ & _ & Rf).
    rewrite Rf. reflexivity.
Qed.

Lemma protect_ok g pw es : forall w outs w' fd c', v_protect g = true -> forallb (fun e => negb (restarts e)) es = true ->
  pinned pw w -> run_sevents g es w = Some (outs, w') ->
  client_at fd w' = Some c' -> c_ns c' = Some 0 -> c_writable c' = true ->
  (exists c, client_at fd w = Some c /\ c_ns c = Some 0 /\ c_writable c = true) \/
  exists es1 v argv es2 o1 w1 c h, es = es1 ++ SRequest fd v argv :: es2 /\ run_sevents g es1 w = Some (o1, w1) /\
    client_at fd w1 = Some c /\ lookup_handler (arg 0 (effective c argv)) = Some (h, CSelect) /\
    text (arg 1 (effective c argv)) = NAMESPACE_DEFAULT /\ select_proof (c_nonce c) (effective c argv) pw.
Proof.
  induction es as [|e es IH]; intros w outs w' fd c' Pr Nr P R C Hn Hw; cbn [run_sevents forallb] in R, Nr.
  - injection R as <- <-. left. eauto.
  - apply andb_true_iff in Nr. destruct Nr as [Nr1 Nr2]. apply negb_true_iff in Nr1.
    destruct (run_sevent g e w) as [out st w1|] eqn:E; [|discriminate]. destruct (run_sevents g es w1) as [[os w2]|] eqn:R2; [|discriminate].
    injection R as <- <-. pose proof (event_pinned _ _ _ _ _ _ _ P Nr1 E) as P1.
    destruct (IH w1 os w2 fd c' Pr Nr2 P1 R2 C Hn Hw) as [(c & H1 & H2 & H3)|X].
    + destruct P1 as (r1 & S1 & N1 & W1).
      destruct (write_needs_password _ _ _ _ _ _ _ _ _ _ _ E H1 H2 H3 S1 W1) as [X|[X|X]].
      * left. exact X.
      * destruct X as (_ & _ & X). congruence.
      * right. destruct X as (v & argv & c0 & h & -> & X1 & X2 & X3 & X4). exists [], v, argv, es, [], w, c0, h.
        split; [reflexivity|]. split; [reflexivity|]. rewrite <- N1. auto.
    + right. destruct X as (es1 & v & argv & es2 & o1 & w3 & c & h & -> & X2 & X3).
      exists (e :: es1), v, argv, es2, (out :: o1), w3, c, h. split; [reflexivity|]. split; [|exact X3].
      cbn [run_sevents]. rewrite E, X2. reflexivity.
Qed.

Lemma protected_start g l w : protected_boot g l = Some w -> (exists d f t, l = (NAMESPACE_DEFAULT, d, f) :: t) ->
  exists pw, v_adminpwd g = Some pw /\ v_protect g = true /\ pinned pw w /\ forall fd, client_at fd w = None.
Proof.
  unfold protected_boot. intros H (d & f & t & ->). destruct (v_protect g); [|discriminate]. destruct (v_adminpwd g) as [pw|]; [|discriminate].
  exists pw. split; [reflexivity|]. split; [reflexivity|]. unfold boot in H. cbn [load_all] in H. destruct (descriptor_load NAMESPACE_DEFAULT d); [|discriminate].
  destruct (namespace_load _ 0 _ _ _ _) as [[t1 r]|] eqn:L; [|discriminate].
  destruct (load_all _ _ _ _) as [[t2 rs]|]; [|discriminate]. cbn [option_map] in H. injection H as <-.
  assert (Nm : n_name (r_cfg r) = NAMESPACE_DEFAULT).
  { unfold namespace_load in L. destruct (descriptor_load NAMESPACE_DEFAULT d) as [[c ds]|] eqn:D; [|discriminate].
    destruct (store_open _ _ _ _); [|discriminate]. injection L as _ <-. cbn [r_cfg].
    unfold descriptor_load in D. repeat match type of D with context [match ?x with _ => _ end] => destruct x; try discriminate end; injection D as <- _; reflexivity. }
  split.
  - eexists. split; [reflexivity|]. cbn [r_cfg n_name n_pass]. auto.
  - intros fd. unfold protect_default, client_at. cbn [slot w_slots]. cbn. destruct (N.to_nat fd); reflexivity.
Qed.

Lemma protect_all g l w0 es outs w fd c : protected_boot g l = Some w0 -> (exists d f t, l = (NAMESPACE_DEFAULT, d, f) :: t) ->
  forallb (fun e => negb (restarts e)) es = true -> run_sevents g es w0 = Some (outs, w) ->
  client_at fd w = Some c -> c_ns c = Some 0 -> c_writable c = true ->
  exists pw es1 v argv es2 o1 w1 c1 h, v_adminpwd g = Some pw /\ es = es1 ++ SRequest fd v argv :: es2 /\ run_sevents g es1 w0 = Some (o1, w1) /\
    client_at fd w1 = Some c1 /\ lookup_handler (arg 0 (effective c1 argv)) = Some (h, CSelect) /\
    text (arg 1 (effective c1 argv)) = NAMESPACE_DEFAULT /\ select_proof (c_nonce c1) (effective c1 argv) pw.
Proof.
  intros B D Nr R C Hn Hw. destruct (protected_start _ _ _ B D) as (pw & A & Pr & P & N).
  destruct (protect_ok g pw es w0 outs w fd c Pr Nr P R C Hn Hw) as [(c0 & X & _)|X]; [rewrite N in X; discriminate|].
  destruct X as (es1 & v & argv & es2 & o1 & w1 & c1 & h & X). exists pw, es1, v, argv, es2, o1, w1, c1, h. tauto.
Qed.

Lemma protect_all' g l w0 es outs w fd c : protected_boot g l = Some w0 -> (exists d f t, l = (str "default", d, f) :: t) ->
  forallb (fun e => match e with SRestart _ => false | _ => true end) es = true -> run_sevents g es w0 = Some (outs, w) ->
  client_at fd w = Some c -> c_ns c = Some 0 -> c_writable c = true ->
  exists pw es1 v argv es2 o1 w1 c1 h, v_adminpwd g = Some pw /\ es = es1 ++ SRequest fd v argv :: es2 /\ run_sevents g es1 w0 = Some (o1, w1) /\
    client_at fd w1 = Some c1 /\ lookup_handler (arg 0 (effective c1 argv)) = Some (h, CSelect) /\
    text (arg 1 (effective c1 argv)) = str "default" /\ select_proof (c_nonce c1) (effective c1 argv) pw.
Proof.
  intros B D Nr. apply (protect_all g l w0 es outs w fd c B D). rewrite <- Nr. clear. induction es as [|e es IH]; cbn [forallb]; auto.
  rewrite IH. destruct e; reflexivity.
Qed.
