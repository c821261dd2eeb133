(* PROOFS for C64. *)
From Coq Require Import Strings.String Strings.Byte List NArith ZArith Bool Lia ZifyBool ZifyN ZifyNat Sorting.Permutation.
From Verif Require Import Bytes BytesFacts Layout Store Text TextFacts Commands SpecKV Machine
  TableFacts FrameFacts Sha1 Dispatch Namespace System Resp Server SpecAuth AuthFacts SpecServer IsolFacts SrvInv SrvRun NamesFacts ConfFacts
  NsHook SpecNotify.
Import ListNotations.
Open Scope N_scope.
Local Notation length := List.length.

(* the server is the one of Server.v *)
Lemma nsnew_hook_snd g p argv w : snd (command_nsnew_hook g p argv w) = command_nsnew g p argv w.
Proof.
  unfold command_nsnew_hook, command_nsnew. destruct (admin_authorized p); [reflexivity|]. destruct (args_validate argv 2); [reflexivity|].
  destruct (args_namespace argv 1); [reflexivity|]. cbv zeta. destruct (negb _); [reflexivity|]. destruct (namespace_get _ _); [reflexivity|].
  destruct (_ =? 0); [reflexivity|]. destruct (namespace_load _ _ _ _ _ _) as [[t r]|]; reflexivity.
Qed.
Lemma nsdel_hook_snd p me argv w : snd (command_nsdel_hook p me argv w) = command_nsdel p me argv w.
Proof.
  unfold command_nsdel_hook, command_nsdel. destruct (admin_authorized p); [reflexivity|]. destruct (args_validate argv 2); [reflexivity|].
  destruct (args_namespace argv 1); [reflexivity|]. cbv zeta. destruct (bseqb _ _); [reflexivity|]. destruct (namespace_get _ _) as [[i r]|]; [|reflexivity].
  destruct (match me with Some j => j =? i | None => false end); reflexivity.
Qed.
Lemma nsset_hook_snd g p argv w : snd (command_nsset_hook g p argv w) = command_nsset g p argv w.
Proof.
  unfold command_nsset_hook, command_nsset. destruct (admin_authorized p); [reflexivity|]. destruct (args_validate argv 4); [reflexivity|].
  destruct (args_namespace argv 1); [reflexivity|]. destruct (args_overflow argv 2 COMMAND_MAXLEN); [reflexivity|]. destruct (args_overflow argv 3 63); [reflexivity|].
  destruct (sprint_max (arg 2 argv)) as [k|]; [|reflexivity]. cbv zeta. destruct (namespace_get _ _) as [[i r]|]; [|reflexivity].
  destruct (bseqb k (str "mode")); [destruct (nsset_mode _ _ _); reflexivity|destruct (nsset_apply _ _ _ _); reflexivity].
Qed.
Lemma reload_hook_snd g p argv w : snd (command_reload_hook g p argv w) = command_reload g p argv w.
Proof.
  unfold command_reload_hook, command_reload. destruct (admin_authorized p); [reflexivity|]. destruct (args_validate argv 2); [reflexivity|].
  destruct (args_namespace argv 1); [reflexivity|]. destruct (namespace_get _ _) as [[i r]|]; [|reflexivity].
  destruct (namespace_reload _ _ _ _); reflexivity.
Qed.
Lemma handle_hook_snd g v fd cl i r c argv w : snd (handle_hook g v fd cl i r c argv w) = handle g v fd cl i r c argv w.
Proof.
  destruct c; try reflexivity; cbn [handle_hook handle]; [apply nsnew_hook_snd|apply nsdel_hook_snd|apply nsset_hook_snd|apply reload_hook_snd].
Qed.
Lemma dispatch_hook_snd g v fd cl argv w : snd (dispatch_hook g v fd cl argv w) = dispatch g v fd cl argv w.
Proof.
  unfold dispatch_hook, dispatch. destruct (c_ns cl) as [i|]; [|reflexivity]. destruct (slot i w) as [r|]; [|reflexivity].
  destruct (lookup_handler _) as [[h c]|]; [|reflexivity]. cbv zeta. apply handle_hook_snd.
Qed.
Lemma request_hook_snd g v fd argv w : snd (request_hook g v fd argv w) = request g v fd argv w.
Proof.
  unfold request_hook, request. destruct (client_at fd w) as [cl|]; [|reflexivity]. cbv zeta.
  assert (K : forall a, snd (let '(notes, r) := dispatch_hook g v fd cl a w in
        (notes, match r with Undef => SUndef | Done rep st w1 =>
             match posthandler v fd a w1 with None => SUndef | Some (out, w2) => SDone ((fd, rep) :: out) st w2 end end)) =
     match dispatch g v fd cl a w with Undef => SUndef | Done rep st w1 =>
             match posthandler v fd a w1 with None => SUndef | Some (out, w2) => SDone ((fd, rep) :: out) st w2 end end).
  { intro a. rewrite <- dispatch_hook_snd. destruct (dispatch_hook g v fd cl a w) as [ns x]. reflexivity. }
  destruct (c_master cl); [|apply K]. destruct (32 <? _); [reflexivity|]. destruct (_ <=? _); [reflexivity|apply K].
Qed.
Lemma event_hook_snd g e w : snd (run_sevent_hook g e w) = run_sevent g e w.
Proof. destruct e; try reflexivity. apply request_hook_snd. Qed.

Lemma run_hook_same g es : forall w, match run_hook g es w with
  | None => run_sevents g es w = None
  | Some (l, w') => exists outs, run_sevents g es w = Some (outs, w')
  end.
Proof.
  induction es as [|e es IH]; intro w; cbn [run_hook run_sevents]; [eexists; reflexivity|].
  rewrite <- event_hook_snd. destruct (run_sevent_hook g e w) as [ns x]. cbn [snd]. destruct x as [out st w1|]; [|reflexivity].
  specialize (IH w1). destruct (run_hook g es w1) as [[l w2]|].
  - destruct IH as (outs & ->). eexists. reflexivity.
  - rewrite IH. reflexivity.
Qed.

(* the settings before *)
Definition fits (c : cmd) (name rep : bytes) (C : confset) : Prop :=
  rep = enc_reply ROk -> match c with CNsnew => C name = None | CNsdel | CNsset | CReload => C name <> None | _ => True end.

Lemma no_notes c name rep : is_error rep -> [] = notes_of c name rep.
Proof. intro E. unfold notes_of. rewrite (error_not_ok _ E). reflexivity. Qed.
Lemma no_fits c name rep C : is_error rep -> fits c name rep C.
Proof. intros E ->. destruct E as (m & E). discriminate. Qed.

Lemma admin_err p err : admin_authorized p = Some err -> is_error err.
Proof. unfold admin_authorized. destruct (p_admin p); [discriminate|]. intros [= <-]. apply hardsend_error. Qed.

Lemma valid_err a n err : args_validate a n = Some err -> is_error err.
Proof. intro Q. pose proof (validate_spec a n) as K. rewrite Q in K. apply K. Qed.
Lemma ns_err a err : args_namespace a 1 = Some err -> is_error err.
Proof. unfold args_namespace. destruct (_ <? _); [|discriminate]. intros [= <-]. apply hardsend_error. Qed.

Ltac refused H := injection H as <- <- <- <-; split; [apply no_notes|apply no_fits]; first [apply hardsend_error | eassumption].

Lemma handle_notes g v fd cl i r c argv w C ns rep st w' : CfInv w C ->
  handle_hook g v fd cl i r c argv w = (ns, Done rep st w') ->
  ns = notes_of c (text (arg 1 argv)) rep /\ fits c (text (arg 1 argv)) rep C.
Proof.
  intros V H.
  destruct c; cbn [handle_hook] in H;
    try (injection H as <- _; split; [unfold notes_of; destruct (bseqb _ _); reflexivity|intros _; exact I]).
  - unfold command_nsnew_hook in H. destruct (admin_authorized _) eqn:E1; [pose proof (admin_err _ _ E1); refused H|].
    destruct (args_validate _ _) eqn:E2; [pose proof (valid_err _ _ _ E2); refused H|]. destruct (args_namespace _ _) eqn:E3; [pose proof (ns_err _ _ E3); refused H|].
    cbv zeta in H. rewrite text_cstr in H. destruct (negb _); [refused H|]. pose proof (get_conf w C (text (arg 1 argv)) V) as G.
    destruct (namespace_get _ w) as [[k rk]|]; [refused H|]. destruct (_ =? 0); [discriminate|].
    destruct (namespace_load _ _ _ _ _ _) as [[t rk]|] eqn:L; [|discriminate]. apply load_name in L. injection H as <- <- _ _. rewrite L.
    split; [reflexivity|]. intros _. exact G.
  - unfold command_nsdel_hook in H. destruct (admin_authorized _) eqn:E1; [pose proof (admin_err _ _ E1); refused H|].
    destruct (args_validate _ _) eqn:E2; [pose proof (valid_err _ _ _ E2); refused H|]. destruct (args_namespace _ _) eqn:E3; [pose proof (ns_err _ _ E3); refused H|].
    cbv zeta in H. rewrite text_cstr in H. destruct (bseqb _ NAMESPACE_DEFAULT); [refused H|]. pose proof (get_conf w C (text (arg 1 argv)) V) as G.
    destruct (namespace_get _ w) as [[k rk]|]; [|refused H]. destruct (match c_ns cl with Some j => j =? k | None => false end); [refused H|].
    destruct G as (_ & Nk & G). injection H as <- <- _ _. rewrite Nk. split; [reflexivity|]. intros _. cbv iota. congruence.
  - unfold command_nsset_hook in H. destruct (admin_authorized _) eqn:E1; [pose proof (admin_err _ _ E1); refused H|].
    destruct (args_validate _ _) eqn:E2; [pose proof (valid_err _ _ _ E2); refused H|]. destruct (args_namespace _ _) eqn:E3; [pose proof (ns_err _ _ E3); refused H|].
    unfold args_overflow in H. destruct (_ <? _); [refused H|]. destruct (_ <? _); [refused H|]. destruct (sprint_max _) as [k0|]; [|discriminate].
    cbv zeta in H. rewrite !text_cstr in H. pose proof (get_conf w C (text (arg 1 argv)) V) as G.
    destruct (namespace_get _ w) as [[k rk]|]; [|refused H]. destruct G as (_ & Nk & G).
    destruct (bseqb k0 (str "mode")).
    + destruct (nsset_mode _ _ _) as [err|s'] eqn:M.
      * assert (is_error err). { unfold nsset_mode in M. repeat (match type of M with context[if ?b then _ else _] => destruct b end); try discriminate; injection M as <-; apply hardsend_error. }
        refused H.
      * injection H as <- <- _ _. rewrite Nk. split; [reflexivity|]. intros _. cbv iota. congruence.
    + rewrite <- Nk in H. pose proof (setting_apply k0 (text (arg 3 argv)) (r_cfg rk)) as Ap. destruct (nsset_apply _ _ _ _) as [err|c'].
      * destruct Ap as (_ & E). refused H.
      * injection H as <- <- _ _. rewrite Nk. split; [reflexivity|]. intros _. cbv iota. congruence.
  - unfold command_reload_hook in H. destruct (admin_authorized _) eqn:E1; [pose proof (admin_err _ _ E1); refused H|].
    destruct (args_validate _ _) eqn:E2; [pose proof (valid_err _ _ _ E2); refused H|]. destruct (args_namespace _ _) eqn:E3; [pose proof (ns_err _ _ E3); refused H|].
    rewrite text_cstr in H. pose proof (get_conf w C (text (arg 1 argv)) V) as G.
    destruct (namespace_get _ w) as [[k rk]|]; [|refused H]. destruct G as (_ & Nk & G). destruct (namespace_reload _ _ _ _); [|discriminate].
    injection H as <- <- _ _. rewrite Nk. split; [reflexivity|]. intros _. cbv iota. congruence.
Qed.

(* the settings are those of the invariant *)
Lemma asked_in l name : match asked l name with
  | Some c => exists i r, oget i l = Some r /\ n_name (r_cfg r) = name /\ c = r_cfg r
  | None => forall i r, oget i l = Some r -> n_name (r_cfg r) <> name
  end.
Proof.
  induction l as [|o l IH]; cbn [asked]; [intros i r H; discriminate|].
  assert (Sh : forall i (r : nsrec), oget i l = Some r -> oget (i + 1) (o :: l) = Some r).
  { intros i r. unfold oget. cbn [nget]. replace (i + 1 =? 0) with false by lia. replace (N.pred (i + 1)) with i by lia. auto. }
  assert (Hd : forall i (r : nsrec), oget i (o :: l) = Some r -> o = Some r \/ exists k, oget k l = Some r).
  { intros i r. unfold oget at 1. cbn [nget]. destruct (i =? 0); [auto|]. intro H. right. exists (N.pred i). exact H. }
  assert (Ct : match asked l name with
    | Some c => exists i r, oget i (o :: l) = Some r /\ n_name (r_cfg r) = name /\ c = r_cfg r
    | None => forall k r, oget k l = Some r -> n_name (r_cfg r) <> name end).
  { destruct (asked l name) as [c|]; [|exact IH]. destruct IH as (i & r & A & B). exists (i + 1), r. split; [apply Sh, A|exact B]. }
  destruct o as [r|].
  - destruct (bseqb (n_name (r_cfg r)) name) eqn:E.
    + apply bseqb_eq in E. exists 0, r. auto.
    + destruct (asked l name); [exact Ct|]. intros i r0 H. destruct (Hd i r0 H) as [K|(k & K)]; [|exact (Ct k r0 K)].
      injection K as <-. intros Q. rewrite Q, bseqb_refl in E. discriminate.
  - destruct (asked l name); [exact Ct|]. intros i r0 H. destruct (Hd i r0 H) as [K|(k & K)]; [discriminate|exact (Ct k r0 K)].
Qed.

Lemma cf_settings w C : CfInv w C -> forall n, C n = settings_of w n.
Proof.
  intros V n. unfold settings_of. pose proof (asked_in (w_slots w) n) as A. destruct (asked _ n) as [c|].
  - destruct A as (i & r & Si & <- & ->). apply (cf_live _ _ V i r Si).
  - destruct (C n) as [x|] eqn:E; [|reflexivity]. destruct (cf_have _ _ V n x E) as (i & r & Si & N). exfalso. exact (A i r Si N).
Qed.

Lemma request_hook_inv g v fd argv w ns out st w' : request_hook g v fd argv w = (ns, SDone out st w') ->
  exists cl, client_at fd w = Some cl /\
   ((ns = [] /\ out = [] /\ w' = w) \/
    exists rep w1 out1, dispatch_hook g v fd cl (effective cl argv) w = (ns, Done rep st w1) /\ out = (fd, rep) :: out1).
Proof.
  unfold request_hook, effective. intro H. destruct (client_at fd w) as [cl|]; [|discriminate]. exists cl. split; [reflexivity|]. cbv zeta in H.
  destruct (c_master cl).
  - destruct (32 <? _); [injection H as <- <- <- <-; left; auto|]. destruct (_ <=? _); [discriminate|].
    destruct (dispatch_hook _ _ _ _ _ _) as [ns1 [rep st1 w1|]]; [|discriminate]. destruct (posthandler _ _ _ _) as [[o1 w2]|]; [|discriminate].
    injection H as <- <- <- <-. right. exists rep, w1, o1. auto.
  - destruct (dispatch_hook _ _ _ _ _ _) as [ns1 [rep st1 w1|]]; [|discriminate]. destruct (posthandler _ _ _ _) as [[o1 w2]|]; [|discriminate].
    injection H as <- <- <- <-. right. exists rep, w1, o1. auto.
Qed.

Lemma request_notes g v fd argv w S C ns out st w' : NmInv w S -> CfInv w C -> request_hook g v fd argv w = (ns, SDone out st w') ->
  exists cl, client_at fd w = Some cl /\
   ((ns = [] /\ out = []) \/
    exists rep rest, out = (fd, rep) :: rest /\
      match c_ns cl, lookup_handler (arg 0 (effective cl argv)) with
      | Some _, Some (_, c) => ns = notes_of c (text (arg 1 (effective cl argv))) rep /\ fits c (text (arg 1 (effective cl argv))) rep C
      | _, _ => ns = []
      end).
Proof.
  intros Vn V H. apply request_hook_inv in H. destruct H as (cl & Cl & H). exists cl. split; [exact Cl|].
  destruct H as [(A & B & _)|(rep & w1 & o1 & D & ->)]; [left; auto|]. right. exists rep, o1. split; [reflexivity|].
  unfold dispatch_hook in D. destruct (c_ns cl) as [i|]; [|injection D as <- _; reflexivity].
  destruct (slot i w) as [r|]; [|discriminate]. destruct (lookup_handler _) as [[h c]|]; [|injection D as <- _; reflexivity].
  cbv zeta in D. eapply handle_notes; [|exact D]. apply (cf_confs w); [reflexivity|exact V].
Qed.

Lemma event_heard g e w S C P ns out st w' : NmInv w S -> CfInv w C -> (forall n, P n = C n) -> set_ok e w -> run_sevent_hook g e w = (ns, SDone out st w') ->
  exists C', CfInv w' C' /\ (forall n, fold_left (fun P n => hear w' n P) ns P n = C' n) /\ Forall (is_true_of w w') ns.
Proof.
  intros Vn V EP Ho H. assert (R : run_sevent g e w = SDone out st w') by (rewrite <- event_hook_snd, H; reflexivity).
  destruct (event_conf g e w S C out st w' Vn V Ho R) as (C' & Ce & V'). exists C'. split; [exact V'|].
  pose proof (cf_settings w C V) as St. pose proof (cf_settings w' C' V') as St'.
  destruct e as [fd|fd|fd v argv|now old|ord]; cbn [run_sevent_hook] in H; cbn [conf_event] in Ce.
  1,2,4: injection H as <- _; split; [intro n; cbn [fold_left]; rewrite EP, Ce; reflexivity|constructor].
  - destruct (request_notes g v fd argv w S C ns out st w' Vn V H) as (cl & Cl & K). destruct Ce as (cl0 & Cl0 & Ce).
    assert (cl0 = cl) by congruence. subst cl0.
    assert (Nil : ns = [] -> C' = C -> (forall n, fold_left (fun P n => hear w' n P) ns P n = C' n) /\ Forall (is_true_of w w') ns).
    { intros -> ->. split; [intro n; apply EP|constructor]. }
    destruct K as [(K1 & K2)|(rep & rest & K1 & K2)].
    { destruct Ce as [(_ & Ce)|(rp & rs & Ce & _)]; [apply Nil; assumption|congruence]. }
    destruct Ce as [(Ce & _)|(rp & rs & Ce & Cr)]; [congruence|]. rewrite K1 in Ce. injection Ce as <- <-.
    destruct (c_ns cl) as [i|]; [|apply Nil; [exact K2|apply Cr]]. destruct (lookup_handler _) as [[h c]|]; [|apply Nil; [exact K2|apply Cr]].
    destruct K2 as (K2 & K3). set (name := text (arg 1 (effective cl argv))) in *.
    assert (Other : forall k, k <> name -> C' k = C k).
    { intros k Nk. unfold conf_request in Cr. fold name in Cr. destruct c; try (rewrite Cr; reflexivity).
      - rewrite Cr. destruct (bseqb _ _); [apply cput_other; exact Nk|reflexivity].
      - rewrite Cr. destruct (bseqb _ _); [apply cput_other; exact Nk|reflexivity].
      - destruct (C name) as [x|]; [|destruct Cr as (_ & ->); reflexivity]. destruct (_ && _); [|destruct Cr as (_ & ->); reflexivity].
        destruct (word _ _); [rewrite Cr; reflexivity|]. destruct (setting _ _ _); destruct Cr as (_ & ->); [apply cput_other; exact Nk|reflexivity]. }
    assert (Put : forall k, cput name (settings_of w' name) P k = C' k).
    { intro k. destruct (bseqb k name) eqn:E.
      - apply bseqb_eq in E. subst k. rewrite cput_same. symmetry. apply St'.
      - rewrite cput_other by (intros ->; rewrite bseqb_refl in E; discriminate). rewrite EP. symmetry. apply Other. intros ->. rewrite bseqb_refl in E. discriminate. }
    unfold notes_of in K2. destruct (bseqb rep (enc_reply ROk)) eqn:Ok.
    2:{ apply Nil; [exact K2|]. assert (Nok : rep <> enc_reply ROk) by (intros ->; discriminate Ok).
        unfold conf_request in Cr. fold name in Cr. rewrite ?Ok in Cr. destruct c; try exact Cr.
        destruct (C name) as [x|]; [|apply Cr]. destruct (_ && _); [|apply Cr]. destruct (word _ _); [exact Cr|]. destruct (setting _ _ _); [|apply Cr].
        exfalso. apply Nok, Cr. }
    apply bseqb_eq in Ok. specialize (K3 Ok). unfold exists_in, is_true_of.
    destruct c; try (apply Nil; [exact K2|exact Cr]); rewrite K2; cbn [fold_left hear].
    + split; [exact Put|]. constructor; [|constructor]. cbv iota. unfold exists_in. rewrite <- St, <- St', K3. split; [congruence|].
      unfold conf_request in Cr. fold name in Cr. rewrite Ok in Cr. change (bseqb (enc_reply ROk) (enc_reply ROk)) with true in Cr. cbv iota in Cr. rewrite Cr, cput_same. discriminate.
    + unfold conf_request in Cr. fold name in Cr. rewrite Ok in Cr. change (bseqb (enc_reply ROk) (enc_reply ROk)) with true in Cr. cbv iota in Cr.
      assert (Cn : C' name = None) by (rewrite Cr, cput_same; reflexivity). split.
      * intro k. rewrite <- Put. unfold cput. destruct (bseqb k name); [rewrite <- St'; symmetry; exact Cn|reflexivity].
      * constructor; [|constructor]. cbv iota. unfold exists_in. rewrite <- St, <- St', Cn. split; [exact K3|congruence].
    + split; [exact Put|]. constructor; [|constructor]. cbv iota. unfold exists_in. rewrite <- St, <- St'. split; [exact K3|].
      unfold conf_request in Cr. fold name in Cr. destruct (C name) as [x|] eqn:Cn; [|contradiction]. destruct (_ && _); [|destruct Cr as (_ & ->); congruence].
      destruct (word _ _); [rewrite Cr; congruence|]. destruct (setting _ _ _); destruct Cr as (_ & ->); [rewrite cput_same; discriminate|congruence].
    + unfold conf_request in Cr. split; [intro k; rewrite EP, Cr; reflexivity|]. constructor; [|constructor]. cbv iota. unfold exists_in. rewrite <- St, <- St', Cr. auto.
  - injection H as <- _. cbn [fold_left hear]. split; [intro n; rewrite EP, Ce; reflexivity|]. constructor; [exact I|constructor].
Qed.

Lemma events_heard g es : forall w S C P l w', NmInv w S -> CfInv w C -> (forall n, P n = C n) -> all_set_ok g es w -> run_hook g es w = Some (l, w') ->
  (forall n, listen l P n = settings_of w' n) /\ all_true w l.
Proof.
  induction es as [|e es IH]; intros w S C P l w' Vn V EP Ho R; cbn [run_hook] in R.
  - injection R as <- <-. cbn [listen all_true]. split; [|exact I]. intro n. rewrite EP. apply cf_settings. exact V.
  - destruct (run_sevent_hook g e w) as [ns x] eqn:E. destruct x as [out st w1|]; [|discriminate]. destruct (run_hook g es w1) as [[l2 w2]|] eqn:R2; [|discriminate].
    injection R as <- <-. cbn [all_set_ok] in Ho. destruct Ho as (Ho & Hr).
    assert (R1 : run_sevent g e w = SDone out st w1) by (rewrite <- event_hook_snd, E; reflexivity). rewrite R1 in Hr.
    destruct (event_heard g e w S C P ns out st w1 Vn V EP Ho E) as (C1 & V1 & EP1 & T1).
    destruct (event_names g e w S out st w1 Vn (proj1 Ho) R1) as (S1 & _ & Vn1 & _).
    destruct (IH w1 S1 C1 _ l2 w2 Vn1 V1 EP1 Hr R2) as (A & B). cbn [listen all_true]. auto.
Qed.

Lemma notify_theorem g es w0 l w : first_boot g = Some w0 -> all_set_ok g es w0 -> run_hook g es w0 = Some (l, w) ->
  (forall n, listen l knows_default n = settings_of w n) /\ all_true w0 l.
Proof.
  intros B Ho R. destruct (first_names g w0 B) as (Vn & _).
  exact (events_heard g es w0 _ _ _ l w Vn (first_conf g w0 B) (fun n => eq_refl) Ho R).
Qed.

(* what is told, by the answer *)
Lemma answer_theorem g es w0 l w fd v argv cl i h c ns rep rest st w' :
  first_boot g = Some w0 -> all_set_ok g es w0 -> run_hook g es w0 = Some (l, w) ->
  client_at fd w = Some cl -> c_ns cl = Some i -> lookup_handler (arg 0 (effective cl argv)) = Some (h, c) ->
  run_sevent_hook g (SRequest fd v argv) w = (ns, SDone ((fd, rep) :: rest) st w') ->
  ns = notes_of c (text (arg 1 (effective cl argv))) rep.
Proof.
  intros B Ho R Cl Ci L H. destruct (first_names g w0 B) as (Vn & _). pose proof (run_hook_same g es w0) as Sm. rewrite R in Sm. destruct Sm as (outs & Sm).
  destruct (events_conf g es w0 _ _ outs w Vn (first_conf g w0 B) Ho Sm) as (C & _ & V).
  assert (Hn : all_honest g es w0).
  { clear - Ho. revert w0 Ho. induction es as [|e es IH]; intros w0 Ho; [exact I|]. cbn [all_honest all_set_ok] in *. destruct Ho as (A & Bq). split; [apply A|].
    destruct (run_sevent g e w0); [apply IH; exact Bq|exact I]. }
  destruct (events_names g es w0 _ (at_of w0) outs w Vn (fun k => eq_refl) Hn Sm) as (P & S & _ & Vn' & _).
  destruct (request_notes g v fd argv w S C ns _ st w' Vn' V H) as (cl0 & Cl0 & K). assert (cl0 = cl) by congruence. subst cl0.
  destruct K as [(_ & K)|(rp & rs & K & Q)]; [discriminate|]. injection K as <- <-. rewrite Ci, L in Q. apply Q.
Qed.

(* for the examples *)
Lemma restart_set_ok g a b w0 w : all_set_okb g a w0 = true -> option_map snd (run_sevents g a w0) = Some w -> restart_b w = true ->
  match boot g (stored_of w) with Some w1 => all_set_okb g b w1 | None => true end = true ->
  all_set_ok g (a ++ SRestart (stored_of w) :: b) w0.
Proof.
  intros A R T B. destruct (run_sevents g a w0) as [[o w1]|] eqn:E; [|discriminate]. cbn [option_map snd] in R. injection R as ->.
  eapply all_set_ok_app; [apply all_set_okb_ok; exact A|exact E|]. cbn [all_set_ok]. split.
  - split; [|exact I]. destruct (restart_b_ok g w T) as (P & D & _). split; [exact P|exact D].
  - cbn [run_sevent]. destruct (boot g (stored_of w)); [apply all_set_okb_ok; exact B|exact I].
Qed.
