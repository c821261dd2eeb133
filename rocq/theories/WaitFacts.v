(* PROOFS.  Challenges (C20) and notifications (C38). *)
From Coq Require Import Strings.String Strings.Byte List NArith ZArith Bool Lia ZifyBool ZifyN ZifyNat.
From Verif Require Import Bytes BytesFacts Layout Store Text Commands Sha1 Dispatch Namespace System Resp Server
  SpecSha Sha1Facts SpecAuth AuthFacts.
Import ListNotations.
Open Scope N_scope.

(* ---- C20 ---- *)

(* AUTH SECURE <digest> compares the digest *)
Definition compares (g : server) (cl : client) (argv : list bytes) : Prop :=
  (exists h, lookup_handler (arg 0 argv) = Some (h, CAuth)) /\ (exists i, c_ns cl = Some i) /\
  exists a how d n pw, argv = [a; how; d] /\ a <> [] /\ how <> [] /\ blen d = 40 /\ ncase_eq how (str "SECURE") = true /\
    c_nonce cl = Some n /\ v_adminpwd g = Some pw.

Lemma challenge_text : Forall (fun x => x <> x00) (str "CHALLENGE").
Proof. repeat (apply Forall_cons; [discriminate|]). apply Forall_nil. Qed.

Lemma ncase_challenge_len d : blen d = 40 -> ncase_eq d (str "CHALLENGE") = true -> exists a b, d = a ++ x00 :: b.
Proof.
  intros L H. apply (ncase_spec _ challenge_text) in H. destruct H as [(rest & H)|(k0 & junk & -> & _)].
  - exfalso. pose proof (f_equal (@length byte) H) as E. rewrite app_length in E. unfold lower in E. rewrite !map_length in E.
    change (length (str "CHALLENGE")) with 9%nat in E. rewrite blen_length in L. lia.
  - exists k0, junk. reflexivity.
Qed.

Lemma compare_consumes g v fd cl argv w rep st w' :
  client_at fd w = Some cl -> compares g cl argv -> ncase_eq (arg 2 argv) (str "CHALLENGE") = false ->
  dispatch g v fd cl argv w = Done rep st w' ->
  exists cl', client_at fd w' = Some cl' /\ c_nonce cl' = None.
Proof.
  intros Hc ((h & Lk) & (i & Hn) & a & how & d & n & pw & -> & Na & Nh & Ld & Sec & No & Pw) Nc D.
  unfold dispatch in D. rewrite Hn, Lk in D. destruct (slot i w) as [r|]; [|discriminate].
  set (cl1 := c_set_exec (Some h) cl) in *. set (w0 := put_client fd cl1 w) in *.
  assert (H0 : client_at fd w0 = Some cl1) by (apply (client_put_same _ _ cl); exact Hc).
  unfold handle, command_auth in D. change (argc [a; how; d]) with 3 in D.
  cbn [N.eqb Pos.eqb] in D.
  assert (V : args_validate [a; how; d] 3 = None).
  { unfold args_validate, real_args_validate. change (argc [a; how; d]) with 3. cbn [N.eqb Pos.eqb negb existsb].
    assert (Z : forall x : bytes, x <> [] -> (blen x =? 0) = false) by (intros [|? ?] X; [contradiction|cbn [blen]; lia]).
    rewrite (Z a Na), (Z how Nh), Ld. reflexivity. }
  rewrite V in D. change (arg 1 [a; how; d]) with how in D. change (arg 2 [a; how; d]) with d in *.
  rewrite Sec, Nc, Pw in D. cbn [negb] in D. change (c_nonce cl1) with (c_nonce cl) in D. rewrite No, Ld in D.
  cbn [N.eqb Pos.eqb negb] in D.
  destruct (password_check _ _); injection D as <- <- <-; eexists; (split; [apply (client_put_same _ _ cl1); exact H0|]); reflexivity.
Qed.

(* nothing but a new challenge brings one back *)
Definition no_challenge (fd : N) (e : sevent) : Prop :=
  match e with
  | SConnect k => k <> fd
  | SRequest k _ argv => k = fd -> ~ challenge_request argv
  | SRestart _ => False
  | _ => True
  end.

Lemma effective_challenge cl argv : argc (effective cl argv) = 3 ->
  ncase_eq (arg 2 (effective cl argv)) (str "CHALLENGE") = true -> challenge_request argv.
Proof.
  unfold effective. destruct (c_master cl); intros E N; apply (ncase_spec _ challenge_text) in N.
  - destruct argv as [|a [|b [|c [|d [|e r]]]]]; try discriminate E.
    + exists a, b, c. split; [right; exists d; reflexivity|]. exact N.
    + change (removelast (a :: b :: c :: d :: e :: r)) with (a :: b :: c :: removelast (d :: e :: r)) in E.
      unfold argc in E. cbn [nlen] in E. change (removelast (d :: e :: r)) with (d :: removelast (e :: r)) in E. cbn [nlen] in E. lia.
  - destruct (argc_3 _ E) as (a & b & c & ->). exists a, b, c. split; [left; reflexivity|]. exact N.
Qed.

Lemma nonce_stays_gone g e w out st w' fd c c' :
  run_sevent g e w = SDone out st w' -> no_challenge fd e ->
  client_at fd w = Some c -> c_nonce c = None -> client_at fd w' = Some c' -> c_nonce c' = None.
Proof.
  intros R Nc Hc Hn C'. destruct (step_session _ _ _ _ _ _ _ _ R C') as [(-> & _ & _)|(c0 & Hc0 & [K|X])].
  - exfalso. apply Nc. reflexivity.
  - rewrite Hc in Hc0. injection Hc0 as <-. destruct K as (_ & _ & _ & K & _). congruence.
  - rewrite Hc in Hc0. injection Hc0 as <-.
    destruct X as (v & argv & h & cmd & cl' & -> & Lk & Ch & Same & Sl).
    destruct Same as (_ & _ & _ & _ & _ & Sn & _). rewrite Sn.
    destruct cmd; cbn [session_change] in Ch; try contradiction.
    + destruct Ch as (h' & tmo & ->). exact Hn.
    + destruct Ch as (_ & ->). exact Hn.
    + destruct Ch as (_ & ->). exact Hn.
    + destruct Ch as [(p & _ & -> & _)|[(-> & A3 & Ac)|[(p & _ & -> & _)| ->]]]; try reflexivity; [exact Hn|].
      exfalso. exact (Nc eq_refl (effective_challenge _ _ A3 Ac)).
    + destruct Ch as (i1 & r1 & b & -> & _). exact Hn.
Qed.

(* connected throughout *)
Definition stays (fd : N) (e : sevent) : Prop := e <> SClose fd.

Lemma nset_oget_other {A} k fd (x : option A) l : k <> fd -> oget k (nset fd x l) = oget k l.
Proof. intro H. rewrite oget_nset. replace (fd =? k) with false by lia. reflexivity. Qed.

Lemma same_sessions_at l l' k c : same_sessions l l' -> oget k l = Some c -> exists c', oget k l' = Some c' /\ same_session c c'.
Proof.
  intros H E. specialize (H k). destruct (oget k l') as [c'|].
  - destruct H as (c0 & E0 & S). exists c'. split; [reflexivity|]. rewrite E in E0. injection E0 as <-. exact S.
  - rewrite E in H. discriminate.
Qed.

Lemma dispatch_keeps g v fd cl argv w rep st w1 k c : client_at fd w = Some cl ->
  dispatch g v fd cl argv w = Done rep st w1 -> client_at k w = Some c -> exists c', client_at k w1 = Some c' /\
    (k <> fd -> c_watch c' = c_watch c /\ c_since c' = c_since c /\ c_timeout c' = c_timeout c /\ c_mirror c' = c_mirror c
                /\ (c_ns c' = c_ns c \/ c_ns c' = None)).
Proof.
  intros Hcl D Hk. apply dispatch_inv in D. destruct D as [(_ & -> & _)|(i & r & Hns & Hsl & D)].
  { exists c. split; [exact Hk|]. intros _. repeat split. left. reflexivity. }
  assert (Put : forall cl2, exists c', client_at k (put_client fd cl2 w) = Some c' /\ (k <> fd -> c' = c)).
  { intro cl2. destruct (N.eq_dec k fd) as [->|NE].
    - exists cl2. split; [apply (client_put_same _ _ cl); exact Hcl|]. intro X. contradiction.
    - exists c. split; [rewrite client_put_other by exact NE; exact Hk|]. reflexivity. }
  destruct D as [(_ & -> & _)|(h & cmd & Lk & D)].
  { destruct (Put (c_set_exec None cl)) as (c' & A & B). exists c'. split; [exact A|]. intro NE. rewrite (B NE). repeat split. left. reflexivity. }
  destruct (Put (c_set_exec (Some h) cl)) as (c0 & A & B).
  set (w0 := put_client fd (c_set_exec (Some h) cl) w) in *.
  apply handle_sessions in D. destruct D as [E|[(_ & j & r' & _ & _ & E & _)|(cl' & E & Ch)]].
  - exists c0. rewrite client_oget, E. split; [exact A|]. intro NE. rewrite (B NE). repeat split. left. reflexivity.
  - rewrite client_oget, E, detach_at. change (oget k (w_clients w0)) with (client_at k w0). rewrite A.
    cbn [detach_client]. destruct (c_ns c0) as [b|] eqn:Eb; [destruct (b =? j)|];
      eexists; (split; [reflexivity|]); intro NE; rewrite (B NE) in *; repeat split; auto.
  - subst w1. destruct (N.eq_dec k fd) as [->|NE].
    + exists cl'. split; [apply (client_put_same _ _ c0); exact A|]. intro X; contradiction.
    + exists c0. split; [rewrite client_put_other by exact NE; exact A|]. intros _. rewrite (B NE). repeat split. left. reflexivity.
Qed.

Lemma grow_at k n l c : oget k l = Some c -> oget k (grow n l) = Some c.
Proof. intro H. unfold grow, oget in *. rewrite nget_app1; [exact H|]. apply (oget_lt k l c). exact H. Qed.

Lemma client_stays g e w out st w' fd c :
  run_sevent g e w = SDone out st w' -> stays fd e -> (forall o, e <> SRestart o) ->
  client_at fd w = Some c -> exists c', client_at fd w' = Some c'.
Proof.
  intros R Hst Nr Hc. destruct e as [k|k|k v argv|now old|ord]; cbn [run_sevent] in R.
  - unfold connect in R. destruct (client_at k w) eqn:Ek; [discriminate|]. injection R as <- <- <-.
    exists c. rewrite client_oget in *. cbn [w_clients]. assert (fd <> k) by (intro; subst; congruence).
    rewrite nset_oget_other by assumption. apply grow_at. exact Hc.
  - unfold close in R. injection R as <- <- <-. exists c. rewrite client_oget in *. cbn [w_clients].
    rewrite nset_oget_other; [exact Hc|]. intro; subst. apply Hst. reflexivity.
  - apply request_inv in R. destruct R as (cl & Hcl & [[-> ->]|(rep & w1 & out1 & D & P & ->)]); [exists c; exact Hc|].
    apply posthandler_world in P. destruct P as (_ & _ & _ & Ps).
    destruct (dispatch_keeps _ _ _ _ _ _ _ _ _ _ _ Hcl D Hc) as (c1 & H1 & _).
    destruct (same_sessions_at _ _ _ _ Ps H1) as (c2 & H2 & _). exists c2. exact H2.
  - unfold idle in R. pose proof (timeout_sessions now (w_clients w) 0) as S.
    destruct (watch_timeout now 0 (w_clients w)) as [o l] eqn:E. cbn [snd] in S. injection R as <- <- <-.
    destruct (same_sessions_at _ _ _ _ S Hc) as (c2 & H2 & _). exists c2. rewrite client_oget.
    destruct (v_rotate g); [|exact H2].
    destruct (rotate_frame old (upto (length (w_slots w)) 0) (mkWorld (w_tb w) (w_slots w) (w_eff w) l)) as (Rc & _).
    rewrite Rc. exact H2.
  - exfalso. apply (Nr ord). reflexivity.
Qed.

Lemma nonce_run g fd es : forall w outs w' c, run_sevents g es w = Some (outs, w') ->
  (forall e, In e es -> no_challenge fd e /\ stays fd e) ->
  client_at fd w = Some c -> c_nonce c = None ->
  exists c', client_at fd w' = Some c' /\ c_nonce c' = None.
Proof.
  induction es as [|e es IH]; intros w outs w' c R A Hc Hn; cbn [run_sevents] in R.
  { injection R as <- <-. exists c. split; assumption. }
  destruct (run_sevent g e w) as [out st w1|] eqn:E; [|discriminate].
  destruct (run_sevents g es w1) as [[o w2]|] eqn:E2; [|discriminate]. injection R as <- <-.
  destruct (A e (or_introl eq_refl)) as (A1 & A2).
  assert (Nr : forall o0, e <> SRestart o0) by (intros o0 ->; exact A1).
  destruct (client_stays _ _ _ _ _ _ _ _ E A2 Nr Hc) as (c1 & H1).
  pose proof (nonce_stays_gone _ _ _ _ _ _ _ _ _ E A1 Hc Hn H1) as N1.
  apply (IH w1 o w2 c1 E2); [|exact H1|exact N1]. intros e0 H0. apply A. right. exact H0.
Qed.

(* without a challenge AUTH with two arguments never authenticates *)
Lemma auth3_refused g v fd cl argv w rep st w' h :
  client_at fd w = Some cl -> c_nonce cl = None -> lookup_handler (arg 0 argv) = Some (h, CAuth) ->
  argc argv = 3 -> ~ challenge_request argv ->
  dispatch g v fd cl argv w = Done rep st w' ->
  is_error rep /\ exists cl', client_at fd w' = Some cl' /\ c_admin cl' = c_admin cl.
Proof.
  intros Hc No Lk A3 Nc D. unfold dispatch in D. destruct (c_ns cl) as [i|].
  2:{ injection D as <- <- <-. split; [apply hardsend_error|]. exists cl. split; [exact Hc|reflexivity]. }
  destruct (slot i w); [|discriminate]. rewrite Lk in D.
  set (cl1 := c_set_exec (Some h) cl) in *. set (w0 := put_client fd cl1 w) in *.
  assert (H0 : client_at fd w0 = Some cl1) by (apply (client_put_same _ _ cl); exact Hc).
  unfold handle, command_auth in D. rewrite A3 in D. cbn [N.eqb Pos.eqb] in D.
  assert (Err : forall e, is_error e -> Done e SUCCESS w0 = Done rep st w' -> is_error rep /\ exists cl', client_at fd w' = Some cl' /\ c_admin cl' = c_admin cl).
  { intros e He X. injection X as <- <- <-. split; [exact He|]. exists cl1. split; [exact H0|reflexivity]. }
  destruct (args_validate argv 3) as [e|] eqn:V.
  { apply (Err e); [|exact D]. unfold args_validate, real_args_validate in V. destr_res V; injection V as <-; apply hardsend_error. }
  destruct (ncase_eq (arg 1 argv) _); cbn [negb] in D; [|apply (Err _ (hardsend_error _) D)].
  destruct (ncase_eq (arg 2 argv) (str "CHALLENGE")) eqn:Ch.
  { exfalso. apply Nc. destruct (argc_3 _ A3) as (a & b & c & ->). exists a, b, c. split; [left; reflexivity|].
    apply (ncase_spec _ challenge_text). exact Ch. }
  destruct (v_adminpwd g); [|apply (Err _ (hardsend_error _) D)].
  change (c_nonce cl1) with (c_nonce cl) in D. rewrite No in D. apply (Err _ (hardsend_error _) D).
Qed.

Lemma request_plain g v fd argv w out st w' cl : client_at fd w = Some cl -> c_master cl = false ->
  request g v fd argv w = SDone out st w' ->
  exists rep w1 out1, dispatch g v fd cl argv w = Done rep st w1 /\
    posthandler v fd argv w1 = Some (out1, w') /\ out = (fd, rep) :: out1.
Proof.
  intros Hc Mc R. unfold request in R. rewrite Hc, Mc in R.
  destruct (dispatch _ _ _ _ _ _) as [rep st1 w1|]; [|discriminate].
  destruct (posthandler _ _ _ _) as [[o w2]|] eqn:P; [|discriminate]. injection R as <- <- <-.
  exists rep, w1, o. split; [reflexivity|]. split; [exact P|reflexivity].
Qed.

(* a digest compared once is of no use until the next challenge *)
Lemma digest_once g v fd argv w out st w1 cl es outs w2 c2 v2 argv2 out2 st2 w3 h2 :
  client_at fd w = Some cl -> c_master cl = false -> compares g cl argv -> ~ challenge_request argv ->
  request g v fd argv w = SDone out st w1 ->
  (forall e, In e es -> no_challenge fd e /\ stays fd e) -> run_sevents g es w1 = Some (outs, w2) ->
  client_at fd w2 = Some c2 -> c_master c2 = false ->
  lookup_handler (arg 0 argv2) = Some (h2, CAuth) -> argc argv2 = 3 -> ~ challenge_request argv2 ->
  request g v2 fd argv2 w2 = SDone out2 st2 w3 ->
  (exists rep more, out2 = (fd, rep) :: more /\ is_error rep) /\
  exists c3, client_at fd w3 = Some c3 /\ c_admin c3 = c_admin c2.
Proof.
  intros Hc Mc Cp Nc R1 A Rs Hc2 Mc2 Lk2 A3 Nc2 R2.
  apply (request_plain _ _ _ _ _ _ _ _ _ Hc Mc) in R1. destruct R1 as (rep & w0 & out1 & D & P & _).
  assert (E1 : exists c1, client_at fd w1 = Some c1 /\ c_nonce c1 = None).
  { pose proof Cp as Cp0. destruct Cp0 as (_ & _ & a & how & d & n & pw & -> & _).
    assert (Nch : ncase_eq (arg 2 [a; how; d]) (str "CHALLENGE") = false).
    { destruct (ncase_eq _ _) eqn:E; [|reflexivity]. exfalso. apply Nc. exists a, how, d. split; [left; reflexivity|].
      apply (ncase_spec _ challenge_text). exact E. }
    destruct (compare_consumes _ _ _ _ _ _ _ _ _ Hc Cp Nch D) as (c1 & H1 & N1).
    apply posthandler_world in P. destruct P as (_ & _ & _ & Ps).
    destruct (same_sessions_at _ _ _ _ Ps H1) as (c1' & H1' & S1). exists c1'. split; [exact H1'|].
    destruct S1 as (_ & _ & _ & _ & _ & Sn & _). congruence. }
  destruct E1 as (c1 & H1 & N1). destruct (nonce_run _ _ _ _ _ _ _ Rs A H1 N1) as (c2' & H2 & N2).
  rewrite Hc2 in H2. injection H2 as <-.
  apply (request_plain _ _ _ _ _ _ _ _ _ Hc2 Mc2) in R2. destruct R2 as (rep2 & w4 & out4 & D2 & P2 & ->).
  destruct (auth3_refused _ _ _ _ _ _ _ _ _ _ Hc2 N2 Lk2 A3 Nc2 D2) as (Er & c4 & H4 & A4).
  split; [exists rep2, out4; split; [reflexivity|exact Er]|].
  apply posthandler_world in P2. destruct P2 as (_ & _ & _ & Ps).
  destruct (same_sessions_at _ _ _ _ Ps H4) as (c5 & H5 & S5). exists c5. split; [exact H5|].
  destruct S5 as (_ & Sa & _). congruence.
Qed.

(* ---- C38 ---- *)

(* what is sent to one client *)
Definition sent (k : N) (out : list (N * bytes)) : list bytes :=
  map snd (filter (fun m => fst m =? k) out).

Definition at_off (j k : N) (l : list (option client)) : option client := if k <=? j then oget (j - k) l else None.

Lemma at_off_cons j k o l : at_off j k (o :: l) = if j =? k then o else at_off j (k + 1) l.
Proof.
  unfold at_off. destruct (N.eqb_spec j k) as [->|NE].
  - rewrite N.leb_refl, N.sub_diag. reflexivity.
  - destruct (N.leb_spec k j), (N.leb_spec (k + 1) j); try lia; [|reflexivity].
    rewrite oget_cons. replace (j - k =? 0) with false by lia. replace (N.pred (j - k)) with (j - (k + 1)) by lia. reflexivity.
Qed.

Definition ns_eqb (a b : option N) : bool :=
  match a, b with Some x, Some y => x =? y | None, None => true | _, _ => false end.

Definition matches (wh h : N) : bool := (wh =? h) || match handler_cmd wh with Some CAsterisk => true | _ => false end.

Definition answer (h : N) : bytes := str "+" ++ str (handler_name h) ++ CRLF.

Lemma sent_cons_other j k m out : k <> j -> sent j ((k, m) :: out) = sent j out.
Proof. intro H. unfold sent. cbn [filter fst]. replace (k =? j) with false by lia. reflexivity. Qed.

Lemma sent_cons_same j m out : sent j ((j, m) :: out) = m :: sent j out.
Proof. unfold sent. cbn [filter fst]. rewrite N.eqb_refl. reflexivity. Qed.

Lemma posthandle_sent v argv w fd cl h l : forall k out l',
  posthandle v argv w fd cl h k l = Some (out, l') -> forall j, j <> fd ->
  match at_off j k l with
  | None => sent j out = [] /\ at_off j k l' = None
  | Some ck =>
      if c_mirror ck then True
      else match c_watch ck with
           | None => sent j out = [] /\ at_off j k l' = Some ck
           | Some wh =>
               if ns_eqb (c_ns ck) (c_ns cl) && matches wh h
               then sent j out = [answer h] /\ at_off j k l' = Some (c_set_watch None (0, 0) 0 ck)
               else sent j out = [] /\ at_off j k l' = Some ck
           end
  end.
Proof.
  induction l as [|o l IH]; intros k out l' H j NE; cbn [posthandle] in H.
  { injection H as <- <-. unfold at_off. destruct (k <=? j); [unfold oget; cbn [nget]|]; split; reflexivity. }
  destruct (posthandle v argv w fd cl h (k + 1) l) as [[out0 t']|] eqn:E; [|discriminate].
  specialize (IH (k + 1) out0 t' E j NE).
  assert (Skip : forall o' out', l' = o' :: t' -> out = out' ++ out0 -> (out' = [] \/ exists m, out' = [(k, m)]) -> j <> k ->
     match at_off j (k + 1) l with
     | None => sent j out = [] /\ at_off j k l' = None
     | Some ck =>
      if c_mirror ck then True
      else match c_watch ck with
           | None => sent j out = [] /\ at_off j k l' = Some ck
           | Some wh =>
               if ns_eqb (c_ns ck) (c_ns cl) && matches wh h
               then sent j out = [answer h] /\ at_off j k l' = Some (c_set_watch None (0, 0) 0 ck)
               else sent j out = [] /\ at_off j k l' = Some ck
           end
     end).
  { intros o' out' -> -> Ho Nk.
    assert (So : sent j (out' ++ out0) = sent j out0).
    { destruct Ho as [->|(m & ->)]; [reflexivity|]. cbn [app]. apply sent_cons_other. lia. }
    rewrite So, at_off_cons. replace (j =? k) with false by lia. exact IH. }
  rewrite at_off_cons. destruct (N.eqb_spec j k) as [->|Nk].
  - (* this client *)
    assert (S0 : sent k out0 = []).
    { unfold at_off in IH. replace (k + 1 <=? k) with false in IH by lia. apply IH. }
    destruct o as [ck|].
    2:{ injection H as <- <-. rewrite at_off_cons, N.eqb_refl. split; [exact S0|reflexivity]. }
    replace (k =? fd) with false in H by lia.
    destruct (c_mirror ck); [exact I|].
    destruct (c_watch ck) as [wh|].
    2:{ injection H as <- <-. rewrite at_off_cons, N.eqb_refl. split; [exact S0|reflexivity]. }
    change ((wh =? h) || match handler_cmd wh with Some CAsterisk => true | _ => false end) with (matches wh h) in H.
    change (match c_ns ck with Some a => match c_ns cl with Some b => a =? b | None => false end
                             | None => match c_ns cl with Some _ => false | None => true end end)
      with (ns_eqb (c_ns ck) (c_ns cl)) in H.
    destruct (ns_eqb (c_ns ck) (c_ns cl) && matches wh h); injection H as <- <-; rewrite at_off_cons, N.eqb_refl.
    + rewrite sent_cons_same, S0. split; reflexivity.
    + split; [exact S0|reflexivity].
  - destr_res H; injection H as <- <-;
      first [ eapply (Skip _ []); [reflexivity|reflexivity|left; reflexivity|exact Nk]
            | eapply (Skip _ [(k, _)]); [reflexivity|reflexivity|right; eexists; reflexivity|exact Nk] ].
Qed.

Lemma at_off_0 j l : at_off j 0 l = oget j l.
Proof. unfold at_off. rewrite N.sub_0_r. replace (0 <=? j) with true by lia. reflexivity. Qed.

Lemma timeout_sent now l : forall k j, let '(out, l') := watch_timeout now k l in
  match at_off j k l with
  | None => sent j out = [] /\ at_off j k l' = None
  | Some ck =>
      match c_watch ck with
      | None => sent j out = [] /\ at_off j k l' = Some ck
      | Some wh =>
          if c_timeout ck <? delta_ms (c_since ck) now
          then sent j out = [hardsend "-Timeout"] /\ at_off j k l' = Some (c_set_watch None (0, 0) 0 ck)
          else sent j out = [] /\ at_off j k l' = Some ck
      end
  end.
Proof.
  induction l as [|o l IH]; intros k j; cbn [watch_timeout].
  { unfold at_off. destruct (k <=? j); [unfold oget; cbn [nget]|]; split; reflexivity. }
  pose proof (IH (k + 1) j) as IHj. pose proof (IH (k + 1) k) as IHk.
  destruct (watch_timeout now (k + 1) l) as [out t'].
  assert (S0 : sent k out = []).
  { unfold at_off in IHk. replace (k + 1 <=? k) with false in IHk by lia. apply IHk. }
  destruct o as [c|].
  - destruct (c_watch c) as [wh|] eqn:W.
    + destruct (c_timeout c <? delta_ms (c_since c) now) eqn:T.
      * rewrite !at_off_cons. destruct (N.eqb_spec j k) as [->|NE].
        -- rewrite W, T, sent_cons_same, S0. split; reflexivity.
        -- rewrite sent_cons_other by lia. exact IHj.
      * rewrite !at_off_cons. destruct (N.eqb_spec j k) as [->|NE]; [|exact IHj].
        rewrite W, T. split; [exact S0|reflexivity].
    + rewrite !at_off_cons. destruct (N.eqb_spec j k) as [->|NE]; [|exact IHj].
      rewrite W. split; [exact S0|reflexivity].
  - rewrite !at_off_cons. destruct (N.eqb_spec j k) as [->|NE]; [|exact IHj].
    split; [exact S0|reflexivity].
Qed.

Definition waiting_as (c c' : client) : Prop :=
  c_watch c' = c_watch c /\ c_since c' = c_since c /\ c_timeout c' = c_timeout c.

(* events which are not the client's own *)
Definition foreign (k : N) (e : sevent) : Prop :=
  match e with
  | SRequest fd _ _ => fd <> k
  | SClose fd => fd <> k
  | SRestart _ => False
  | _ => True
  end.

(* a request of another client *)
Lemma request_wait g v fd argv w out st w' k cl ck :
  request g v fd argv w = SDone out st w' -> client_at fd w = Some cl -> k <> fd ->
  client_at k w = Some ck -> c_mirror ck = false ->
  exists ck', client_at k w' = Some ck' /\ c_mirror ck' = false /\
    match c_watch ck with
    | None => sent k out = [] /\ c_watch ck' = None
    | Some wh =>
        (sent k out = [] /\ waiting_as ck ck') \/ (exists m, sent k out = [m] /\ c_watch ck' = None)
    end /\
    (forall wh i, c_watch ck = Some wh -> c_master cl = false -> c_ns cl = Some i ->
       exists cl', client_at fd w' = Some cl' /\
       match lookup_handler (arg 0 argv) with
       | Some (h, _) => if ns_eqb (c_ns ck') (c_ns cl') && matches wh h
                        then sent k out = [answer h] /\ c_watch ck' = None
                        else sent k out = [] /\ waiting_as ck ck'
       | None => sent k out = [] /\ waiting_as ck ck'
       end).
Proof.
  intros R Hcl NE Hk Hm. pose proof R as R0. apply request_inv in R. destruct R as (cl0 & Hcl0 & R).
  rewrite Hcl in Hcl0. injection Hcl0 as <-.
  destruct R as [[-> ->]|(rep & w1 & out1 & D & P & ->)].
  { exists ck. split; [exact Hk|]. split; [exact Hm|]. split.
    - destruct (c_watch ck); [left; repeat split|split; reflexivity].
    - intros wh i Wk Mm Nn. exfalso. unfold request in R0. rewrite Hcl, Mm in R0.
      destruct (dispatch _ _ _ _ _ _); [|discriminate]. destruct (posthandler _ _ _ _) as [[? ?]|]; discriminate. }
  destruct (dispatch_keeps _ _ _ _ _ _ _ _ _ _ _ Hcl D Hk) as (ck1 & Hk1 & Keep).
  destruct (Keep NE) as (Kw & Ks & Kt & Km & _). clear Keep.
  destruct (dispatch_keeps _ _ _ _ _ _ _ _ _ _ _ Hcl D Hcl) as (cl1 & Hcl1 & _).
  assert (So : sent k ((fd, rep) :: out1) = sent k out1) by (apply sent_cons_other; lia). rewrite So.
  (* the command recorded *)
  assert (Ex : c_master cl = false -> forall i, c_ns cl = Some i ->
     c_exec cl1 = match lookup_handler (arg 0 argv) with Some (h, _) => Some h | None => None end).
  { intros Mm i Nn. unfold effective in D. rewrite Mm in D. apply dispatch_inv in D.
    destruct D as [(X & _)|(i1 & r & _ & _ & D)]; [congruence|].
    destruct D as [(Lk & -> & _)|(h & c & Lk & D)].
    - rewrite (client_put_same _ _ cl) in Hcl1 by exact Hcl. injection Hcl1 as <-. rewrite Lk. reflexivity.
    - rewrite Lk. set (cx := c_set_exec (Some h) cl) in *.
      assert (H0 : client_at fd (put_client fd cx w) = Some cx) by (apply (client_put_same _ _ cl); exact Hcl).
      apply handle_sessions in D. destruct D as [E|[(_ & j & r' & _ & _ & E & _)|(cl' & E & Ch)]].
      + rewrite client_oget, E in Hcl1. change (client_at fd (put_client fd cx w) = Some cl1) in Hcl1. rewrite H0 in Hcl1.
        injection Hcl1 as <-. reflexivity.
      + rewrite client_oget, E, detach_at in Hcl1. change (detach_client j (client_at fd (put_client fd cx w)) = Some cl1) in Hcl1.
        rewrite H0 in Hcl1. cbn [detach_client] in Hcl1. destruct (c_ns cx); [destruct (_ =? _)|]; injection Hcl1 as <-; reflexivity.
      + subst w1. rewrite (client_put_same _ _ cx) in Hcl1 by exact H0. injection Hcl1 as <-.
        destruct c; cbn [session_change] in Ch; try contradiction.
        * destruct Ch as (? & ? & ->). reflexivity.
        * destruct Ch as (_ & ->). reflexivity.
        * destruct Ch as (_ & ->). reflexivity.
        * destruct Ch as [(? & _ & -> & _)|[(-> & _)|[(? & _ & -> & _)| ->]]]; reflexivity.
        * destruct Ch as (? & ? & ? & -> & _). reflexivity. }
  unfold posthandler in P. rewrite Hcl1 in P. destruct (c_exec cl1) as [h|] eqn:Eh.
  - destruct (posthandle v _ w1 fd cl1 h 0 (w_clients w1)) as [[o l]|] eqn:Ph; [|discriminate]. injection P as <- <-.
    pose proof (posthandle_sent _ _ _ _ _ _ _ _ _ _ Ph k NE) as S.
    pose proof (posthandle_sessions _ _ _ _ _ _ _ _ _ _ Ph) as Ss.
    destruct (same_sessions_at _ _ fd cl1 Ss Hcl1) as (cl2 & Hcl2 & Same2).
    rewrite !at_off_0 in S. change (oget k (w_clients w1)) with (client_at k w1) in S. rewrite Hk1, Km, Hm in S.
    assert (Nsame : forall ck2, oget k l = Some ck2 -> c_ns ck2 = c_ns ck1).
    { intros ck2 E2. destruct (same_sessions_at _ _ k ck1 Ss Hk1) as (c3 & E3 & S3). rewrite E2 in E3. injection E3 as <-. apply S3. }
    destruct (c_watch ck1) as [wh|] eqn:W1.
    + destruct (ns_eqb (c_ns ck1) (c_ns cl1) && matches wh h) eqn:M.
      * destruct S as (S1 & S2). exists (c_set_watch None (0, 0) 0 ck1). split; [exact S2|].
        split; [cbn; rewrite Km; exact Hm|]. rewrite <- Kw. split; [right; eexists; split; [exact S1|reflexivity]|].
        intros wh0 i Wk Mm Nn. injection Wk as <-. exists cl2. split; [exact Hcl2|].
        specialize (Ex Mm i Nn). destruct (lookup_handler (arg 0 argv)) as [[h0 c0]|]; [|discriminate]. injection Ex as <-.
        cbn [c_set_watch c_ns]. rewrite (proj1 Same2), M. split; [exact S1|reflexivity].
      * destruct S as (S1 & S2). exists ck1. split; [exact S2|]. split; [rewrite Km; exact Hm|]. rewrite <- Kw.
        split; [left; split; [exact S1|]; repeat split; congruence|].
        intros wh0 i Wk Mm Nn. injection Wk as <-. exists cl2. split; [exact Hcl2|].
        specialize (Ex Mm i Nn). destruct (lookup_handler (arg 0 argv)) as [[h0 c0]|]; [|discriminate]. injection Ex as <-.
        rewrite (proj1 Same2), M. split; [exact S1|]. repeat split; congruence.
    + destruct S as (S1 & S2). exists ck1. split; [exact S2|]. split; [rewrite Km; exact Hm|]. rewrite <- Kw.
      split; [split; [exact S1|exact W1]|]. intros wh0 i Wk _ _. congruence.
  - injection P as <- <-. exists ck1. split; [exact Hk1|]. split; [rewrite Km; exact Hm|]. split.
    + destruct (c_watch ck) as [wh|] eqn:W; [left; repeat split; congruence|]. split; [reflexivity|congruence].
    + intros wh0 i Wk Mm Nn. exists cl1. split; [exact Hcl1|]. specialize (Ex Mm i Nn).
      destruct (lookup_handler (arg 0 argv)) as [[h0 c0]|]; [discriminate|]. split; [reflexivity|]. repeat split; congruence.
Qed.

Lemma idle_wait g now old w out st w' k ck :
  idle g now old w = SDone out st w' -> client_at k w = Some ck ->
  exists ck', client_at k w' = Some ck' /\ c_mirror ck' = c_mirror ck /\
    match c_watch ck with
    | None => sent k out = [] /\ c_watch ck' = None
    | Some wh =>
        if c_timeout ck <? delta_ms (c_since ck) now
        then sent k out = [hardsend "-Timeout"] /\ c_watch ck' = None
        else sent k out = [] /\ waiting_as ck ck'
    end.
Proof.
  intros R Hk. unfold idle in R. pose proof (timeout_sent now (w_clients w) 0 k) as S.
  destruct (watch_timeout now 0 (w_clients w)) as [o l]. injection R as <- <- <-.
  rewrite !at_off_0 in S. change (oget k (w_clients w)) with (client_at k w) in S. rewrite Hk in S.
  set (w1 := if v_rotate g then _ else _).
  assert (Ck : forall j, client_at j w1 = oget j l).
  { intro j. rewrite client_oget. unfold w1. destruct (v_rotate g); [|reflexivity].
    destruct (rotate_frame old (upto (length (w_slots w)) 0) (mkWorld (w_tb w) (w_slots w) (w_eff w) l)) as (Rc & _).
    rewrite Rc. reflexivity. }
  destruct (c_watch ck) as [wh|] eqn:W.
  - destruct (_ <? _); destruct S as (S1 & S2).
    + eexists. split; [rewrite Ck; exact S2|]. split; [reflexivity|]. split; [exact S1|reflexivity].
    + eexists. split; [rewrite Ck; exact S2|]. split; [reflexivity|]. split; [exact S1|repeat split].
  - destruct S as (S1 & S2). eexists. split; [rewrite Ck; exact S2|]. split; [reflexivity|]. split; [exact S1|exact W].
Qed.

Lemma step_wait g e w out st w' k ck :
  run_sevent g e w = SDone out st w' -> foreign k e -> client_at k w = Some ck -> c_mirror ck = false ->
  exists ck', client_at k w' = Some ck' /\ c_mirror ck' = false /\
    match c_watch ck with
    | None => sent k out = [] /\ c_watch ck' = None
    | Some wh =>
        (sent k out = [] /\ waiting_as ck ck') \/ (exists m, sent k out = [m] /\ c_watch ck' = None)
    end.
Proof.
  intros R F Hk Hm. destruct e as [fd|fd|fd v argv|now old|ord]; cbn [run_sevent foreign] in *.
  - unfold connect in R. destruct (client_at fd w) eqn:Ef; [discriminate|]. injection R as <- <- <-.
    exists ck. split; [|split; [exact Hm|destruct (c_watch ck); [left; repeat split|split; reflexivity]]].
    rewrite client_oget in *. cbn [w_clients]. rewrite nset_oget_other by congruence. apply grow_at. exact Hk.
  - unfold close in R. injection R as <- <- <-.
    exists ck. split; [|split; [exact Hm|destruct (c_watch ck); [left; repeat split|split; reflexivity]]].
    rewrite client_oget in *. cbn [w_clients]. rewrite nset_oget_other by congruence. exact Hk.
  - pose proof R as R0. apply request_inv in R. destruct R as (cl & Hcl & _).
    destruct (request_wait _ _ _ _ _ _ _ _ k cl ck R0 Hcl ltac:(congruence) Hk Hm) as (ck' & A & B & C & _).
    exists ck'. split; [exact A|]. split; [exact B|exact C].
  - destruct (idle_wait _ _ _ _ _ _ _ k ck R Hk) as (ck' & A & B & C). exists ck'. split; [exact A|]. split; [congruence|].
    destruct (c_watch ck); [|exact C]. destruct (_ <? _); [right; eexists; exact C|left; exact C].
  - contradiction.
Qed.

Lemma run_wait g k es : forall w outs w' ck,
  run_sevents g es w = Some (outs, w') -> (forall e, In e es -> foreign k e) ->
  client_at k w = Some ck -> c_mirror ck = false ->
  exists ck', client_at k w' = Some ck' /\ c_mirror ck' = false /\
    match c_watch ck with
    | None => sent k (concat outs) = [] /\ c_watch ck' = None
    | Some wh =>
        (sent k (concat outs) = [] /\ waiting_as ck ck') \/ (exists m, sent k (concat outs) = [m] /\ c_watch ck' = None)
    end.
Proof.
  induction es as [|e es IH]; intros w outs w' ck R F Hk Hm; cbn [run_sevents] in R.
  { injection R as <- <-. exists ck. split; [exact Hk|]. split; [exact Hm|]. cbn [concat].
    destruct (c_watch ck); [left; repeat split|split; reflexivity]. }
  destruct (run_sevent g e w) as [out st w1|] eqn:E; [|discriminate].
  destruct (run_sevents g es w1) as [[o w2]|] eqn:E2; [|discriminate]. injection R as <- <-.
  destruct (step_wait _ _ _ _ _ _ _ _ E (F e (or_introl eq_refl)) Hk Hm) as (c1 & H1 & M1 & S1).
  destruct (IH w1 o w2 c1 E2 (fun e0 H0 => F e0 (or_intror H0)) H1 M1) as (c2 & H2 & M2 & S2).
  exists c2. split; [exact H2|]. split; [exact M2|].
  assert (Sa : sent k (concat (out :: o)) = sent k out ++ sent k (concat o)).
  { cbn [concat]. unfold sent. rewrite filter_app, map_app. reflexivity. }
  rewrite Sa. destruct (c_watch ck) as [wh|] eqn:W.
  - destruct S1 as [(S1 & Wa)|(m & S1 & Wn)].
    + rewrite S1. cbn [app]. destruct Wa as (Wa & Ws & Wt). rewrite Wa, W in S2.
      destruct S2 as [(S2 & Wb)|S2]; [left|right; exact S2]. split; [exact S2|].
      destruct Wb as (X & Y & Z). repeat split; congruence.
    + rewrite Wn in S2. destruct S2 as (S2 & Wn2). right. exists m. rewrite S1, S2. split; [reflexivity|exact Wn2].
  - destruct S1 as (S1 & Wn). rewrite Wn in S2. destruct S2 as (S2 & Wn2). rewrite S1, S2. split; [reflexivity|exact Wn2].
Qed.

(* elapsed time between two readings of the clock, in microseconds *)
Lemma delta_bounds s us s' us' t :
  us < 1000000 -> us' < 1000000 ->
  s * 1000000 + us <= s' * 1000000 + us' -> s' < 18446744073709551 ->
  (((s' * 1000000 + us') - (s * 1000000 + us) <= t * 1000) -> delta_ms (s, us) (s', us') <= t) /\
  ((t + 1) * 1000 <= ((s' * 1000000 + us') - (s * 1000000 + us)) -> t < delta_ms (s, us) (s', us')).
Proof.
  intros U U' M B. unfold delta_ms. cbn [fst snd].
  set (q := Z.quot (Z.of_N us' - Z.of_N us) 1000).
  assert (Q : (q * 1000 - 999 <= Z.of_N us' - Z.of_N us <= q * 1000 + 999)%Z /\
              ((0 <= Z.of_N us' - Z.of_N us)%Z -> (q * 1000 <= Z.of_N us' - Z.of_N us)%Z /\ (0 <= q)%Z) /\
              ((Z.of_N us' - Z.of_N us <= 0)%Z -> (Z.of_N us' - Z.of_N us <= q * 1000)%Z /\ (q <= 0)%Z)).
  { unfold q. destruct (Z.le_ge_cases 0 (Z.of_N us' - Z.of_N us)) as [P|P].
    - pose proof (Z.quot_rem' (Z.of_N us' - Z.of_N us) 1000). pose proof (Z.rem_bound_pos (Z.of_N us' - Z.of_N us) 1000 P ltac:(lia)).
      pose proof (Z.quot_pos (Z.of_N us' - Z.of_N us) 1000 P ltac:(lia)). lia.
    - pose proof (Z.quot_rem' (Z.of_N us' - Z.of_N us) 1000).
      pose proof (Z.rem_bound_pos_neg (Z.of_N us' - Z.of_N us) 1000 ltac:(lia) P). lia. }
  destruct Q as (Q1 & Q2 & Q3). clearbody q.
  assert (Z0 : (0 <= (Z.of_N s' - Z.of_N s) * 1000 + q < 18446744073709551616)%Z) by lia.
  unfold z_u64. rewrite Z.mod_small by exact Z0. split; intro H; lia.
Qed.

(* the statements of the properties *)
Lemma answered_once g k es w outs w' ck wh :
  run_sevents g es w = Some (outs, w') -> (forall e, In e es -> foreign k e) ->
  client_at k w = Some ck -> c_mirror ck = false -> c_watch ck = Some wh ->
  exists ck', client_at k w' = Some ck' /\
    ((sent k (concat outs) = [] /\ waiting_as ck ck') \/
     (exists m, sent k (concat outs) = [m] /\ c_watch ck' = None)).
Proof.
  intros R F Hk Hm W. destruct (run_wait _ _ _ _ _ _ _ R F Hk Hm) as (ck' & A & _ & B). rewrite W in B.
  exists ck'. split; [exact A|exact B].
Qed.

Lemma notified g v fd argv w out st w' k cl i ck wh :
  request g v fd argv w = SDone out st w' -> client_at fd w = Some cl -> k <> fd ->
  c_master cl = false -> c_ns cl = Some i ->
  client_at k w = Some ck -> c_mirror ck = false -> c_watch ck = Some wh ->
  exists ck' cl', client_at k w' = Some ck' /\ client_at fd w' = Some cl' /\
    match lookup_handler (arg 0 argv) with
    | Some (h, _) => if ns_eqb (c_ns ck') (c_ns cl') && matches wh h
                     then sent k out = [answer h] /\ c_watch ck' = None
                     else sent k out = [] /\ waiting_as ck ck'
    | None => sent k out = [] /\ waiting_as ck ck'
    end.
Proof.
  intros R Hc NE Mc Nc Hk Hm W.
  destruct (request_wait _ _ _ _ _ _ _ _ _ _ _ R Hc NE Hk Hm) as (ck' & A & _ & _ & B).
  destruct (B wh i W Mc Nc) as (cl' & C & D). exists ck', cl'. split; [exact A|]. split; [exact C|exact D].
Qed.

Lemma timed_out g s us old w out st w' k ck wh s0 us0 :
  idle g (s, us) old w = SDone out st w' -> client_at k w = Some ck -> c_watch ck = Some wh -> c_since ck = (s0, us0) ->
  us0 < 1000000 -> us < 1000000 -> s < 18446744073709551 -> s0 * 1000000 + us0 <= s * 1000000 + us ->
  exists ck', client_at k w' = Some ck' /\
   (((c_timeout ck + 1) * 1000 <= (s * 1000000 + us) - (s0 * 1000000 + us0) ->
       sent k out = [hardsend "-Timeout"] /\ c_watch ck' = None) /\
    ((s * 1000000 + us) - (s0 * 1000000 + us0) <= c_timeout ck * 1000 ->
       sent k out = [] /\ waiting_as ck ck')).
Proof.
  intros R Hk W Sn U0 U B M. destruct (idle_wait _ _ _ _ _ _ _ _ _ R Hk) as (ck' & A & _ & C).
  exists ck'. split; [exact A|]. rewrite W, Sn in C.
  destruct (delta_bounds s0 us0 s us (c_timeout ck) U0 U M B) as (D1 & D2).
  split; intro H.
  - specialize (D2 H). replace (c_timeout ck <? _) with true in C by lia. exact C.
  - specialize (D1 H). replace (c_timeout ck <? _) with false in C by lia. exact C.
Qed.
