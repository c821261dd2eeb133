(* PROOFS.  Which reads end a connection. *)
From Coq Require Import Strings.String Strings.Byte List NArith ZArith Bool Lia ZifyBool ZifyN ZifyNat.
From Verif Require Import Bytes BytesFacts Layout Text TextFacts Store Commands Dispatch Namespace Resp RespSpec RespFacts ReplyQueue ReplyFacts Server AuthFacts
  Net SpecNet NetFacts NetDefined.
Import ListNotations.
Open Scope N_scope.
Local Notation length := List.length.

Definition closing (v : status) : Prop := v = DISCARD \/ v = DISCONNECTED.

Lemma returned_closing v st : closing (returned v st) -> returned v st = st.
Proof. unfold returned, closing. destruct st; try reflexivity. destruct (v_one v); intros [|]; discriminate. Qed.

Lemma request_closing g v fd argv w out st w' : Server.request g v fd argv w = SDone out st w' -> closing st ->
  exists cl more, client_at fd w = Some cl /\ c_ns cl = None /\
    out = (fd, str "-Your active namespace is not available anymore (probably removed)." ++ CRLF) :: more.
Proof.
  unfold Server.request. intros H Hc. destruct (client_at fd w) as [cl|]; [|discriminate].
  assert (R : forall a, match dispatch g v fd cl a w with
        | Undef => SUndef
        | Done rep st w1 => match posthandler v fd a w1 with None => SUndef | Some (out, w2) => SDone ((fd, rep) :: out) st w2 end
        end = SDone out st w' -> exists cl0 more, Some cl = Some cl0 /\ c_ns cl0 = None /\
    out = (fd, str "-Your active namespace is not available anymore (probably removed)." ++ CRLF) :: more).
  { intros a X. destruct (dispatch g v fd cl a w) as [rep st1 w1|] eqn:D; [|discriminate].
    destruct (posthandler v fd a w1) as [[o w2]|]; [|discriminate]. injection X as <- -> _.
    unfold dispatch in D. destruct (c_ns cl) eqn:En; [|injection D as <- _ _; exists cl, o; auto].
    destruct (slot n w); [|discriminate]. destruct (lookup_handler (arg 0 a)) as [[h c]|];
      [|injection D as _ <- _; destruct Hc; discriminate].
    apply handle_status in D. destruct D as [-> | ->], Hc; discriminate. }
  destruct (c_master cl); [|exact (R _ H)].
  destruct (32 <? _); [injection H as _ <- _; destruct Hc; discriminate|]. destruct (_ <=? 1); [discriminate|]. exact (R _ H).
Qed.

Lemma front_closing rs w done todo p : rel rs w done todo p -> b_data p <> [] -> ~ closing (snd (fst (parse_front p))).
Proof.
  intros R Hne. unfold parse_front, closing.
  destruct (q_state p) eqn:St.
  - destruct (empty_ok _ _ _ _ _ R St Hne) as (p1 & v1 & E & R1 & [(-> & S1 & L1)|([-> | ->] & _)]); rewrite E; try (cbn; intros [|]; discriminate).
    rewrite S1. destruct (header_ok _ _ _ _ _ R1 S1) as (p2 & v2 & E2 & R2 & [(-> & S2 & L2)|([-> | ->] & _)]); rewrite E2; try (cbn; intros [|]; discriminate).
    rewrite S2. destruct (payload_ok _ _ _ _ _ R2 S2) as (p' & v' & E' & [(-> & _)|(-> & _)]); rewrite E'; cbn; intros [|]; discriminate.
  - rewrite St. destruct (header_ok _ _ _ _ _ R St) as (p2 & v2 & E2 & R2 & [(-> & S2 & L2)|([-> | ->] & _)]); rewrite E2; try (cbn; intros [|]; discriminate).
    rewrite S2. destruct (payload_ok _ _ _ _ _ R2 S2) as (p' & v' & E' & [(-> & _)|(-> & _)]); rewrite E'; cbn; intros [|]; discriminate.
  - rewrite St. rewrite St. destruct (payload_ok _ _ _ _ _ R St) as (p' & v' & E' & [(-> & _)|(-> & _)]); rewrite E'; cbn; intros [|]; discriminate.
Qed.

(* ---- a connection is closed after a request of a client without namespace only ---- *)

Section Says.
Variable g : server.
Variable fd : N.
Variable x : N -> env * (N -> how).
Variable y : N -> how.
Variable arr : N -> bytes.
Hypothesis Wf : wellformed arr fd.

(* the requests ext lead from w to w', and the last one had the status v *)
Definition ends (w : world) (v : status) : Prop := exists ext ms w1 k argv out w',
  Forall (of_read fd x) ext /\ run_sevents g ext w = Some (ms, w1) /\ Server.request g (fst (x k)) fd argv w1 = SDone out v w'.

Definition runs (w w' : world) : Prop := exists ext ms, Forall (of_read fd x) ext /\ run_sevents g ext w = Some (ms, w').

Lemma runs_refl w : runs w w.
Proof. exists [], []. split; [constructor|reflexivity]. Qed.

Lemma runs_snoc w w1 k argv out st w2 : runs w w1 -> Server.request g (fst (x k)) fd argv w1 = SDone out st w2 -> runs w w2.
Proof.
  intros (ext & ms & F & R) E. exists (ext ++ [SRequest fd (fst (x k)) argv]), (ms ++ [out]). split.
  - apply Forall_app. split; [exact F|constructor; [eexists _, _; reflexivity|constructor]].
  - eapply run_snoc; [exact R|exact E].
Qed.

Lemma loop_says sock w0 fuel : forall k p v w outs k' p' v' w' outs',
  mid arr fd sock p -> runs w0 w -> (closing v -> ends w0 v) ->
  net_loop g fd x y fuel k p v w outs = Some (k', p', v', w', outs') ->
  rest arr fd sock p' /\ runs w0 w' /\ (closing v' -> ends w0 v').
Proof.
  induction fuel as [|fuel IH]; intros k p v w outs k' p' v' w' outs' M Rn Hv E; cbn [net_loop] in E.
  all: destruct (b_data p) as [|b0 d0] eqn:Ed.
  1,3: injection E as <- <- <- <- <-; split; [|split; [exact Rn|exact Hv]]; intros rs later Ok Ea;
       destruct (M rs later Ok Ea) as (done & todo & R & Hr); exists done, todo; split; [exact R|]; split; [apply Hr; exact Ed|apply stuck_nil; exact Ed].
  { discriminate. }
  assert (Hne : b_data p <> []) by (rewrite Ed; discriminate). clear b0 d0 Ed.
  assert (P0 : forall rs later, Forall req_ok rs -> arr fd ++ later = enc_reqs rs -> exists done todo,
     rel rs (sock ++ later) done todo p /\ forall st, pass_post rs (sock ++ later) p (parse_pass (fun _ => st) p)).
  { intros rs later Ok Ea. destruct (M rs later Ok Ea) as (done & todo & R & Hr).
    exists done, todo. split; [exact R|]. intros st. eapply pass_ok; eassumption. }
  destruct Wf as (rs0 & later0 & Ok0 & Ea0). destruct (P0 rs0 later0 Ok0 Ea0) as (done & todo & R & _).
  pose proof (front_closing _ _ _ _ _ R Hne) as FC.
  destruct (parse_front p) as [[p1 v1] stop] eqn:Ef. cbn [fst snd] in FC.
  destruct (send_errors _ _ _ _ _) as [outs1|]; [|discriminate].
  destruct stop.
  - injection E as <- <- <- <- <-. split; [|split; [exact Rn|contradiction]].
    intros rs' later' Ok' Ea'. destruct (P0 rs' later' Ok' Ea') as (d0 & t0 & R0 & P1). specialize (P1 SUCCESS).
    rewrite pass_split, Ef in P1. destruct P1 as ((d & t & R1) & P1 & P2). exists d, t. auto.
  - destruct (q_fillin p1 =? q_argc p1)%Z eqn:Ec.
    + unfold finish in E. destruct (args (q_argv p1)) as [argv|]; [|discriminate].
      destruct (Server.request g (fst (x k)) fd argv w) as [out st w2|] eqn:Er; [|discriminate].
      destruct (send_all _ _ _ _) as [outs2|]; [|discriminate].
      eapply IH; [| | |exact E].
      * intros rs' later' Ok' Ea'. destruct (P0 rs' later' Ok' Ea') as (d0 & t0 & R0 & P3). specialize (P3 st).
        rewrite pass_split, Ef, Ec in P3. destruct P3 as ((d3 & t3 & R3) & _ & P4). exists d3, t3. split; [exact R3|exact P4].
      * eapply runs_snoc; eassumption.
      * intros Hc. apply returned_closing in Hc. rewrite Hc. destruct Rn as (ext & ms & F & Rr). exists ext, ms, w, k, argv, out, w2. auto.
    + eapply IH; [|exact Rn| |exact E].
      * intros rs' later' Ok' Ea'. destruct (P0 rs' later' Ok' Ea') as (d0 & t0 & R0 & P3). specialize (P3 SUCCESS).
        rewrite pass_split, Ef, Ec in P3. destruct P3 as ((d3 & t3 & R3) & _ & P4). exists d3, t3. split; [exact R3|exact P4].
      * contradiction.
Qed.

Lemma chunk_says e w0 cuts : e <> REnd -> forall k sock p v w outs p' sock' v' w' outs',
  rest arr fd sock p -> runs w0 w -> (closing v -> ends w0 v) ->
  net_chunk g fd x y cuts e k sock p v w outs = Some (p', sock', v', w', outs') -> closing v' -> ends w0 v'.
Proof.
  intros He. induction cuts as [|n cuts IH]; intros k sock p v w outs p' sock' v' w' outs' R Rn Hv E; cbn [net_chunk] in E;
    (destruct (N.eqb_spec (b_remain p) 0) as [Hz|]; [destruct Wf as (rs & later & Ok & Ea); destruct (R rs later Ok Ea) as (d & t & _ & X & _); congruence|]).
  - injection E as <- <- <- <- <-. destruct e; [exact Hv|congruence|]. intros [|]; discriminate.
  - destruct sock as [|s0 sock0] eqn:Esock.
    { injection E as <- <- <- <- <-. destruct e; [exact Hv|congruence|]. intros [|]; discriminate. }
    rewrite <- Esock in *. assert (Hne : sock <> []) by (rewrite Esock; discriminate). clear Esock.
    destruct (recv n sock p) as [p1 sock1] eqn:Er.
    assert (M : mid arr fd sock1 p1).
    { intros rs later Ok Ea. destruct (R rs later Ok Ea) as (done & todo & R1 & Rr & Rs).
      destruct (recv_ok _ _ _ _ _ _ _ _ _ R1 Rr Hne Er) as (R2 & R3 & R4). exists done, todo. split; [exact R2|]. intros; contradiction. }
    destruct (net_loop g fd x y (loop_fuel p1) k p1 v w outs) as [[[[[k2 p2] v2] w2] outs2]|] eqn:El; [|discriminate].
    destruct (loop_says sock1 w0 _ _ _ _ _ _ _ _ _ _ _ M Rn Hv El) as (L1 & L2 & L3).
    destruct v2; try discriminate; try (injection E as <- <- <- <- <-; exact L3); (eapply IH; [exact L1|exact L2|exact L3|exact E]).
Qed.
End Says.

(* ---- the requests of a client without namespace ---- *)

Section Gone.
Variable g : server.
Variable fd : N.
Variable x : N -> env * (N -> how).
Variable y : N -> how.

Definition gone (w : world) : Prop := exists cl, client_at fd w = Some cl /\ c_ns cl = None /\ c_master cl = false.

Lemma request_gone v argv w out st w' : Server.request g v fd argv w = SDone out st w' -> gone w -> gone w' /\ st = DISCARD.
Proof.
  intros H (cl & E & En & Em). unfold Server.request in H. rewrite E, Em in H. unfold dispatch in H. rewrite En in H.
  destruct (posthandler v fd argv w) as [[o w2]|] eqn:P; [|discriminate]. injection H as <- <- <-.
  split; [|reflexivity]. apply posthandler_world in P. destruct P as (_ & _ & _ & S). specialize (S fd).
  rewrite client_oget in E. unfold gone. destruct (oget fd (w_clients w2)) as [c'|] eqn:E2.
  - destruct S as (c & E3 & A & _ & _ & _ & B & _). exists c'. rewrite client_oget. split; [exact E2|]. split; congruence.
  - congruence.
Qed.

Definition idle_parser (p : parser) : Prop := q_state p = RESP_EMPTY /\ b_data p = [].

Lemma front_idle p p1 v1 stop : b_data p <> [] -> parse_front p = (p1, v1, stop) -> ~ idle_parser p1.
Proof.
  intros Hne E (S & D). unfold parse_front in E.
  assert (Hd : forall q, q_state q = RESP_FILLIN_HEADER -> q_state (fst (handle_header q)) <> RESP_EMPTY).
  { intros q Hq. unfold handle_header, resp_error, buffer_shift, set_request, advance.
    repeat match goal with |- context [match ?a with _ => _ end] => destruct a end; cbn [fst q_state]; congruence. }
  assert (Hp : forall q, q_state q = RESP_FILLIN_PAYLOAD -> q_state (fst (handle_payload q)) <> RESP_EMPTY).
  { intros q Hq. unfold handle_payload, buffer_shift, buffer_reset, set_request, advance. cbv zeta.
    repeat match goal with |- context [if ?a then _ else _] => destruct a end; cbn [fst q_state]; congruence. }
  assert (He : b_data (fst (handle_empty p)) <> [] \/ (snd (handle_empty p) = SUCCESS /\ q_state (fst (handle_empty p)) = RESP_FILLIN_HEADER)).
  { unfold handle_empty, resp_error, buffer_shift, set_request, advance. 
    destruct (find_nl (b_data p)) as [i|]; [|destruct (b_remain p =? 0); [destruct (b_off p =? 0)|]; cbn [fst b_data]; left; exact Hne].
    destruct (b_data p) as [|s l] eqn:Ed; [congruence|]. rewrite <- Ed in *.
    destruct (negb _); [left; cbn [fst b_data]; exact Hne|]. destruct (atoi_in l); [|left; exact Hne].
    cbv zeta. destruct (z =? 0)%Z; [left; cbn [fst b_data]; exact Hne|].
    destruct (1024 <? z)%Z; [left; cbn [fst b_data]; exact Hne|]. destruct (z <? 0)%Z; [left; cbn [fst b_data]; exact Hne|].
    right. split; reflexivity. }
  assert (Two : forall q v, q_state q <> RESP_EMPTY -> (
     (let '(p2, v2, stop2) := match q_state q with
       | RESP_FILLIN_HEADER => match handle_header q with (p', CONTINUE) => (p', CONTINUE, false) | (p', v) => (p', v, true) end
       | _ => (q, v, false) end in
      if stop2 then (p2, v2, true) else
      match q_state p2 with
      | RESP_FILLIN_PAYLOAD => match handle_payload p2 with (p', CONTINUE) => (p', CONTINUE, false) | (p', v) => (p', v, true) end
      | _ => (p2, v2, false)
      end) = (p1, v1, stop)) -> False).
  { intros q v Hq X.
    assert (Three : forall r u, q_state r <> RESP_EMPTY -> match q_state r with
      | RESP_FILLIN_PAYLOAD => match handle_payload r with (p', CONTINUE) => (p', CONTINUE, false) | (p', v) => (p', v, true) end
      | _ => (r, u, false)
      end = (p1, v1, stop) -> False).
    { intros r u Hr Y. destruct (q_state r) eqn:Sr; [congruence| |].
      - injection Y as <- _ _. congruence.
      - pose proof (Hp r Sr) as Z. destruct (handle_payload r) as [r' vr]. cbn [fst] in Z. destruct vr; injection Y as <- _ _; contradiction. }
    destruct (q_state q) eqn:Sq; [congruence| |].
    - pose proof (Hd q Sq) as Z. destruct (handle_header q) as [q' vq]. cbn [fst] in Z.
      destruct vq; try (injection X as <- _ _; contradiction). exact (Three q' CONTINUE Z X).
    - apply (Three q v); [congruence|exact X]. }
  destruct (q_state p) eqn:Sp.
  - destruct (handle_empty p) as [q vq]. cbn [fst snd] in He. destruct He as [He|[-> He]].
    + destruct vq; try (injection E as <- _ _; contradiction).
      destruct (q_state q) eqn:Sq.
      * rewrite Sq in E. injection E as <- _ _. contradiction.
      * apply (Two q SUCCESS); [congruence|rewrite Sq; exact E].
      * apply (Two q SUCCESS); [congruence|rewrite Sq; exact E].
    + apply (Two q SUCCESS); [congruence|exact E].
  - apply (Two p SUCCESS); [congruence|exact E].
  - apply (Two p SUCCESS); [congruence|exact E].
Qed.

Lemma loop_gone fuel : forall k p v w outs k' p' v' w' outs',
  gone w -> (idle_parser p -> v = DISCARD) ->
  net_loop g fd x y fuel k p v w outs = Some (k', p', v', w', outs') -> gone w' /\ (idle_parser p' -> v' = DISCARD).
Proof.
  induction fuel as [|fuel IH]; intros k p v w outs k' p' v' w' outs' G Hv E; cbn [net_loop] in E.
  all: destruct (b_data p) as [|b0 d0] eqn:Ed.
  1,3: injection E as <- <- <- <- <-; auto.
  { discriminate. }
  assert (Hne : b_data p <> []) by (rewrite Ed; discriminate). clear b0 d0 Ed.
  destruct (parse_front p) as [[p1 v1] stop] eqn:Ef. pose proof (front_idle _ _ _ _ Hne Ef) as FI.
  destruct (send_errors _ _ _ _ _) as [outs1|]; [|discriminate].
  destruct stop; [injection E as <- <- <- <- <-; split; [exact G|contradiction]|].
  destruct (q_fillin p1 =? q_argc p1)%Z.
  - unfold finish in E. destruct (args (q_argv p1)) as [argv|]; [|discriminate].
    destruct (Server.request g (fst (x k)) fd argv w) as [out st w2|] eqn:Er; [|discriminate].
    destruct (send_all _ _ _ _) as [outs2|]; [|discriminate].
    destruct (request_gone _ _ _ _ _ _ Er G) as [G2 ->]. eapply IH; [exact G2| |exact E]. auto.
  - eapply IH; [exact G| |exact E]. contradiction.
Qed.

Lemma chunk_gone e cuts : forall k sock p v w outs p' sock' v' w' outs',
  gone w -> (sock = [] -> ~ idle_parser p) ->
  net_chunk g fd x y cuts e k sock p v w outs = Some (p', sock', v', w', outs') -> sock' = [] -> idle_parser p' -> v' = DISCARD.
Proof.
  induction cuts as [|n cuts IH]; intros k sock p v w outs p' sock' v' w' outs' G Hs E; cbn [net_chunk] in E.
  all: destruct (b_remain p =? 0); [injection E as <- <- <- <- <-; auto|].
  { injection E as <- <- <- <- <-. intros -> I. destruct (Hs eq_refl I). }
  destruct sock as [|s0 sock0] eqn:Esock.
  { injection E as <- <- <- <- <-. intros _ I. destruct (Hs eq_refl I). }
  rewrite <- Esock in *. assert (Hsock : sock <> []) by (rewrite Esock; discriminate). clear Esock Hs.
  destruct (recv n sock p) as [p1 sock1] eqn:Er.
  destruct (net_loop g fd x y (loop_fuel p1) k p1 v w outs) as [[[[[k2 p2] v2] w2] outs2]|] eqn:El; [|discriminate].
  assert (Hne : b_data p1 <> []).
  { unfold recv in Er. injection Er as <- _. cbn [b_data]. intros X. apply app_eq_nil in X. destruct X as [_ X]. revert X.
    destruct sock as [|b t]; [congruence|]. rewrite nfirst_firstn. replace (N.to_nat _) with (S (N.to_nat (N.max 1 (N.min n (b_remain p)) - 1))) by lia. discriminate. }
  destruct (loop_gone _ _ _ _ _ _ _ _ _ _ _ G (fun I => False_ind _ (Hne (proj2 I))) El) as [G2 I2].
  destruct v2; try discriminate; try (injection E as <- <- <- <- <-; intros _; exact I2);
    (eapply IH; [exact G2| |exact E]; intros _ I; specialize (I2 I); discriminate).
Qed.
End Gone.

Lemma no_nl_crlf a b : ~ no_nl (a ++ CRLF ++ b).
Proof. unfold no_nl. intros H. apply Forall_app in H. destruct H as [_ H]. apply Forall_inv_tail in H. apply Forall_inv in H. apply H. reflexivity. Qed.

Lemma whole_idle rs done todo p : rel rs [] done todo p -> stuck p -> idle_parser p.
Proof.
  intros R S. destruct (rel_holds _ _ _ _ _ R) as [todo p St E|ds a rest todo p St E1 E2 E3 E|ds a rest todo f h p St E1 E2 E3 E4 E5 E]; unfold stuck in S; rewrite St in S.
  - split; [exact St|]. rewrite app_nil_r in E. destruct todo as [|r todo]; [exact E|]. exfalso. rewrite E in S. revert S.
    unfold enc_reqs. cbn [map concat]. unfold enc_req. rewrite <- !app_assoc. rewrite app_assoc. apply no_nl_crlf.
  - exfalso. rewrite app_nil_r in E. rewrite E in S. revert S. unfold rests. cbn [map concat]. unfold enc_arg at 1. rewrite <- !app_assoc. rewrite app_assoc. apply no_nl_crlf.
  - exfalso. rewrite S in E. cbn [app] in E. destruct h; [congruence|discriminate].
Qed.

(* ---- the two theorems ---- *)

Lemma net_run_snoc g evs ev n n' : forall m, net_run g evs m = Some n -> net_step g ev n = Some n' -> net_run g (evs ++ [ev]) m = Some n'.
Proof.
  induction evs as [|a evs IH]; intros m Er E; cbn [net_run app] in *.
  - injection Er as ->. rewrite E. reflexivity.
  - destruct (net_step g a m) as [m'|]; [|discriminate]. apply IH; assumption.
Qed.

Lemma polite_wf evs fd : polite evs -> wellformed (fun f => arrived_on f evs) fd.
Proof. intros P. destruct (P evs [] fd (eq_sym (app_nil_r _))) as (rs & later & Ok & Ea). exists rs, later. auto. Qed.

Lemma closed_why g w0 evs fd cuts e x y n n' : polite evs -> net_run g evs (net_new w0) = Some n -> connected fd n ->
  e <> REnd -> net_step g (NRead fd cuts e x y) n = Some n' -> ~ connected fd n' ->
  exists es1 ms1 es2 ms2 w k argv cl more st w',
    run_sevents g es1 w0 = Some (ms1, e_world n) /\ (forall f, connected f n -> accounts es1 ms1 evs n f) /\
    Forall (of_read fd x) es2 /\ run_sevents g es2 (e_world n) = Some (ms2, w) /\
    client_at fd w = Some cl /\ c_ns cl = None /\
    run_sevent g (SRequest fd (fst (x k)) argv) w =
      SDone ((fd, str "-Your active namespace is not available anymore (probably removed)." ++ CRLF) :: more) st w'.
Proof.
  intros P Er C He E C'.
  destruct (run_acc g w0 evs [] [] [] _ n (new_acc _ g w0) Er) as (es1 & ms1 & F1 & A1). cbn [app] in A1.
  unfold connected in C. destruct (e_in n fd) as [[p sock]|] eqn:Ein; [|congruence].
  destruct (acc_in _ _ _ _ _ _ _ A1 fd p sock Ein) as [R T].
  unfold net_step in E. destruct (negb (e_up n)); [discriminate|]. rewrite Ein in E.
  destruct (net_chunk g fd x y cuts e 0 sock p SUCCESS (e_world n) (e_out n)) as [[[[[p' sock'] v] w'] outs']|] eqn:Ec; [|discriminate].
  assert (Hv : closing v).
  { cbv zeta in E. destruct v; try discriminate; try (left; reflexivity); try (right; reflexivity);
      exfalso; apply C'; injection E as <-; unfold connected; cbn [e_in]; unfold upd; rewrite N.eqb_refl; discriminate. }
  destruct (chunk_says g fd x y _ (polite_wf evs fd P) e (e_world n) cuts He _ _ _ _ _ _ _ _ _ _ _ R (runs_refl g fd x (e_world n))
    (fun H : closing SUCCESS => match H with or_introl h => ltac:(discriminate h) | or_intror h => ltac:(discriminate h) end) Ec Hv)
    as (ext & ms & w1 & k & argv & out & w2 & Fx & Rx & Q).
  destruct (request_closing _ _ _ _ _ _ _ _ Q Hv) as (cl & more & Ecl & En & ->).
  exists es1, ms1, ext, ms, w1, k, argv, cl, more, v, w2.
  split; [exact (acc_hist _ _ _ _ _ _ _ A1)|]. split; [intros f Cf; apply acc_accounts with (1 := A1); exact Cf|]. auto 10.
Qed.

Lemma gone_closed g w0 evs fd cuts e x y n n' p b cl rs : net_run g evs (net_new w0) = Some n ->
  e_in n fd = Some (p, b) -> b <> [] -> Forall req_ok rs -> arrived_on fd evs = enc_reqs rs ->
  client_at fd (e_world n) = Some cl -> c_ns cl = None -> c_master cl = false ->
  net_step g (NRead fd cuts e x y) n = Some n' -> forall p', e_in n' fd <> Some (p', []).
Proof.
  intros Er Ein Hb Ok Ea Ecl En Em E p' E'.
  destruct (run_acc g w0 (evs ++ [NRead fd cuts e x y]) [] [] [] _ n' (new_acc _ g w0) (net_run_snoc _ _ _ _ _ _ Er E)) as (es1 & ms1 & F1 & A1). cbn [app] in A1.
  destruct (acc_in _ _ _ _ _ _ _ A1 fd p' [] E') as [R T].
  destruct (R rs [] Ok) as (done & todo & R1 & _ & R2).
  { rewrite app_nil_r. unfold arrived_on. rewrite fold_left_app. cbn [fold_left arrived_step]. exact Ea. }
  pose proof (whole_idle _ _ _ _ R1 R2) as I.
  unfold net_step in E. destruct (negb (e_up n)); [discriminate|]. rewrite Ein in E.
  destruct (net_chunk g fd x y cuts e 0 b p SUCCESS (e_world n) (e_out n)) as [[[[[p1 sock1] v] w1] outs1]|] eqn:Ec; [|discriminate].
  assert (G : gone fd (e_world n)) by (exists cl; auto).
  cbv zeta in E. destruct v eqn:Ev; try discriminate;
    try (unfold net_close, close in E; injection E as <-; cbn [e_in] in E'; unfold upd in E'; rewrite N.eqb_refl in E'; discriminate);
    (injection E as <-; cbn [e_in] in E'; unfold upd in E'; rewrite N.eqb_refl in E'; injection E' as -> ->;
     pose proof (chunk_gone g fd x y e cuts _ _ _ _ _ _ _ _ _ _ _ G (fun h => False_ind _ (Hb h)) Ec eq_refl I); discriminate).
Qed.
