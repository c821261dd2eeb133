(* Proofs: the event loop itself does nothing undefined for well-formed clients. *)
From Coq Require Import Strings.String Strings.Byte List NArith ZArith Bool Lia ZifyBool ZifyN ZifyNat.
From Verif Require Import Bytes BytesFacts Layout Text Commands Dispatch Namespace Resp RespSpec RespFacts ReplyQueue ReplyFacts
  Server AuthFacts WaitFacts SpecServer ServerFacts Net SpecNet NetFacts.
Import ListNotations.
Open Scope N_scope.
Local Notation length := List.length.

(* ---- the queues stay usable, whatever the socket answers ---- *)

Definition qok (o : client_out) : Prop := chain_ok (o_chain o) (o_tail o) (o_next o).

Lemma qok_new : qok out_new.
Proof. split; [constructor|]. split; [constructor|]. intros a t h E. destruct t; discriminate. Qed.

Lemma push_def o rest : qok o -> exists o', response_push o rest = Some o' /\ qok o'.
Proof. intros H. destruct (push_ok o rest H) as (o' & E & _ & _ & K). exists o'. auto. Qed.

Lemma heap_def os p o : qok o -> exists o', reply_heap os p o = Some o' /\ qok o'.
Proof.
  intros H. unfold reply_heap. destruct (o_chain o) as [|c cs] eqn:E; [|apply push_def; exact H].
  destruct (send_response os p (o_sent o)) as [[[s r] k] os'].
  assert (K : qok (mkOut s [] (o_tail o) (o_next o))).
  { split; [constructor|]. split; [constructor|]. intros a t h X. destruct t; discriminate. }
  destruct k; [apply push_def; exact K|]. eexists. split; [reflexivity|exact K].
Qed.

Lemma stack_def os p o : qok o -> exists o', reply_stack os p o = Some o' /\ qok o'.
Proof.
  intros H. unfold reply_stack. destruct (o_chain o) as [|c cs] eqn:E; [|apply push_def; exact H].
  destruct (send_response os p (o_sent o)) as [[[s r] k] os'].
  assert (K : qok (mkOut s [] (o_tail o) (o_next o))).
  { split; [constructor|]. split; [constructor|]. intros a t h X. destruct t; discriminate. }
  destruct k; [apply push_def; exact K|]. eexists. split; [reflexivity|exact K].
Qed.

Lemma delayed_chain chain : forall os sent tail next sent' chain' tail', chain_ok chain tail next ->
  delayed_loop os chain sent tail = (sent', chain', tail') -> chain_ok chain' tail' next.
Proof.
  induction chain as [|r chain IH]; intros os sent tail next sent' chain' tail' H E; cbn [delayed_loop] in E.
  - inversion E; subst. exact H.
  - destruct (send_response os (r_rest r) sent) as [[[s rr] k] os']. destruct k.
    + inversion E; subst. apply chain_ok_head. exact H.
    + eapply IH; [|exact E]. apply (chain_ok_tail r). exact H.
Qed.

Lemma delayed_def os o : qok o -> qok (delayed_write os o).
Proof.
  intros H. unfold delayed_write. destruct (o_chain o) as [|c cs] eqn:E; [exact H|].
  destruct (delayed_loop os (c :: cs) (o_sent o) (o_tail o)) as [[s ch] t] eqn:D. unfold qok. cbn [o_chain o_tail o_next].
  eapply delayed_chain; [|exact D]. rewrite <- E. exact H.
Qed.

Lemma hand_def hw : forall p o, qok o -> exists o', hand_over hw p o = Some o' /\ qok o'.
Proof.
  induction hw as [|[[hp n] os] hw IH]; intros p o H; cbn [hand_over].
  - destruct p; [eauto|]. apply stack_def. exact H.
  - destruct p as [|b p]; [eauto|].
    assert (X : exists o', (if hp : bool then reply_heap os (nfirst n (b :: p)) o else reply_stack os (nfirst n (b :: p)) o) = Some o' /\ qok o')
      by (destruct hp; [apply heap_def|apply stack_def]; exact H).
    destruct X as (o' & -> & K). apply IH. exact K.
Qed.

Definition all_qok (outs : N -> option client_out) : Prop := forall f o, outs f = Some o -> qok o.

Lemma send_def hw fd m outs : all_qok outs -> outs fd <> None ->
  exists outs', send_to hw fd m outs = Some outs' /\ all_qok outs' /\ same_dom outs outs'.
Proof.
  intros H N. unfold send_to. destruct (outs fd) as [o|] eqn:E; [|congruence].
  destruct (hand_def hw m o (H fd o E)) as (o' & -> & K). eexists. split; [reflexivity|]. split.
  - intros f x Ef. unfold upd in Ef. destruct (f =? fd); [inversion Ef; subst; exact K|eapply H; exact Ef].
  - intros f. unfold upd. destruct (N.eqb_spec f fd) as [->|]; [rewrite E; split; discriminate|tauto].
Qed.

Lemma send_all_def hws l : forall i outs, all_qok outs -> (forall f m, In (f, m) l -> outs f <> None) ->
  exists outs', send_all hws i l outs = Some outs' /\ all_qok outs' /\ same_dom outs outs'.
Proof.
  induction l as [|[fd m] l IH]; intros i outs H N; cbn [send_all].
  - exists outs. split; [reflexivity|]. split; [exact H|apply dom_refl].
  - destruct (send_def (hws i) fd m outs H (N fd m (or_introl eq_refl))) as (o1 & -> & H1 & D1).
    destruct (IH (i + 1) o1 H1) as (o2 & E2 & H2 & D2).
    { intros f m' I X. apply (N f m' (or_intror I)). apply D1. exact X. }
    exists o2. split; [exact E2|]. split; [exact H2|]. eapply dom_trans; eassumption.
Qed.

Lemma send_errors_def fd y l : forall i outs, all_qok outs -> outs fd <> None ->
  exists outs', send_errors fd y i l outs = Some outs' /\ all_qok outs' /\ same_dom outs outs'.
Proof.
  induction l as [|e l IH]; intros i outs H N; cbn [send_errors].
  - exists outs. split; [reflexivity|]. split; [exact H|apply dom_refl].
  - destruct (send_def (y i) fd e outs H N) as (o1 & -> & H1 & D1).
    destruct (IH (i + 1) o1 H1) as (o2 & E2 & H2 & D2). { intros X. apply N. apply D1. exact X. }
    exists o2. split; [exact E2|]. split; [exact H2|]. eapply dom_trans; eassumption.
Qed.

(* ---- messages go to connected clients ---- *)

Lemma posthandle_to v argv w fd cl h l : forall k out l' f m, posthandle v argv w fd cl h k l = Some (out, l') -> In (f, m) out ->
  k <= f /\ oget (f - k) l <> None.
Proof.
  induction l as [|o l IH]; intros k out l' f m H I; cbn [posthandle] in H.
  { injection H as <- <-. contradiction. }
  destruct (posthandle v argv w fd cl h (k + 1) l) as [[out0 t']|] eqn:E; [|discriminate].
  assert (Rest : In (f, m) out0 -> k <= f /\ oget (f - k) (o :: l) <> None).
  { intros I0. destruct (IH _ _ _ _ _ E I0) as [L X]. split; [lia|]. rewrite oget_cons.
    replace (f - k =? 0) with false by lia. replace (N.pred (f - k)) with (f - (k + 1)) by lia. exact X. }
  assert (Me : o <> None -> f = k -> k <= f /\ oget (f - k) (o :: l) <> None).
  { intros Ho ->. split; [lia|]. rewrite N.sub_diag, oget_cons. exact Ho. }
  destr_res H; injection H as <- <-; subst; try (apply Rest; exact I);
    (destruct I as [X|I]; [injection X as X _; apply Me; [discriminate|congruence]|apply Rest; exact I]).
Qed.

Lemma timeout_to now l : forall k f m, In (f, m) (fst (watch_timeout now k l)) -> k <= f /\ oget (f - k) l <> None.
Proof.
  induction l as [|o l IH]; intros k f m I; cbn [watch_timeout] in I; [contradiction|].
  specialize (IH (k + 1) f m). destruct (watch_timeout now (k + 1) l) as [out t'] eqn:E. cbn [fst] in IH.
  assert (Rest : In (f, m) out -> k <= f /\ oget (f - k) (o :: l) <> None).
  { intros I0. destruct (IH I0) as [L X]. split; [lia|]. rewrite oget_cons.
    replace (f - k =? 0) with false by lia. replace (N.pred (f - k)) with (f - (k + 1)) by lia. exact X. }
  destruct o as [c|]; [|apply Rest; exact I]. destruct (c_watch c); [|apply Rest; exact I].
  destruct (c_timeout c <? delta_ms (c_since c) now); [|apply Rest; exact I]. cbn [fst] in I.
  destruct I as [X|I]; [|apply Rest; exact I]. injection X as X _. subst f. split; [lia|]. rewrite N.sub_diag, oget_cons. discriminate.
Qed.

Lemma request_to g v fd argv w out st w' f m : request g v fd argv w = SDone out st w' -> In (f, m) out -> client_at f w <> None.
Proof.
  intros R I. apply request_inv in R. destruct R as (cl & Hcl & [[-> _]|(rep & w1 & out1 & D & P & ->)]); [contradiction|].
  destruct I as [X|I]; [injection X as X _; subst f; congruence|].
  assert (C1 : client_at f w1 <> None).
  { unfold posthandler in P. destruct (client_at fd w1) as [cl1|]; [|injection P as <- _; contradiction].
    destruct (c_exec cl1) as [h|]; [|injection P as <- _; contradiction].
    destruct (posthandle v (effective cl argv) w1 fd cl1 h 0 (w_clients w1)) as [[o l]|] eqn:E; [|discriminate].
    injection P as <- _. destruct (posthandle_to _ _ _ _ _ _ _ _ _ _ _ _ E I) as [_ X]. rewrite N.sub_0_r in X. exact X. }
  intros N. apply C1. destruct (client_at f w1) as [c1|] eqn:E1; [|reflexivity]. exfalso.
  apply dispatch_inv in D. destruct D as [(_ & -> & _)|(i & r & _ & _ & D)]; [congruence|].
  assert (Put : forall c, client_at f (put_client fd c w) = None).
  { intros c. rewrite client_put_other; [exact N|]. intros ->. congruence. }
  destruct D as [(_ & -> & _)|(h & cmd & _ & D)]; [rewrite Put in E1; discriminate|].
  apply handle_sessions in D. destruct D as [E|[(_ & j & r' & _ & _ & E & _)|(cl' & -> & _)]].
  - rewrite client_oget, E, <- client_oget, Put in E1. discriminate.
  - rewrite client_oget, E, detach_at, <- client_oget, Put in E1. discriminate.
  - rewrite client_put_other in E1; [rewrite Put in E1; discriminate|]. intros ->. congruence.
Qed.

Lemma idle_to g now old w out st w' f m : idle g now old w = SDone out st w' -> In (f, m) out -> client_at f w <> None.
Proof.
  unfold idle. intros R I. pose proof (timeout_to now (w_clients w) 0 f m) as T.
  destruct (watch_timeout now 0 (w_clients w)) as [o l]. injection R as <- <- <-. destruct (T I) as [_ X]. rewrite N.sub_0_r in X. exact X.
Qed.

(* the sockets of the clients are those of the queues *)
Definition cover (w : world) (outs : N -> option client_out) : Prop := forall f, client_at f w = None <-> outs f = None.

Lemma cover_step g e w out st w' outs outs' : run_sevent g e w = SDone out st w' ->
  (forall f, e <> SConnect f) -> (forall f, e <> SClose f) -> (forall o, e <> SRestart o) ->
  cover w outs -> same_dom outs outs' -> cover w' outs'.
Proof.
  intros R H1 H2 H3 C D f. rewrite <- (D f), <- (C f). split; intros X.
  - destruct (client_at f w) as [c|] eqn:E; [|reflexivity]. exfalso.
    destruct (client_stays _ _ _ _ _ _ f c R (H2 f) H3 E) as (c' & E'). congruence.
  - destruct (client_at f w') as [c'|] eqn:E; [|reflexivity]. exfalso.
    destruct (step_session _ _ _ _ _ _ _ _ R E) as [(-> & _)|(c & E' & _)]; [eapply H1; reflexivity|congruence].
Qed.

(* ---- the handlers' statuses ---- *)

Lemma handle_status g v fd cl i r c argv w rep st w' : handle g v fd cl i r c argv w = Done rep st w' -> st = SUCCESS \/ st = SHUTDOWN.
Proof.
  intros H. destruct c; unfold handle in H;
    try (done_inv H; left; reflexivity); try (told_step H; left; reflexivity);
    try (unfold on_ns in H; destr_res H; done_inv H; left; reflexivity).
  all: try (unfold command_wait in H; destr_res H; done_inv H; left; reflexivity).
  all: try (unfold command_auth in H; destr_res H; done_inv H; left; reflexivity).
  all: try (unfold command_nsnew in H; destr_res H; done_inv H; left; reflexivity).
  all: try (unfold command_nsdel in H; destr_res H; done_inv H; left; reflexivity).
  all: try (unfold command_nsset in H; destr_res H; done_inv H; left; reflexivity).
  all: try (unfold command_select in H; destr_res H; done_inv H; left; reflexivity).
  all: try (unfold command_reload in H; destr_res H; done_inv H; left; reflexivity).
  all: try (unfold command_flush in H; destr_res H; done_inv H; left; reflexivity).
  all: try (destr_res H; done_inv H; auto).
Qed.

Lemma request_status g v fd argv w out st w' : request g v fd argv w = SDone out st w' -> st <> UNDEF.
Proof.
  unfold request. intros H. destruct (client_at fd w) as [cl|]; [|discriminate].
  assert (R : forall a, match dispatch g v fd cl a w with
        | Undef => SUndef
        | Done rep st w1 => match posthandler v fd a w1 with None => SUndef | Some (out, w2) => SDone ((fd, rep) :: out) st w2 end
        end = SDone out st w' -> st <> UNDEF).
  { intros a X. destruct (dispatch g v fd cl a w) as [rep st1 w1|] eqn:D; [|discriminate].
    destruct (posthandler v fd a w1) as [[o w2]|]; [|discriminate]. injection X as _ <- _.
    unfold dispatch in D. destruct (c_ns cl); [|injection D as _ <- _; discriminate].
    destruct (slot n w); [|discriminate]. destruct (lookup_handler (arg 0 a)) as [[h c]|]; [|injection D as _ <- _; discriminate].
    apply handle_status in D. destruct D as [-> | ->]; discriminate. }
  destruct (c_master cl); [|exact (R _ H)].
  destruct (32 <? _); [injection H as _ <- _; discriminate|]. destruct (_ <=? 1); [discriminate|]. exact (R _ H).
Qed.

Lemma returned_status v st : st <> UNDEF -> returned v st <> UNDEF.
Proof. unfold returned. destruct st; try (intros _; destruct (v_one v); discriminate); auto. Qed.

(* ---- the loop ---- *)

Lemma front_status rs w done todo p : rel rs w done todo p -> b_data p <> [] -> snd (fst (parse_front p)) <> UNDEF.
Proof.
  intros R Hne. unfold parse_front.
  destruct (q_state p) eqn:St.
  - destruct (empty_ok _ _ _ _ _ R St Hne) as (p1 & v1 & E & R1 & [(-> & S1 & L1)|([-> | ->] & _)]); rewrite E; try discriminate.
    rewrite S1. destruct (header_ok _ _ _ _ _ R1 S1) as (p2 & v2 & E2 & R2 & [(-> & S2 & L2)|([-> | ->] & _)]); rewrite E2; try discriminate.
    rewrite S2. destruct (payload_ok _ _ _ _ _ R2 S2) as (p' & v' & E' & [(-> & _)|(-> & _)]); rewrite E'; discriminate.
  - rewrite St. destruct (header_ok _ _ _ _ _ R St) as (p2 & v2 & E2 & R2 & [(-> & S2 & L2)|([-> | ->] & _)]); rewrite E2; try discriminate.
    rewrite S2. destruct (payload_ok _ _ _ _ _ R2 S2) as (p' & v' & E' & [(-> & _)|(-> & _)]); rewrite E'; discriminate.
  - rewrite St. rewrite St. destruct (payload_ok _ _ _ _ _ R St) as (p' & v' & E' & [(-> & _)|(-> & _)]); rewrite E'; discriminate.
Qed.

(* a complete request has its arguments *)
Lemma front_args rs w done todo p p1 v1 : rel rs w done todo p -> b_data p <> [] -> parse_front p = (p1, v1, false) ->
  q_fillin p1 = q_argc p1 -> exists argv, args (q_argv p1) = Some argv.
Proof.
  intros R Hne E Ef. pose proof (pass_ok (fun _ => SUCCESS) _ _ _ _ _ R Hne) as P. pose proof (front_trace p) as FT.
  rewrite pass_split, E in P. rewrite E in FT. cbn [fst] in FT. replace (q_fillin p1 =? q_argc p1)%Z with true in P by lia.
  destruct P as ((d & t & Q) & _). pose proof (rel_trace _ _ _ _ _ Q) as T. cbn [p_trace] in T. rewrite FT in T.
  pose proof (rel_trace _ _ _ _ _ R) as T0. rewrite T0 in T.
  destruct (last_split d) as (d1 & r & ->). { intros ->. destruct (map (map obj_of) done); discriminate. }
  rewrite map_app in T. cbn [map] in T. apply app_inj_tail in T. destruct T as [_ T]. rewrite T. exists r. apply args_of.
Qed.

(* the arguments of a complete request are the next ones of the stream *)
Lemma front_next rs w done todo p p1 v1 argv : rel rs w done todo p -> b_data p <> [] -> parse_front p = (p1, v1, false) ->
  q_fillin p1 = q_argc p1 -> args (q_argv p1) = Some argv -> exists todo', rs = done ++ argv :: todo'.
Proof.
  intros R Hne E Ef Ea. pose proof (pass_ok (fun _ => SUCCESS) _ _ _ _ _ R Hne) as P. pose proof (front_trace p) as FT.
  rewrite pass_split, E in P. rewrite E in FT. cbn [fst] in FT. replace (q_fillin p1 =? q_argc p1)%Z with true in P by lia.
  destruct P as ((d & t & Q) & _). pose proof (rel_trace _ _ _ _ _ Q) as T. cbn [p_trace] in T. rewrite FT in T.
  pose proof (rel_trace _ _ _ _ _ R) as T0. rewrite T0 in T.
  destruct (last_split d) as (d1 & r & ->). { intros ->. destruct (map (map obj_of) done); discriminate. }
  rewrite map_app in T. cbn [map] in T. apply app_inj_tail in T. destruct T as [T1 T]. rewrite T, args_of in Ea. injection Ea as <-.
  assert (D : done = d1).
  { clear - T1. revert d1 T1. induction done as [|a l IH]; intros [|b l'] T1; try discriminate; [reflexivity|]. cbn [map] in T1.
    injection T1 as T1 T2. f_equal; [|auto]. apply (f_equal args) in T1. rewrite !args_of in T1. congruence. }
  subst d1. exists t. rewrite (rel_all _ _ _ _ _ Q), <- app_assoc. reflexivity.
Qed.

Section Run.
Variable g : server.
Variable w0 : world.
Variable arr : N -> bytes.
Variable es0 : list sevent.

(* a request of fd, the next one of its stream, after others of fd, is undefined *)
Definition broken (fd : N) (x : N -> env * (N -> how)) : Prop := exists ext ms w k argv,
  Forall (of_read fd x) ext /\ hist g w0 (es0 ++ ext) ms w /\ Server.request g (fst (x k)) fd argv w = SUndef /\
  forall rs later, Forall req_ok rs -> arr fd ++ later = enc_reqs rs -> exists todo, rs = asked fd (es0 ++ ext) ++ argv :: todo.

Definition good (fd : N) (x : N -> env * (N -> how)) (ext : list sevent) (ms : list (list (N * bytes))) (w : world) (outs : N -> option client_out) (p : parser) : Prop :=
  Forall (of_read fd x) ext /\ hist g w0 (es0 ++ ext) ms w /\ all_qok outs /\ cover w outs /\ traced fd (es0 ++ ext) p.

Lemma loop_def fd x y sock fuel : wellformed arr fd -> forall k p v w outs ext ms,
  good fd x ext ms w outs p -> outs fd <> None -> mid arr fd sock p -> N.of_nat fuel > blen (b_data p) -> v <> UNDEF ->
  match net_loop g fd x y fuel k p v w outs with
  | None => broken fd x
  | Some (k', p', v', w', outs') => v' <> UNDEF /\ outs' fd <> None /\ (exists ext' ms', good fd x ext' ms' w' outs' p') /\ rest arr fd sock p'
  end.
Proof.
  intros Wf. induction fuel as [|fuel IH]; intros k p v w outs ext ms Gd Hfd M Hf Hv; [lia|]. cbn [net_loop].
  destruct (b_data p) as [|b0 d0] eqn:Ed.
  { split; [exact Hv|]. split; [exact Hfd|]. split; [eauto|]. intros rs later Ok Ea. destruct (M rs later Ok Ea) as (done & todo & R & Hr).
    exists done, todo. split; [exact R|]. split; [apply Hr; exact Ed|apply stuck_nil; exact Ed]. }
  rewrite <- Ed in *. assert (Hne : b_data p <> []) by (rewrite Ed; discriminate). clear b0 d0 Ed.
  assert (P0 : forall rs later, Forall req_ok rs -> arr fd ++ later = enc_reqs rs -> exists done todo,
     rel rs (sock ++ later) done todo p /\ forall st, pass_post rs (sock ++ later) p (parse_pass (fun _ => st) p)).
  { intros rs later Ok Ea. destruct (M rs later Ok Ea) as (done & todo & R & Hr).
    exists done, todo. split; [exact R|]. intros st. eapply pass_ok; eassumption. }
  destruct Wf as (rs & later & Ok & Ea0). destruct (P0 rs later Ok Ea0) as (done & todo & R & P).
  pose proof (front_status _ _ _ _ _ R Hne) as FS. pose proof (front_trace p) as FT.
  pose proof (fun p1 v1 => front_args _ _ _ _ _ p1 v1 R Hne) as FA.
  destruct (parse_front p) as [[p1 v1] stop] eqn:Ef. cbn [fst snd] in FS, FT.
  destruct Gd as (F & H & Q & C & T).
  destruct (send_errors_def fd y (skipn (length (p_errors p)) (p_errors p1)) (nlen (p_errors p)) outs Q Hfd) as (outs1 & -> & Q1 & D1).
  assert (Hfd1 : outs1 fd <> None) by (intros X; apply Hfd, D1; exact X).
  assert (C1 : cover w outs1) by (intros f; rewrite (C f); apply D1).
  assert (T1 : traced fd (es0 ++ ext) p1) by (unfold traced; rewrite FT; exact T).
  destruct stop.
  - split; [exact FS|]. split; [exact Hfd1|]. split; [exists ext, ms; exact (conj F (conj H (conj Q1 (conj C1 T1))))|].
    intros rs' later' Ok' Ea'. destruct (P0 rs' later' Ok' Ea') as (d0 & t0 & R0 & P1). specialize (P1 SUCCESS).
    rewrite pass_split, Ef in P1. destruct P1 as ((d & t & R1) & P1 & P2). exists d, t. auto.
  - destruct (q_fillin p1 =? q_argc p1)%Z eqn:Ec.
    + destruct (FA p1 v1 eq_refl ltac:(lia)) as (argv & Ea). unfold finish. rewrite Ea.
      destruct (Server.request g (fst (x k)) fd argv w) as [out st w2|] eqn:Er.
      * destruct (send_all_def (snd (x k)) out 0 outs1 Q1) as (outs2 & -> & Q2 & D2).
        { intros f m I X. apply (request_to _ _ _ _ _ _ _ _ _ _ Er I). apply C1. exact X. }
        specialize (P st). rewrite pass_split, Ef, Ec in P. destruct P as ((d & t & R1) & P1 & P2). cbn [b_data b_remain] in *.
        eapply (IH (k + 1) _ (returned (fst (x k)) st) w2 outs2 (ext ++ [SRequest fd (fst (x k)) argv]) (ms ++ [out]));
          [|intros X; apply Hfd1, D2; exact X| |cbn [b_data]; lia|apply returned_status; eapply request_status; exact Er].
        -- split; [apply Forall_app; split; [exact F|repeat constructor; eexists _, _; reflexivity]|].
           split; [rewrite app_assoc; eapply run_snoc; [exact H|exact Er]|]. split; [exact Q2|]. split.
           ++ eapply (cover_step g (SRequest fd (fst (x k)) argv) w out st w2 outs1 outs2); try discriminate; auto.
           ++ unfold traced. cbn [p_trace]. rewrite app_assoc, asked_snoc. cbn [asked_step]. rewrite N.eqb_refl.
              apply Forall2_app; [exact T1|constructor; [exact Ea|constructor]].
        -- intros rs' later' Ok' Ea'. destruct (P0 rs' later' Ok' Ea') as (d0 & t0 & R0 & P3). specialize (P3 st).
           rewrite pass_split, Ef, Ec in P3. destruct P3 as ((d3 & t3 & R3) & _ & P4). exists d3, t3. split; [exact R3|exact P4].
      * exists ext, ms, w, k, argv. split; [exact F|]. split; [exact H|]. split; [exact Er|].
        intros rs' later' Ok' Ea'. destruct (P0 rs' later' Ok' Ea') as (d0 & t0 & R0 & _).
        replace (asked fd (es0 ++ ext)) with d0 by (symmetry; eapply traced_done; [exact T|exact (rel_trace _ _ _ _ _ R0)]).
        eapply front_next; [exact R0|exact Hne|exact Ef|lia|exact Ea].
    + specialize (P SUCCESS). rewrite pass_split, Ef, Ec in P. destruct P as ((d & t & R1) & P1 & P2).
      eapply (IH k p1 v1 w outs1 ext ms); [exact (conj F (conj H (conj Q1 (conj C1 T1))))|exact Hfd1| |lia|exact FS].
      intros rs' later' Ok' Ea'. destruct (P0 rs' later' Ok' Ea') as (d0 & t0 & R0 & P3). specialize (P3 SUCCESS).
      rewrite pass_split, Ef, Ec in P3. destruct P3 as ((d3 & t3 & R3) & _ & P4). exists d3, t3. split; [exact R3|exact P4].
Qed.

Lemma chunk_def fd x y e cuts : wellformed arr fd -> forall k sock p v w outs ext ms,
  good fd x ext ms w outs p -> outs fd <> None -> rest arr fd sock p -> v <> UNDEF ->
  match net_chunk g fd x y cuts e k sock p v w outs with
  | None => broken fd x
  | Some (p', sock', v', w', outs') => v' <> UNDEF /\ outs' fd <> None /\ exists ext' ms', good fd x ext' ms' w' outs' p'
  end.
Proof.
  intros Wf. induction cuts as [|n cuts IH]; intros k sock p v w outs ext ms Gd Hfd R Hv; cbn [net_chunk];
    (destruct (N.eqb_spec (b_remain p) 0) as [Hz|]; [destruct Wf as (rs & later & Ok & Ea); destruct (R rs later Ok Ea) as (d & t & _ & X & _); congruence|]).
  - split; [destruct e; [exact Hv|discriminate|discriminate]|]. split; [exact Hfd|eauto].
  - destruct sock as [|s0 sock0] eqn:Esock.
    { split; [destruct e; [exact Hv|discriminate|discriminate]|]. split; [exact Hfd|eauto]. }
    rewrite <- Esock in *. assert (Hne : sock <> []) by (rewrite Esock; discriminate). clear Esock.
    destruct (recv n sock p) as [p1 sock1] eqn:Er.
    assert (M : mid arr fd sock1 p1).
    { intros rs later Ok Ea. destruct (R rs later Ok Ea) as (done & todo & R1 & Rr & Rs).
      destruct (recv_ok _ _ _ _ _ _ _ _ _ R1 Rr Hne Er) as (R2 & R3 & R4). exists done, todo. split; [exact R2|]. intros; contradiction. }
    assert (Gd1 : good fd x ext ms w outs p1).
    { destruct Gd as (F & H & Q & C & T). split; [exact F|]. split; [exact H|]. split; [exact Q|]. split; [exact C|]. unfold traced. rewrite (recv_trace _ _ _ _ _ Er). exact T. }
    pose proof (loop_def fd x y sock1 (loop_fuel p1) Wf k p1 v w outs ext ms Gd1 Hfd M (fuel_enough p1) Hv) as L.
    destruct (net_loop g fd x y (loop_fuel p1) k p1 v w outs) as [[[[[k2 p2] v2] w2] outs2]|]; [|exact L].
    destruct L as (L1 & L2 & (ext' & ms' & L3) & L4).
    destruct v2; try congruence; try (split; [discriminate|]; split; [exact L2|eauto]);
      (eapply IH; [exact L3|exact L2|exact L4|exact L1]).
Qed.
End Run.

(* every connection carries well-formed requests *)
Definition all_wf (evs : list nevent) : Prop := forall f, wellformed (fun f => arrived_on f evs) f.

Lemma step_def g w0 (G : Prop) evs es ms n ev : acc G g w0 evs es ms n -> Forall added es -> all_qok (e_out n) -> cover (e_world n) (e_out n) ->
  all_wf evs -> e_up n = true ->
  match net_step g ev n with
  | None => match ev with
            | NAccept fd => connected fd n
            | NRead fd _ _ x _ => broken g w0 (fun f => arrived_on f evs) es fd x
            | _ => False
            end
  | Some n' => all_qok (e_out n') /\ cover (e_world n') (e_out n')
  end.
Proof.
  intros [H O D I] F Q C W Up. unfold net_step. rewrite Up. cbn [negb].
  assert (Close : forall fd n1, all_qok (e_out n1) -> cover (e_world n1) (e_out n1) -> match net_close fd n1 with
     | None => False | Some n' => all_qok (e_out n') /\ cover (e_world n') (e_out n') end).
  { intros fd n1 Q1 C1. unfold net_close, close. cbn [e_out e_world]. split.
    - intros f o E. unfold upd in E. destruct (f =? fd); [discriminate|eapply Q1; exact E].
    - intros f. unfold upd. rewrite client_oget. cbn [w_clients]. rewrite oget_nset. rewrite (N.eqb_sym f fd).
      destruct (N.eqb_spec fd f) as [->|]; cbn [andb]; [|rewrite <- client_oget; apply C1].
      destruct (f <? nlen (w_clients (e_world n1))) eqn:Lt; [tauto|]. split; [auto|]. intros _.
      unfold oget. replace (nget f (w_clients (e_world n1))) with (@None (option client)) by (symmetry; apply nget_None; lia); reflexivity. }
  destruct ev as [fd|fd b|fd cuts e x y|fd os|fd|now old hws].
  - destruct (connect g fd (e_world n)) as [out st w|] eqn:Ec.
    + cbn [e_out e_world]. split.
      * intros f o E. unfold upd in E. destruct (f =? fd); [inversion E; subst; apply qok_new|eapply Q; exact E].
      * unfold connect in Ec. destruct (client_at fd (e_world n)) eqn:Ecl; [discriminate|]. injection Ec as _ _ <-.
        intros f. unfold upd. rewrite client_oget. cbn [w_clients]. rewrite oget_nset.
        assert (Hl : fd < nlen (grow (fd + 1) (w_clients (e_world n)))).
        { unfold grow. rewrite nlen_app. assert (L : nlen (repeat (@None client) (N.to_nat (fd + 1 - nlen (w_clients (e_world n))))) = fd + 1 - nlen (w_clients (e_world n)))
            by (rewrite nlen_length, repeat_length; lia). rewrite L. lia. }
        rewrite (N.eqb_sym f fd). destruct (N.eqb_spec fd f) as [<-|Hne]; cbn [andb].
        -- replace (fd <? _) with true by lia. split; discriminate.
        -- rewrite <- (C f). rewrite client_oget. unfold grow. split; intros X.
           ++ destruct (oget f (w_clients (e_world n))) as [c|] eqn:E; [|reflexivity].
              exfalso. pose proof (grow_at f (fd + 1) _ c E) as Y. unfold grow in Y. congruence.
           ++ destruct (oget f (w_clients (e_world n) ++ _)) as [c|] eqn:E; [|reflexivity]. exfalso.
              unfold oget in E, X. destruct (N.lt_ge_cases f (nlen (w_clients (e_world n)))) as [Lt|Ge].
              ** rewrite nget_app1 in E by exact Lt. rewrite X in E. discriminate.
              ** rewrite nget_app2 in E by exact Ge. rewrite nget_nth in E.
                 destruct (nth_error (repeat None _) _) as [o'|] eqn:En; [|discriminate].
                 apply nth_error_In, repeat_spec in En. subst o'. discriminate.
    + unfold connect in Ec. destruct (client_at fd (e_world n)) eqn:Ecl; [|discriminate]. intros X. apply D, C in X. congruence.
  - destruct (e_in n fd) as [[p sock]|]; auto.
  - destruct (e_in n fd) as [[p sock]|] eqn:Ein; [|auto].
    destruct (I fd p sock Ein) as [R T].
    assert (Ho : e_out n fd <> None) by (intros X; apply D in X; congruence).
    assert (Gd : good g w0 es fd x [] ms (e_world n) (e_out n) p).
    { split; [constructor|]. rewrite app_nil_r. split; [exact H|]. split; [exact Q|]. split; [exact C|exact T]. }
    pose proof (chunk_def g w0 _ es fd x y e cuts (W fd) 0 sock p SUCCESS (e_world n) (e_out n) [] ms Gd Ho R ltac:(discriminate)) as L.
    destruct (net_chunk g fd x y cuts e 0 sock p SUCCESS (e_world n) (e_out n)) as [[[[[p' sock'] v] w'] outs']|]; [|exact L].
    destruct L as (L1 & L2 & (ext' & ms' & _ & _ & L3 & L4 & _)). cbv zeta.
    destruct v; try congruence;
      first [ split; assumption
            | match goal with |- context [net_close fd ?m] => pose proof (Close fd m L3 L4) as Z; destruct (net_close fd m); [exact Z|contradiction] end ].
  - destruct (e_out n fd) as [o|] eqn:Eo; [|auto]. cbn [e_out e_world]. split.
    + intros f o' E. unfold upd in E. destruct (f =? fd); [inversion E; subst; apply delayed_def; eapply Q; exact Eo|eapply Q; exact E].
    + intros f. unfold upd. destruct (N.eqb_spec f fd) as [->|]; [rewrite (C fd), Eo; split; discriminate|apply C].
  - destruct (e_in n fd); [|auto]. pose proof (Close fd n Q C) as Z. destruct (net_close fd n); [exact Z|contradiction].
  - destruct (idle g now old (e_world n)) as [out st w|] eqn:Ei.
    + destruct (send_all_def hws out 0 (e_out n) Q) as (outs' & -> & Q2 & D2).
      { intros f m J X. apply (idle_to _ _ _ _ _ _ _ _ _ Ei J). apply C. exact X. }
      cbn [e_out e_world]. split; [exact Q2|]. eapply (cover_step g (SIdle now old)); try discriminate; eauto.
    + unfold idle in Ei. destruct (watch_timeout now 0 (w_clients (e_world n))). discriminate.
Qed.

Lemma run_def g w0 more : forall evs es ms n, acc (Forall healthy_event evs) g w0 evs es ms n -> Forall added es -> all_qok (e_out n) -> cover (e_world n) (e_out n) ->
  net_run g evs (net_new w0) = Some n -> polite (evs ++ more) -> net_run g more n = None ->
  ended_before g w0 (evs ++ more) \/ socket_reused g w0 (evs ++ more) \/ request_undefined g w0 (evs ++ more).
Proof.
  induction more as [|ev more IH]; intros evs es ms n A F Q C Er P E; cbn [net_run] in E; [discriminate|].
  destruct (e_up n) eqn:Up; [|left; exists evs, ev, more, n; auto].
  assert (W : all_wf evs).
  { intros f. destruct (P evs (ev :: more) f eq_refl) as (rs & later & Ok & Ea). exists rs, later. auto. }
  pose proof (step_def g w0 _ evs es ms n ev A F Q C W Up) as S.
  destruct (net_step g ev n) as [n'|] eqn:Es.
  - destruct S as [Q' C'].
    apply (acc_weaken _ (Forall healthy_event (evs ++ [ev]))) in A; [|intros q; apply Forall_app in q; tauto].
    destruct (step_acc _ _ _ _ _ _ _ _ _ A (fun q => Forall_inv (proj2 (proj1 (Forall_app _ _ _) q))) Es) as (ext & ms' & F' & A').
    replace (evs ++ ev :: more) with ((evs ++ [ev]) ++ more) in * by (rewrite <- app_assoc; reflexivity).
    eapply (IH (evs ++ [ev]) (es ++ ext) ms' n'); auto.
    + apply Forall_app; auto.
    + rewrite <- Es. clear - Er. revert Er. generalize (net_new w0) as m. induction evs as [|a evs IH]; intros m Er; cbn [net_run app] in *.
      * inversion Er; subst. destruct (net_step g ev n); reflexivity.
      * destruct (net_step g a m) as [m'|]; [|discriminate]. apply IH. exact Er.
  - right. destruct ev as [fd|fd b|fd cuts e x y|fd os|fd|now old hws]; try contradiction.
    + left. exists evs, fd, more, n. auto.
    + right. destruct S as (ext & ms' & w & k & argv & S1 & S2 & S3 & S4).
      destruct (run_split g es ext w0 ms' w S2) as (o1 & wa & o2 & R1 & R2 & R3).
      pose proof (acc_hist _ _ _ _ _ _ _ A) as H. unfold hist in H. rewrite H in R1. injection R1 as <- <-.
      exists evs, fd, cuts, e, x, y, more, n, es, ms, ext, o2, w, k, argv.
      split; [reflexivity|]. split; [exact Er|]. split; [exact H|]. split; [intros f X; apply acc_accounts with (1 := A); exact X|].
      split; [exact S1|]. split; [exact R2|]. split; [exact S3|exact S4].
Qed.

Lemma loop_defined g w0 evs : w_clients w0 = [] -> polite evs -> net_run g evs (net_new w0) = None ->
  ended_before g w0 evs \/ socket_reused g w0 evs \/ request_undefined g w0 evs.
Proof.
  intros Hc P E. apply (run_def g w0 evs [] [] [] (net_new w0)); auto.
  - apply new_acc.
  - intros f o X. discriminate.
  - intros f. cbn. rewrite client_oget, Hc. cbn. tauto.
Qed.

Lemma loop_directory g w0 evs n : server_ok g -> first_boot g = Some w0 -> net_run g evs (net_new w0) = Some n ->
  exists es ms, run_sevents g es w0 = Some (ms, e_world n) /\
    (forall fd, connected fd n -> accounts es ms evs n fd) /\
    (all_covered g es w0 -> exists D, dir_run g es w0 ms (only_default g) D).
Proof.
  intros G B E. destruct (one_order g w0 evs [] n n E eq_refl) as (es & _ & ms & _ & R & _ & _ & A & _).
  exists es, ms. split; [exact R|]. split; [exact A|]. intros C.
  destruct (directory_theorem g es ms w0 (e_world n) G B C R) as (D & Dr & _). exists D. exact Dr.
Qed.

(* ---- tests, for the examples ---- *)

Definition heads (evs : list nevent) : list N := flat_map (fun e => match e with NArrive f _ => [f] | _ => [] end) evs.

Fixpoint prefixb (a l : bytes) : bool :=
  match a, l with [], _ => true | x :: a', y :: l' => beqb x y && prefixb a' l' | _, [] => false end.

Lemma prefixb_ok a : forall l, prefixb a l = true -> exists r, a ++ r = l.
Proof.
  induction a as [|x a IH]; intros l H; [exists l; reflexivity|]. destruct l as [|y l]; [discriminate|]. cbn [prefixb] in H.
  apply andb_true_iff in H. destruct H as [H1 H2]. destruct (IH l H2) as (r & <-). exists r. cbn [app].
  destruct (beqb_spec x y); [subst; reflexivity|discriminate].
Qed.

Lemma arrived_none fd evs : ~ In fd (heads evs) -> arrived_on fd evs = [].
Proof.
  unfold arrived_on. generalize (eq_refl (@nil byte)). generalize (@nil byte) at 1 3 as a.
  induction evs as [|e evs IH]; intros a Ea H; [exact Ea|]. cbn [fold_left heads flat_map] in *. apply IH.
  - destruct e; cbn [arrived_step]; try exact Ea; [destruct (fd0 =? fd); [reflexivity|exact Ea]|].
    destruct (N.eqb_spec fd0 fd); [|exact Ea]. subst. exfalso. apply H. left. reflexivity.
  - intros X. apply H. apply in_or_app. right. exact X.
Qed.

Definition polite_b (rs : N -> list RespSpec.request) (evs : list nevent) : bool :=
  forallb (fun i => forallb (fun fd => prefixb (arrived_on fd (firstn i evs)) (enc_reqs (rs fd))) (heads evs)) (seq 0 (S (length evs))).

Lemma polite_b_ok rs evs : (forall fd, Forall req_ok (rs fd)) -> polite_b rs evs = true -> polite evs.
Proof.
  intros Ok H before after fd E. unfold polite_b in H.
  destruct (in_dec N.eq_dec fd (heads evs)) as [I|I].
  - rewrite forallb_forall in H. specialize (H (length before)).
    assert (L : In (length before) (seq 0 (S (length evs)))) by (apply in_seq; rewrite E, app_length; lia).
    specialize (H L). rewrite forallb_forall in H. specialize (H fd I).
    apply prefixb_ok in H. destruct H as (later & H). exists (rs fd), later. split; [apply Ok|]. rewrite <- H. f_equal. f_equal. rewrite E.
    rewrite firstn_app, firstn_all. replace (length before - length before)%nat with 0%nat by lia. cbn [firstn]. rewrite app_nil_r. reflexivity.
  - exists [], []. split; [constructor|]. rewrite arrived_none; [reflexivity|]. intros X. apply I. rewrite E. unfold heads. rewrite flat_map_app. apply in_or_app. left. exact X.
Qed.
