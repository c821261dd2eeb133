(* Proofs about the event loop: one sequence of requests accounts for all connections. *)
From Coq Require Import Strings.String Strings.Byte List NArith ZArith Bool Lia ZifyBool ZifyN ZifyNat.
From Verif Require Import Bytes BytesFacts Layout Text Commands Dispatch Namespace Resp RespSpec RespFacts ReplyQueue ReplyFacts
  Server AuthFacts Net SpecNet.
Import ListNotations.
Open Scope N_scope.
Local Notation length := List.length.

Lemma upd_same {A} fd (o : option A) f : upd fd o f fd = o.
Proof. unfold upd. rewrite N.eqb_refl. reflexivity. Qed.
Lemma upd_other {A} k fd (o : option A) f : k <> fd -> upd fd o f k = f k.
Proof. unfold upd. intros H. destruct (N.eqb_spec k fd); congruence. Qed.

(* ---- histories ---- *)

Lemma run_snoc g es : forall w0 ms w e out st w', run_sevents g es w0 = Some (ms, w) -> run_sevent g e w = SDone out st w' ->
  run_sevents g (es ++ [e]) w0 = Some (ms ++ [out], w').
Proof.
  induction es as [|a es IH]; intros w0 ms w e out st w' H E; cbn [run_sevents app] in *.
  - inversion H; subst. rewrite E. reflexivity.
  - destruct (run_sevent g a w0) as [oa sa wa|]; [|discriminate].
    destruct (run_sevents g es wa) as [[o w2]|] eqn:R; [|discriminate]. inversion H; subst.
    rewrite (IH _ _ _ _ _ _ _ R E). reflexivity.
Qed.

Lemma run_split g es1 : forall es2 w0 ms w, run_sevents g (es1 ++ es2) w0 = Some (ms, w) ->
  exists m1 w1 m2, run_sevents g es1 w0 = Some (m1, w1) /\ run_sevents g es2 w1 = Some (m2, w) /\ ms = m1 ++ m2.
Proof.
  induction es1 as [|a es1 IH]; intros es2 w0 ms w H; cbn [run_sevents app] in *.
  - exists [], w0, ms. auto.
  - destruct (run_sevent g a w0) as [oa sa wa|]; [|discriminate].
    destruct (run_sevents g (es1 ++ es2) wa) as [[o w2]|] eqn:R; [|discriminate]. inversion H; subst.
    destruct (IH _ _ _ _ R) as (m1 & w1 & m2 & E1 & E2 & ->). rewrite E1. exists (oa :: m1), w1, m2. auto.
Qed.

Lemma run_lengths g es : forall w0 ms w, run_sevents g es w0 = Some (ms, w) -> length ms = length es.
Proof.
  induction es as [|a es IH]; intros w0 ms w H; cbn [run_sevents] in H.
  - inversion H; reflexivity.
  - destruct (run_sevent g a w0) as [oa sa wa|]; [|discriminate].
    destruct (run_sevents g es wa) as [[o w2]|] eqn:R; [|discriminate]. inversion H; subst.
    cbn [List.length]. f_equal. eapply IH; eassumption.
Qed.

Lemma asked_snoc fd es e : asked fd (es ++ [e]) = asked_step fd (asked fd es) e.
Proof. unfold asked. rewrite fold_left_app. reflexivity. Qed.

Lemma combine_snoc {A B} (l : list A) : forall (m : list B) a b, length l = length m ->
  combine (l ++ [a]) (m ++ [b]) = combine l m ++ [(a, b)].
Proof.
  induction l as [|x l IH]; intros [|y m] a b H; cbn [List.length app combine] in *; try discriminate; auto.
  rewrite IH by congruence. reflexivity.
Qed.

Lemma told_snoc fd es ms e out : length ms = length es ->
  told_to fd (es ++ [e]) (ms ++ [out]) = told_step fd (told_to fd es ms) (e, out).
Proof. intros H. unfold told_to. rewrite combine_snoc by congruence. rewrite fold_left_app. reflexivity. Qed.

Lemma arrived_snoc fd evs e : arrived_on fd (evs ++ [e]) = arrived_step fd (arrived_on fd evs) e.
Proof. unfold arrived_on. rewrite fold_left_app. reflexivity. Qed.

(* ---- replies ---- *)

Section Good.
Variable G : Prop.    (* the sockets do not fail *)

(* the state of a reply queue which was given t *)
Definition oinv (t : bytes) (o : client_out) : Prop :=
  exists oes, out_run oes out_new = Some o /\ replies oes = t /\ (G -> healthy (sends oes)).

Lemma out_snoc oes : forall o e o', out_run oes o = Some o' -> out_run (oes ++ [e]) o = out_step e o'.
Proof.
  induction oes as [|a oes IH]; intros o e o' H; cbn [out_run app] in *.
  - inversion H; subst. destruct (out_step e o'); reflexivity.
  - destruct (out_step a o); [|discriminate]. apply IH. exact H.
Qed.

Lemma oinv_step t o e o' : oinv t o -> out_step e o = Some o' -> (G -> healthy (sends_of e)) -> oinv (t ++ reply_of e) o'.
Proof.
  intros (oes & R & T & H) E He. exists (oes ++ [e]). rewrite (out_snoc _ _ _ _ R). split; [exact E|].
  unfold replies, sends in *. rewrite !map_app, !concat_app. cbn [map List.concat]. rewrite !app_nil_r.
  split; [rewrite T; reflexivity|]. intros g. apply Forall_app. split; [apply H; exact g|apply He; exact g].
Qed.

Lemma oinv_new : oinv [] out_new.
Proof. exists []. split; [reflexivity|]. split; [reflexivity|]. intros _. constructor. Qed.

Lemma hand_over_ok hw : forall payload o o' t, hand_over hw payload o = Some o' -> (G -> healthy_how hw) -> oinv t o -> oinv (t ++ payload) o'.
Proof.
  induction hw as [|[[hp n] os] hw IH]; intros payload o o' t E Hh I; cbn [hand_over] in E.
  - destruct payload as [|b payload]; [inversion E; subst; rewrite app_nil_r; exact I|].
    apply (oinv_step t o (EvStack (b :: payload) []) o' I E). intros _. constructor.
  - destruct payload as [|b payload]; [inversion E; subst; rewrite app_nil_r; exact I|].
    remember (b :: payload) as pl eqn:Epl. clear Epl.
    destruct (if hp : bool then reply_heap os (nfirst n pl) o else reply_stack os (nfirst n pl) o) as [o1|] eqn:E1; [|discriminate].
    assert (H1 : oinv (t ++ nfirst n pl) o1).
    { destruct hp.
      - apply (oinv_step t o (EvHeap (nfirst n pl) os) o1 I E1). intros g. exact (Forall_inv (Hh g)).
      - apply (oinv_step t o (EvStack (nfirst n pl) os) o1 I E1). intros g. exact (Forall_inv (Hh g)). }
    rewrite <- (nfirst_nskip n pl), app_assoc. eapply IH; [exact E| |exact H1].
    intros g. exact (Forall_inv_tail (Hh g)).
Qed.

(* queues are neither made nor removed, and grow by what is sent *)
Definition grown (say : N -> bytes) (outs outs' : N -> option client_out) : Prop :=
  forall f, match outs f, outs' f with
            | None, None => True
            | Some o, Some o' => forall t, oinv t o -> oinv (t ++ say f) o'
            | _, _ => False
            end.

Lemma grown_refl outs : grown (fun _ => []) outs outs.
Proof. intros f. destruct (outs f); auto. intros t H. rewrite app_nil_r. exact H. Qed.

Lemma grown_trans a b o1 o2 o3 : grown a o1 o2 -> grown b o2 o3 -> grown (fun f => a f ++ b f) o1 o3.
Proof.
  intros H1 H2 f. specialize (H1 f). specialize (H2 f). destruct (o1 f), (o2 f), (o3 f); auto; try contradiction.
  intros t H. rewrite app_assoc. auto.
Qed.

Lemma grown_ext a b o1 o2 : (forall f, a f = b f) -> grown a o1 o2 -> grown b o1 o2.
Proof. intros E H f. specialize (H f). destruct (o1 f), (o2 f); auto. intros t I. rewrite <- E. auto. Qed.

Lemma send_to_grown hw fd m outs outs' : send_to hw fd m outs = Some outs' -> (G -> healthy_how hw) ->
  grown (fun f => if f =? fd then m else []) outs outs'.
Proof.
  unfold send_to. intros E H f. destruct (outs fd) as [o|] eqn:Eo; [|discriminate].
  destruct (hand_over hw m o) as [o'|] eqn:Eh; [|discriminate]. inversion E; subst. unfold upd.
  destruct (N.eqb_spec f fd) as [->|].
  - rewrite Eo. intros t I. eapply hand_over_ok; eassumption.
  - destruct (outs f); auto. intros t I. rewrite app_nil_r. exact I.
Qed.

Lemma for_fd_cons f fd m l : for_fd f ((fd, m) :: l) = (if f =? fd then m else []) ++ for_fd f l.
Proof. unfold for_fd. cbn [filter fst]. rewrite (N.eqb_sym fd f). destruct (f =? fd); reflexivity. Qed.

Lemma send_all_grown hws l : forall i outs outs', send_all hws i l outs = Some outs' -> (G -> forall i, healthy_how (hws i)) ->
  grown (fun f => for_fd f l) outs outs'.
Proof.
  induction l as [|[fd m] l IH]; intros i outs outs' E H; cbn [send_all] in E.
  - inversion E; subst. apply grown_refl.
  - destruct (send_to (hws i) fd m outs) as [o1|] eqn:E1; [|discriminate].
    eapply grown_ext; [|eapply grown_trans; [eapply send_to_grown; [exact E1|auto]|eapply IH; [exact E|exact H]]].
    intros f. rewrite for_fd_cons. reflexivity.
Qed.

Lemma send_errors_grown fd y l : forall i outs outs', send_errors fd y i l outs = Some outs' -> (G -> forall i, healthy_how (y i)) ->
  exists m, grown (fun f => if f =? fd then m else []) outs outs' /\ (l = [] -> m = []).
Proof.
  induction l as [|e l IH]; intros i outs outs' E H; cbn [send_errors] in E.
  - inversion E; subst. exists []. split; [|auto]. eapply grown_ext; [|apply grown_refl]. intros f. destruct (f =? fd); reflexivity.
  - destruct (send_to (y i) fd e outs) as [o1|] eqn:E1; [|discriminate].
    destruct (IH _ _ _ E H) as (m & Gm & _). exists (e ++ m). split; [|discriminate].
    eapply grown_ext; [|eapply grown_trans; [eapply send_to_grown; [exact E1|auto]|exact Gm]].
    intros f. cbn beta. destruct (f =? fd); reflexivity.
Qed.

(* ---- reading ---- *)

Lemma pass_split h p : parse_pass h p =
  let '(p1, v1, stop) := parse_front p in
  if stop then (p1, v1, true)
  else if (q_fillin p1 =? q_argc p1)%Z then
    (mkParser (b_off p1) (b_data p1) (b_remain p1) RESP_EMPTY (q_fillin p1) 0 [] (p_trace p1 ++ [q_argv p1]) (p_errors p1),
     h (p_trace p1 ++ [q_argv p1]), false)
  else (p1, v1, false).
Proof.
  unfold parse_pass, parse_front.
  destruct (match q_state p with RESP_EMPTY => _ | _ => _ end) as [[p1 v1] [|]]; [reflexivity|].
  destruct (match q_state p1 with RESP_FILLIN_HEADER => _ | _ => _ end) as [[p2 v2] [|]]; [reflexivity|].
  destruct (match q_state p2 with RESP_FILLIN_PAYLOAD => _ | _ => _ end) as [[p3 v3] [|]]; reflexivity.
Qed.

Lemma args_of r : args (map obj_of r) = Some r.
Proof.
  induction r as [|a r IH]; cbn [map args]; [reflexivity|]. rewrite IH. unfold obj_bytes, obj_of. cbn [ob_length ob_data].
  replace (Z.of_N (blen a) <? 0)%Z with false by lia. rewrite N2Z.id, (nfirst_app_exact' a CRLF) by reflexivity. reflexivity.
Qed.

Variable g : server.
Variable w0 : world.
Variable arr : N -> bytes.    (* what arrived at each socket *)

Definition wellformed (f : N) : Prop := exists rs later, Forall req_ok rs /\ arr f ++ later = enc_reqs rs.

Definition hist (es : list sevent) (ms : list (list (N * bytes))) (w : world) : Prop := run_sevents g es w0 = Some (ms, w).

Definition outs_ok (es : list sevent) (ms : list (list (N * bytes))) (outs : N -> option client_out) : Prop :=
  forall f o, wellformed f -> outs f = Some o -> oinv (told_to f es ms) o.

Definition mid (fd : N) (sock : bytes) (p : parser) : Prop :=
  forall rs later, Forall req_ok rs -> arr fd ++ later = enc_reqs rs ->
  exists done todo, rel rs (sock ++ later) done todo p /\ (b_data p = [] -> b_remain p <> 0).

Definition rest (fd : N) (sock : bytes) (p : parser) : Prop :=
  forall rs later, Forall req_ok rs -> arr fd ++ later = enc_reqs rs ->
  exists done todo, rel rs (sock ++ later) done todo p /\ b_remain p <> 0 /\ stuck p.
Definition traced (fd : N) (es : list sevent) (p : parser) : Prop := Forall2 (fun t a => args t = Some a) (p_trace p) (asked fd es).

(* the requests of fd only *)
Definition from (fd : N) (e : sevent) : Prop := exists v a, e = SRequest fd v a.

Lemma asked_others f fd es ext : Forall (from fd) ext -> f <> fd -> asked f (es ++ ext) = asked f es.
Proof.
  intros H Hf. unfold asked. rewrite fold_left_app. generalize (fold_left (asked_step f) es []) as a.
  induction ext as [|e ext IH]; intros a; [reflexivity|]. destruct (Forall_inv H) as (v & a0 & ->).
  cbn [fold_left asked_step]. replace (fd =? f) with false by lia. apply IH. exact (Forall_inv_tail H).
Qed.

Definition same_dom {A} (a b : N -> option A) : Prop := forall f, a f = None <-> b f = None.

Lemma grown_dom say a b : grown say a b -> same_dom a b.
Proof. intros H f. specialize (H f). destruct (a f), (b f); split; intros; try discriminate; auto; contradiction. Qed.

Lemma dom_trans {A} (a b c : N -> option A) : same_dom a b -> same_dom b c -> same_dom a c.
Proof. intros H1 H2 f. rewrite (H1 f). apply H2. Qed.
Lemma dom_refl {A} (a : N -> option A) : same_dom a a.
Proof. intros f. reflexivity. Qed.

Lemma outs_grown es ms outs outs' : outs_ok es ms outs -> grown (fun _ => []) outs outs' -> outs_ok es ms outs'.
Proof.
  intros O Gr f o' W E. specialize (Gr f). destruct (outs f) as [o|] eqn:Eo; rewrite E in Gr; [|contradiction].
  specialize (Gr _ (O f o W Eo)). rewrite app_nil_r in Gr. exact Gr.
Qed.

(* an event which is not a connection *)
Lemma outs_event es ms w outs outs' e out st w' : hist es ms w -> outs_ok es ms outs -> run_sevent g e w = SDone out st w' ->
  (forall f, e <> SConnect f) -> grown (fun f => for_fd f out) outs outs' ->
  hist (es ++ [e]) (ms ++ [out]) w' /\ outs_ok (es ++ [e]) (ms ++ [out]) outs'.
Proof.
  intros H O E Hc Gr. split; [eapply run_snoc; eassumption|]. intros f o' W Eo.
  specialize (Gr f). destruct (outs f) as [o|] eqn:E0; rewrite Eo in Gr; [|contradiction].
  rewrite told_snoc by (eapply run_lengths; exact H).
  replace (told_step f (told_to f es ms) (e, out)) with (told_to f es ms ++ for_fd f out).
  - apply Gr. apply O; assumption.
  - unfold told_step. cbn [fst snd]. destruct e; try reflexivity. exfalso. eapply Hc. reflexivity.
Qed.

Lemma front_trace p : p_trace (fst (fst (parse_front p))) = p_trace p.
Proof.
  unfold parse_front.
  assert (H1 : forall p, p_trace (fst (handle_empty p)) = p_trace p).
  { clear p. intros p. unfold handle_empty. destruct (find_nl (b_data p)); [|destruct (b_remain p =? 0); [apply shift_facts|reflexivity]].
    destruct (b_data p); [destruct (b_remain p =? 0); [apply shift_facts|reflexivity]|].
    destruct (negb _); [reflexivity|]. destruct (atoi_in _); [|reflexivity].
    destruct (_ =? _)%Z; [reflexivity|]. destruct (_ <? _)%Z; [reflexivity|]. destruct (_ <? _)%Z; reflexivity. }
  assert (H2 : forall p, p_trace (fst (handle_header p)) = p_trace p).
  { clear p. intros p. unfold handle_header. destruct (find_nl (b_data p)); [|destruct (b_remain p =? 0); [apply shift_facts|reflexivity]].
    destruct (b_data p); [destruct (b_remain p =? 0); [apply shift_facts|reflexivity]|].
    destruct (negb _); [reflexivity|]. destruct (atoi_in _); [|reflexivity].
    destruct (_ <? _)%Z; [reflexivity|]. destruct (_ <? _)%Z; reflexivity. }
  assert (H3 : forall p, p_trace (fst (handle_payload p)) = p_trace p).
  { clear p. intros p. unfold handle_payload. destruct (_ =? 0); [destruct (b_remain p =? 0); [apply shift_facts|reflexivity]|].
    destruct (_ <=? _); [|reflexivity]. destruct (_ =? _); reflexivity. }
  destruct (match q_state p with RESP_EMPTY => _ | _ => _ end) as [[p1 v1] stop1] eqn:E1.
  assert (T1 : p_trace p1 = p_trace p).
  { destruct (q_state p); try (inversion E1; reflexivity). specialize (H1 p). destruct (handle_empty p) as [q s0].
    cbn [fst] in H1. destruct s0; inversion E1; subst; exact H1. }
  destruct stop1; [exact T1|].
  destruct (match q_state p1 with RESP_FILLIN_HEADER => _ | _ => _ end) as [[p2 v2] stop2] eqn:E2.
  assert (T2 : p_trace p2 = p_trace p1).
  { destruct (q_state p1); try (inversion E2; reflexivity). specialize (H2 p1). destruct (handle_header p1) as [q s0].
    cbn [fst] in H2. destruct s0; inversion E2; subst; exact H2. }
  destruct stop2; [cbn [fst]; congruence|].
  destruct (q_state p2); try (cbn [fst]; congruence). specialize (H3 p2). destruct (handle_payload p2) as [q s0].
  cbn [fst] in H3. destruct s0; cbn [fst]; congruence.
Qed.

Lemma loop_acc fd x y (Gx : G -> forall k i, healthy_how (snd (x k) i)) (Gy : G -> forall i, healthy_how (y i)) sock fuel :
  forall k p v w outs es ms k' p' v' w' outs',
  hist es ms w -> outs_ok es ms outs -> mid fd sock p -> traced fd es p ->
  net_loop g fd x y fuel k p v w outs = Some (k', p', v', w', outs') ->
  exists ext ms', Forall (from fd) ext /\ hist (es ++ ext) ms' w' /\ outs_ok (es ++ ext) ms' outs' /\ rest fd sock p'
    /\ traced fd (es ++ ext) p' /\ same_dom outs outs'.
Proof.
  induction fuel as [|fuel IH]; intros k p v w outs es ms k' p' v' w' outs' H O M T E; cbn [net_loop] in E.
  - destruct (b_data p) eqn:Ed; [|discriminate]. inversion E; subst. exists [], ms. rewrite app_nil_r.
    split; [constructor|]. split; [exact H|]. split; [exact O|]. split; [|split; [exact T|apply dom_refl]].
    intros rs later Ok Ea. destruct (M rs later Ok Ea) as (done & todo & R & Hr).
    exists done, todo. split; [exact R|]. split; [exact (Hr Ed)|apply stuck_nil; exact Ed].
  - destruct (b_data p) as [|b0 d0] eqn:Ed.
    { inversion E; subst. exists [], ms. rewrite app_nil_r.
      split; [constructor|]. split; [exact H|]. split; [exact O|]. split; [|split; [exact T|apply dom_refl]].
      intros rs later Ok Ea. destruct (M rs later Ok Ea) as (done & todo & R & Hr).
      exists done, todo. split; [exact R|]. split; [exact (Hr Ed)|apply stuck_nil; exact Ed]. }
    assert (Hne : b_data p <> []) by (rewrite Ed; discriminate). clear b0 d0 Ed.
    pose proof (front_trace p) as FT.
    destruct (parse_front p) as [[p1 v1] stop] eqn:Ef. cbn [fst] in FT.
    destruct (send_errors fd y (nlen (p_errors p)) (skipn (length (p_errors p)) (p_errors p1)) outs) as [outs1|] eqn:Es; [|discriminate].
    destruct (send_errors_grown _ _ _ _ _ _ Es Gy) as (m & Gm & Hm).
    (* what the pass does on a well-formed stream *)
    assert (P : forall rs later, Forall req_ok rs -> arr fd ++ later = enc_reqs rs -> exists done todo,
       rel rs (sock ++ later) done todo p /\ forall st,
       pass_post rs (sock ++ later) p (parse_pass (fun _ => st) p)).
    { intros rs later Ok Ea. destruct (M rs later Ok Ea) as (done & todo & R & Hr).
      exists done, todo. split; [exact R|]. intros st. eapply pass_ok; eassumption. }
    assert (Noerr : wellformed fd -> p_errors p = [] /\ p_errors p1 = []).
    { intros (rs & later & Ok & Ea). destruct (P rs later Ok Ea) as (done & todo & R & Q). specialize (Q SUCCESS).
      rewrite pass_split, Ef in Q. split; [exact (rel_errors _ _ _ _ _ R)|].
      destruct stop; [|destruct (q_fillin p1 =? q_argc p1)%Z]; destruct Q as ((d & t & Q) & _); exact (rel_errors _ _ _ _ _ Q). }
    assert (O1 : outs_ok es ms outs1).
    { intros f o W Eo. specialize (Gm f). cbn beta in Gm.
      destruct (outs f) as [o0|] eqn:E0; rewrite Eo in Gm; [|contradiction].
      specialize (Gm _ (O f o0 W E0)). destruct (N.eqb_spec f fd) as [->|].
      - destruct (Noerr W) as [N1 N2]. rewrite Hm in Gm by (rewrite N1, N2; reflexivity). rewrite app_nil_r in Gm. exact Gm.
      - rewrite app_nil_r in Gm. exact Gm. }
    pose proof (grown_dom _ _ _ Gm) as D1.
    destruct stop.
    + inversion E; subst. exists [], ms. rewrite app_nil_r. split; [constructor|]. split; [exact H|]. split; [exact O1|].
      split; [|split; [unfold traced; rewrite FT; exact T|exact D1]].
      intros rs later Ok Ea. destruct (P rs later Ok Ea) as (done & todo & R & Q). specialize (Q SUCCESS).
      rewrite pass_split, Ef in Q. destruct Q as ((d & t & Q) & Q1 & Q2).
      exists d, t. split; [exact Q|]. split; [exact Q1|exact Q2].
    + destruct (q_fillin p1 =? q_argc p1)%Z eqn:Ec.
      * unfold finish in E. destruct (args (q_argv p1)) as [argv|] eqn:Ea1; [|discriminate].
        destruct (Server.request g (fst (x k)) fd argv w) as [out st w2|] eqn:Er; [|discriminate].
        destruct (send_all (snd (x k)) 0 out outs1) as [outs2|] eqn:Ea2; [|discriminate].
        pose proof (send_all_grown _ _ _ _ _ Ea2 (fun q => Gx q k)) as G2.
        destruct (outs_event es ms w outs1 outs2 (SRequest fd (fst (x k)) argv) out st w2 H O1 Er ltac:(discriminate) G2) as [H2 O2].
        eapply IH in E; [| exact H2 | exact O2 | |].
        -- destruct E as (ext & ms' & F & H3 & O3 & R3 & T3 & D3). exists (SRequest fd (fst (x k)) argv :: ext), ms'.
           rewrite <- app_assoc in H3, O3, T3. split; [constructor; [eexists _, _; reflexivity|exact F]|].
           split; [exact H3|]. split; [exact O3|]. split; [exact R3|]. split; [exact T3|].
           eapply dom_trans; [exact D1|]. eapply dom_trans; [eapply grown_dom; exact G2|exact D3].
        -- intros rs later Ok Ea. destruct (P rs later Ok Ea) as (done & todo & R & Q). specialize (Q st).
           rewrite pass_split, Ef, Ec in Q. destruct Q as ((d & t & Q) & _ & Q2). exists d, t. split; [exact Q|exact Q2].
        -- unfold traced. cbn [p_trace]. rewrite asked_snoc. cbn [asked_step]. rewrite N.eqb_refl, FT.
           apply Forall2_app; [exact T|constructor; [exact Ea1|constructor]].
      * eapply IH in E; [| exact H | exact O1 | |].
        -- destruct E as (ext & ms' & F & H3 & O3 & R3 & T3 & D3). exists ext, ms'.
           split; [exact F|]. split; [exact H3|]. split; [exact O3|]. split; [exact R3|]. split; [exact T3|].
           eapply dom_trans; [exact D1|exact D3].
        -- intros rs later Ok Ea. destruct (P rs later Ok Ea) as (done & todo & R & Q). specialize (Q SUCCESS).
           rewrite pass_split, Ef, Ec in Q. destruct Q as ((d & t & Q) & _ & Q2). exists d, t. split; [exact Q|exact Q2].
        -- unfold traced. rewrite FT. exact T.
Qed.

Lemma recv_trace n sock p p' sock' : recv n sock p = (p', sock') -> p_trace p' = p_trace p.
Proof. unfold recv. intros E. inversion E; reflexivity. Qed.

Lemma chunk_acc fd x y e (Gx : G -> forall k i, healthy_how (snd (x k) i)) (Gy : G -> forall i, healthy_how (y i)) cuts :
  forall k sock p v w outs es ms p' sock' v' w' outs',
  hist es ms w -> outs_ok es ms outs -> rest fd sock p -> traced fd es p ->
  net_chunk g fd x y cuts e k sock p v w outs = Some (p', sock', v', w', outs') ->
  exists ext ms', Forall (from fd) ext /\ hist (es ++ ext) ms' w' /\ outs_ok (es ++ ext) ms' outs' /\ rest fd sock' p'
    /\ traced fd (es ++ ext) p' /\ same_dom outs outs'.
Proof.
  assert (Z : forall sock p w outs es ms p' sock' w' outs', hist es ms w -> outs_ok es ms outs -> rest fd sock p -> traced fd es p ->
    p = p' -> sock = sock' -> w = w' -> outs = outs' ->
    exists ext ms', Forall (from fd) ext /\ hist (es ++ ext) ms' w' /\ outs_ok (es ++ ext) ms' outs' /\ rest fd sock' p'
    /\ traced fd (es ++ ext) p' /\ same_dom outs outs').
  { intros; subst. exists [], ms. rewrite app_nil_r. split; [constructor|]. auto 10 using dom_refl. }
  induction cuts as [|n cuts IH]; intros k sock p v w outs es ms p' sock' v' w' outs' H O R T E; cbn [net_chunk] in E;
    (destruct (b_remain p =? 0); [inversion E; subst; eapply Z; eauto|]).
  - inversion E; subst. eapply Z; eauto.
  - destruct sock as [|s0 sock0] eqn:Esock; [inversion E; subst; eapply Z; eauto|]. rewrite <- Esock in *.
    assert (Hs : sock <> []) by (rewrite Esock; discriminate). clear Esock.
    destruct (recv n sock p) as [p1 sock1] eqn:Ercv.
    destruct (net_loop g fd x y (loop_fuel p1) k p1 v w outs) as [[[[[k2 p2] v2] w2] outs2]|] eqn:El; [|discriminate].
    assert (M : mid fd sock1 p1).
    { intros rs later Ok Ea. destruct (R rs later Ok Ea) as (done & todo & R1 & Rr & Rs).
      destruct (recv_ok _ _ _ _ _ _ _ _ _ R1 Rr Hs Ercv) as (R2 & R3 & R4). exists done, todo. split; [exact R2|]. intros; contradiction. }
    assert (T1 : traced fd es p1) by (unfold traced; rewrite (recv_trace _ _ _ _ _ Ercv); exact T).
    destruct (loop_acc fd x y Gx Gy sock1 _ _ _ _ _ _ es ms _ _ _ _ _ H O M T1 El) as (ext & ms' & F & H2 & O2 & R2 & T2 & D2).
    assert (Fin : p2 = p' /\ sock1 = sock' /\ w2 = w' /\ outs2 = outs' -> exists ext ms', Forall (from fd) ext /\ hist (es ++ ext) ms' w' /\ outs_ok (es ++ ext) ms' outs' /\ rest fd sock' p'
      /\ traced fd (es ++ ext) p' /\ same_dom outs outs').
    { intros (<- & <- & <- & <-). exists ext, ms'. auto 10. }
    assert (More : net_chunk g fd x y cuts e k2 sock1 p2 v2 w2 outs2 = Some (p', sock', v', w', outs') ->
      exists ext ms', Forall (from fd) ext /\ hist (es ++ ext) ms' w' /\ outs_ok (es ++ ext) ms' outs' /\ rest fd sock' p'
      /\ traced fd (es ++ ext) p' /\ same_dom outs outs').
    { intros E'. destruct (IH _ _ _ _ _ _ _ _ _ _ _ _ _ H2 O2 R2 T2 E') as (ext2 & ms2 & F2 & H3 & O3 & R3 & T3 & D3).
      exists (ext ++ ext2), ms2. rewrite app_assoc. split; [apply Forall_app; auto|]. split; [exact H3|]. split; [exact O3|].
      split; [exact R3|]. split; [exact T3|]. eapply dom_trans; eassumption. }
    destruct v2; try discriminate E; first [apply More; exact E | apply Fin; inversion E; auto].
Qed.
End Good.

(* ---- all events ---- *)

Record acc (G : Prop) (g : server) (w0 : world) (evs : list nevent) (es : list sevent) (ms : list (list (N * bytes))) (n : net) : Prop := {
  acc_hist : hist g w0 es ms (e_world n);
  acc_outs : outs_ok G (fun f => arrived_on f evs) es ms (e_out n);
  acc_dom : forall f, e_in n f = None <-> e_out n f = None;
  acc_in : forall f p sock, e_in n f = Some (p, sock) -> rest (fun f => arrived_on f evs) f sock p /\ traced f es p }.

(* the requests and other events which the event loop adds *)
Definition added (e : sevent) : Prop := match e with SRestart _ => False | _ => True end.

Lemma outs_arr G arr arr' es ms outs : (forall f, outs f <> None -> wellformed arr' f -> wellformed arr f) ->
  outs_ok G arr es ms outs -> outs_ok G arr' es ms outs.
Proof. intros H O f o W E. apply O; [apply H; [congruence|exact W]|exact E]. Qed.

Lemma wf_more arr arr' f b : arr' f = arr f ++ b -> wellformed arr' f -> wellformed arr f.
Proof. intros E (rs & later & Ok & Ea). exists rs, (b ++ later). split; [exact Ok|]. rewrite app_assoc, <- E. exact Ea. Qed.

Lemma rest_arr arr arr' f sock p : arr' f = arr f -> rest arr f sock p -> rest arr' f sock p.
Proof. intros E R rs later Ok Ea. rewrite E in Ea. exact (R rs later Ok Ea). Qed.

Lemma close_acc G g w0 evs es ms n fd n' : acc G g w0 evs es ms n -> net_close fd n = Some n' ->
  acc G g w0 evs (es ++ [SClose fd]) (ms ++ [[]]) n'.
Proof.
  intros [H O D I] E. unfold net_close in E. destruct (close fd (e_world n)) as [out st w|] eqn:Ec; [|discriminate]. inversion E; subst n'. clear E.
  assert (out = []) by (unfold close in Ec; inversion Ec; reflexivity). subst out.
  destruct (outs_event G g w0 _ es ms (e_world n) (e_out n) (e_out n) (SClose fd) [] st w H O Ec ltac:(discriminate) (grown_refl G _)) as [H2 O2].
  split; cbn [e_world e_in e_out].
  - exact H2.
  - intros f o W Eo. unfold upd in Eo. destruct (f =? fd); [discriminate|]. exact (O2 f o W Eo).
  - intros f. unfold upd. destruct (f =? fd); [tauto|apply D].
  - intros f p sock Ef. unfold upd in Ef. destruct (f =? fd); [discriminate|]. destruct (I f p sock Ef) as [I1 I2]. split; [exact I1|].
    unfold traced. rewrite asked_snoc. exact I2.
Qed.

Lemma step_acc G g w0 evs es ms n ev n' : acc G g w0 evs es ms n -> (G -> healthy_event ev) -> net_step g ev n = Some n' ->
  exists ext ms', Forall added ext /\ acc G g w0 (evs ++ [ev]) (es ++ ext) ms' n'.
Proof.
  intros A Hg E. destruct (e_up n) eqn:Eup; unfold net_step in E; rewrite Eup in E; cbn [negb] in E; [|discriminate].
  pose proof A as [H O D I].
  assert (Quiet : (forall f, arrived_on f (evs ++ [ev]) = arrived_on f evs) -> acc G g w0 (evs ++ [ev]) es ms n).
  { intros Q. split; auto.
    - eapply outs_arr; [|exact O]. intros f _. apply (wf_more _ _ f []). rewrite app_nil_r. apply Q.
    - intros f p sock Ef. destruct (I f p sock Ef) as [I1 I2]. split; [|exact I2]. revert I1. apply rest_arr. apply Q. }
  assert (Nothing : (forall f, arrived_on f (evs ++ [ev]) = arrived_on f evs) ->
    exists ext ms', Forall added ext /\ acc G g w0 (evs ++ [ev]) (es ++ ext) ms' n).
  { intros Q. exists [], ms. rewrite app_nil_r. split; [constructor|]. apply Quiet. exact Q. }
  destruct ev as [fd|fd b|fd cuts e x y|fd os|fd|now old hws].
  - (* accept *)
    destruct (connect g fd (e_world n)) as [out st w|] eqn:Ec; [|discriminate]. inversion E; subst n'. clear E.
    assert (Eo : out = []) by (unfold connect in Ec; destruct (client_at fd (e_world n)); inversion Ec; reflexivity). subst out.
    exists [SConnect fd], (ms ++ [[]]). split; [repeat constructor|].
    pose proof (run_lengths _ _ _ _ _ H) as L.
    assert (Aother : forall f, f <> fd -> arrived_on f (evs ++ [NAccept fd]) = arrived_on f evs).
    { intros f Hf. rewrite arrived_snoc. cbn [arrived_step]. replace (fd =? f) with false by lia. reflexivity. }
    split; cbn [e_world e_in e_out].
    + eapply run_snoc; [exact H|exact Ec].
    + intros f o W Eo. rewrite told_snoc by exact L. unfold told_step. cbn [fst snd]. rewrite (N.eqb_sym fd f). unfold upd in Eo.
      destruct (N.eqb_spec f fd) as [->|Hf].
      * inversion Eo; subst. apply oinv_new.
      * apply O; [|exact Eo]. revert W. apply (wf_more _ _ f []). rewrite app_nil_r. apply Aother. exact Hf.
    + intros f. unfold upd. destruct (f =? fd); [split; discriminate|apply D].
    + intros f p sock Ef. unfold upd in Ef. destruct (N.eqb_spec f fd) as [->|Hf].
      * inversion Ef; subst. split.
        -- intros rs later Ok Ea. cbn beta in Ea. rewrite arrived_snoc in Ea. cbn [arrived_step] in Ea. rewrite N.eqb_refl in Ea.
           exists [], rs. split; [apply start_rel; [exact Ok|exact Ea]|]. split; [discriminate|apply stuck_nil; reflexivity].
        -- unfold traced. rewrite asked_snoc. cbn [asked_step]. rewrite N.eqb_refl. constructor.
      * destruct (I f p sock Ef) as [I1 I2]. split; [revert I1; apply rest_arr; apply Aother; exact Hf|].
        unfold traced. rewrite asked_snoc. cbn [asked_step]. replace (fd =? f) with false by lia. exact I2.
  - (* arrival *)
    exists [], ms. rewrite app_nil_r. split; [constructor|].
    assert (Aother : forall f, f <> fd -> arrived_on f (evs ++ [NArrive fd b]) = arrived_on f evs).
    { intros f Hf. rewrite arrived_snoc. cbn [arrived_step]. replace (fd =? f) with false by lia. reflexivity. }
    assert (Aself : arrived_on fd (evs ++ [NArrive fd b]) = arrived_on fd evs ++ b).
    { rewrite arrived_snoc. cbn [arrived_step]. rewrite N.eqb_refl. reflexivity. }
    assert (O' : outs_ok G (fun f => arrived_on f (evs ++ [NArrive fd b])) es ms (e_out n)).
    { eapply outs_arr; [|exact O]. intros f _. destruct (N.eq_dec f fd) as [->|Hf].
      - apply (wf_more _ _ fd b). exact Aself.
      - apply (wf_more _ _ f []). rewrite app_nil_r. apply Aother. exact Hf. }
    destruct (e_in n fd) as [[p sock]|] eqn:Ein; inversion E; subst n'; clear E.
    + split; cbn [e_world e_in e_out]; auto.
      * intros f. unfold upd. destruct (N.eqb_spec f fd) as [->|Hf]; [rewrite <- (D fd), Ein; split; discriminate|apply D].
      * intros f p1 sock1 Ef. unfold upd in Ef. destruct (N.eqb_spec f fd) as [->|Hf].
        -- inversion Ef; subst. destruct (I fd p1 sock Ein) as [I1 I2]. split; [|exact I2].
           intros rs later Ok Ea. cbn beta in Ea. rewrite Aself, <- app_assoc in Ea. rewrite <- app_assoc. apply I1; assumption.
        -- destruct (I f p1 sock1 Ef) as [I1 I2]. split; [|exact I2]. revert I1. apply rest_arr. apply Aother. exact Hf.
    + split; auto. intros f p1 sock1 Ef. destruct (N.eq_dec f fd) as [->|Hf]; [congruence|].
      destruct (I f p1 sock1 Ef) as [I1 I2]. split; [|exact I2]. revert I1. apply rest_arr. apply Aother. exact Hf.
  - (* reading *)
    assert (Q : forall f, arrived_on f (evs ++ [NRead fd cuts e x y]) = arrived_on f evs) by (intros f; rewrite arrived_snoc; reflexivity).
    destruct (e_in n fd) as [[p sock]|] eqn:Ein; [|inversion E; subst n'; apply Nothing; exact Q].
    destruct (net_chunk g fd x y cuts e 0 sock p SUCCESS (e_world n) (e_out n)) as [[[[[p' sock'] v] w'] outs']|] eqn:Ech; [|discriminate].
    specialize (Quiet Q). destruct Quiet as [H1 O1 D1 I1].
    destruct (I1 fd p sock Ein) as [R T].
    destruct (chunk_acc G g w0 _ fd x y e (fun q => proj1 (Hg q)) (fun q => proj2 (Hg q)) _ _ _ _ _ _ _ es ms _ _ _ _ _ H1 O1 R T Ech)
      as (ext & ms' & F & H2 & O2 & R2 & T2 & D2).
    assert (Fa : Forall added ext) by (eapply Forall_impl; [|exact F]; intros a (v0 & a0 & ->); exact Logic.I).
    assert (A2 : forall up, acc G g w0 (evs ++ [NRead fd cuts e x y]) (es ++ ext) ms' (mkNet w' (upd fd (Some (p', sock')) (e_in n)) outs' up)).
    { intros up. split; cbn [e_world e_in e_out]; auto.
      - intros f. rewrite <- (D2 f). unfold upd. destruct (N.eqb_spec f fd) as [->|Hf]; [rewrite <- (D1 fd), Ein; split; discriminate|apply D1].
      - intros f p1 sock1 Ef. unfold upd in Ef. destruct (N.eqb_spec f fd) as [->|Hf].
        + inversion Ef; subst. split; assumption.
        + destruct (I1 f p1 sock1 Ef) as [R3 T3]. split; [exact R3|]. unfold traced. rewrite (asked_others (fun _ => []) f fd) by assumption. exact T3. }
    cbv zeta in E.
    assert (Stay : forall up, n' = mkNet w' (upd fd (Some (p', sock')) (e_in n)) outs' up -> exists ext ms', Forall added ext /\
      acc G g w0 (evs ++ [NRead fd cuts e x y]) (es ++ ext) ms' n').
    { intros up ->. exists ext, ms'. split; [exact Fa|apply A2]. }
    assert (Go : net_close fd (mkNet w' (upd fd (Some (p', sock')) (e_in n)) outs' true) = Some n' -> exists ext ms', Forall added ext /\
      acc G g w0 (evs ++ [NRead fd cuts e x y]) (es ++ ext) ms' n').
    { intros E'. exists (ext ++ [SClose fd]), (ms' ++ [[]]). split; [apply Forall_app; split; [exact Fa|repeat constructor]|].
      rewrite app_assoc. eapply close_acc; [apply A2|exact E']. }
    destruct v; try discriminate E; try (apply Go; exact E); injection E as E; symmetry in E; eapply Stay; exact E.
  - (* writing *)
    assert (Q : forall f, arrived_on f (evs ++ [NWrite fd os]) = arrived_on f evs) by (intros f; rewrite arrived_snoc; reflexivity).
    destruct (e_out n fd) as [o|] eqn:Eo; inversion E; subst n'; clear E; [|apply Nothing; exact Q].
    specialize (Quiet Q). destruct Quiet as [H1 O1 D1 I1].
    exists [], ms. rewrite app_nil_r. split; [constructor|]. split; cbn [e_world e_in e_out]; auto.
    + intros f o' W Ef. unfold upd in Ef. destruct (N.eqb_spec f fd) as [->|Hf]; [|apply O1; assumption].
      inversion Ef; subst. rewrite <- (app_nil_r (told_to fd es ms)).
      apply (oinv_step G _ o (EvWritable os)); [apply O1; assumption|reflexivity|exact Hg].
    + intros f. unfold upd. destruct (N.eqb_spec f fd) as [->|Hf]; [rewrite (D fd), Eo; split; discriminate|apply D].
  - (* hang-up *)
    assert (Q : forall f, arrived_on f (evs ++ [NHup fd]) = arrived_on f evs) by (intros f; rewrite arrived_snoc; reflexivity).
    destruct (e_in n fd); [|inversion E; subst n'; apply Nothing; exact Q].
    exists [SClose fd], (ms ++ [[]]). split; [repeat constructor|]. eapply close_acc; [apply Quiet; exact Q|exact E].
  - (* idle *)
    assert (Q : forall f, arrived_on f (evs ++ [NIdle now old hws]) = arrived_on f evs) by (intros f; rewrite arrived_snoc; reflexivity).
    destruct (idle g now old (e_world n)) as [out st w|] eqn:Ei; [|discriminate].
    destruct (send_all hws 0 out (e_out n)) as [outs'|] eqn:Es; [|discriminate]. inversion E; subst n'. clear E.
    specialize (Quiet Q). destruct Quiet as [H1 O1 D1 I1].
    pose proof (send_all_grown G _ _ _ _ _ Es Hg) as Gr.
    destruct (outs_event G g w0 _ es ms (e_world n) (e_out n) outs' (SIdle now old) out st w H1 O1 Ei ltac:(discriminate) Gr) as [H2 O2].
    exists [SIdle now old], (ms ++ [out]). split; [repeat constructor|]. split; cbn [e_world e_in e_out]; auto.
    + intros f. rewrite <- (grown_dom _ _ _ _ Gr f). apply D.
    + intros f p sock Ef. destruct (I1 f p sock Ef) as [R T]. split; [exact R|]. unfold traced. rewrite asked_snoc. exact T.
Qed.

Lemma acc_weaken (G G' : Prop) g w0 evs es ms n : (G' -> G) -> acc G g w0 evs es ms n -> acc G' g w0 evs es ms n.
Proof.
  intros HG [H O D I]. split; auto. intros f o W E. destruct (O f o W E) as (oes & A & B & C). exists oes. auto.
Qed.

Lemma run_acc g w0 more : forall evs es ms n n', acc (Forall healthy_event evs) g w0 evs es ms n -> net_run g more n = Some n' ->
  exists ext ms', Forall added ext /\ acc (Forall healthy_event (evs ++ more)) g w0 (evs ++ more) (es ++ ext) ms' n'.
Proof.
  induction more as [|ev more IH]; intros evs es ms n n' A E; cbn [net_run] in E.
  - inversion E; subst. exists [], ms. rewrite !app_nil_r. split; [constructor|exact A].
  - destruct (net_step g ev n) as [n1|] eqn:E1; [|discriminate].
    apply (acc_weaken _ (Forall healthy_event (evs ++ [ev]))) in A; [|intros q; apply Forall_app in q; tauto].
    destruct (step_acc _ _ _ _ _ _ _ _ _ A (fun q => Forall_inv (proj2 (proj1 (Forall_app _ _ _) q))) E1) as (ext & ms1 & F & A1).
    destruct (IH _ _ _ _ _ A1 E) as (ext2 & ms2 & F2 & A2).
    exists (ext ++ ext2), ms2. rewrite <- !app_assoc in A2. split; [apply Forall_app; auto|exact A2].
Qed.

Lemma new_acc G g w0 : acc G g w0 [] [] [] (net_new w0).
Proof.
  split; cbn [net_new e_world e_in e_out].
  - reflexivity.
  - intros f o _ E. discriminate.
  - tauto.
  - intros f p sock E. discriminate.
Qed.

Lemma traced_done fd es p done : traced fd es p -> p_trace p = map (map obj_of) done -> asked fd es = done.
Proof.
  unfold traced. intros T E. rewrite E in T. clear E. remember (asked fd es) as l eqn:El. clear El. revert l T.
  induction done as [|r done IH]; intros l T; inversion T; subst; [reflexivity|].
  rewrite args_of in H1. inversion H1; subst. f_equal. apply IH. assumption.
Qed.

Lemma acc_accounts g w0 evs es ms n fd : acc (Forall healthy_event evs) g w0 evs es ms n -> connected fd n -> accounts es ms evs n fd.
Proof.
  intros [H O D I] C rs later Ok Ea. unfold connected in C. destruct (e_in n fd) as [[p sock]|] eqn:Ein; [|congruence].
  destruct (I fd p sock Ein) as [R T]. destruct (R rs later Ok Ea) as (done & todo & R1 & R2 & R3).
  destruct (consumed_shape _ _ _ _ _ R1 R3) as (part & Es & Hp).
  exists done, todo, part, sock. split; [exact (rel_all _ _ _ _ _ R1)|]. split; [eapply traced_done; [exact T|exact (rel_trace _ _ _ _ _ R1)]|].
  split; [|split; [exact Hp|split; [eauto|]]].
  - rewrite <- Ea in Es. apply app_inv_tail with (l := later). rewrite Es, <- !app_assoc. reflexivity.
  - intros Hh. unfold received, waiting. destruct (e_out n fd) as [o|] eqn:Eo.
    + destruct (O fd o) as (oes & E1 & E2 & E3); [exists rs, later; auto|exact Eo|].
      destruct (nothing_lost oes (E3 Hh)) as (o' & E4 & E5). rewrite E1 in E4. inversion E4; subst o'. rewrite E5. exact E2.
    + exfalso. apply D in Eo. congruence.
Qed.

Lemma one_order g w0 evs1 evs2 n1 n2 : net_run g evs1 (net_new w0) = Some n1 -> net_run g evs2 n1 = Some n2 ->
  exists es1 es2 ms1 ms2,
    run_sevents g es1 w0 = Some (ms1, e_world n1) /\ run_sevents g es2 (e_world n1) = Some (ms2, e_world n2) /\
    Forall added (es1 ++ es2) /\
    (forall fd, connected fd n1 -> accounts es1 ms1 evs1 n1 fd) /\
    (forall fd, connected fd n2 -> accounts (es1 ++ es2) (ms1 ++ ms2) (evs1 ++ evs2) n2 fd).
Proof.
  intros E1 E2.
  destruct (run_acc g w0 evs1 [] [] [] _ n1 (new_acc _ g w0) E1) as (es1 & ms1 & F1 & A1). cbn [app] in A1.
  destruct (run_acc g w0 evs2 _ _ _ _ n2 A1 E2) as (es2 & ms & F2 & A2).
  destruct (run_split _ _ _ _ _ _ (acc_hist _ _ _ _ _ _ _ A2)) as (ma & wa & mb & X1 & X2 & X3).
  pose proof (acc_hist _ _ _ _ _ _ _ A1) as H1. unfold hist in H1. rewrite H1 in X1. inversion X1; subst ma wa. subst ms.
  exists es1, es2, ms1, mb. split; [exact H1|]. split; [exact X2|]. split; [apply Forall_app; auto|].
  split; intros fd C; eapply acc_accounts; eassumption.
Qed.
