(* Proofs about the reply queue: nothing is lost, duplicated or reordered. *)
From Coq Require Import List NArith ZArith Bool Strings.Byte Lia ZifyBool ZifyN ZifyNat.
From Verif Require Import Bytes BytesFacts ReplyQueue.
Import ListNotations.
Open Scope N_scope.

(* specification: the replies of a run, in the order they were made *)
Definition reply_of (e : out_event) : bytes :=
  match e with EvHeap p _ => p | EvStack p _ => p | EvWritable _ => [] end.
Definition replies (es : list out_event) : bytes := concat (map reply_of es).

(* what still waits *)
Definition queued (o : client_out) : bytes := concat (map r_rest (o_chain o)).

(* the results of the send calls of a run *)
Definition sends_of (e : out_event) : list sendres :=
  match e with EvHeap _ os => os | EvStack _ os => os | EvWritable os => os end.
Definition sends (es : list out_event) : list sendres := concat (map sends_of es).

(* the socket never fails *)
Definition healthy (os : list sendres) : Prop := Forall (fun r => r <> Pipe /\ r <> Fail) os.

(* the socket accepts nothing more *)
Definition quiet (os : list sendres) : Prop := Forall (fun r => forall n, r <> Accepted n) os.

(* the socket may fail, and then accepts nothing more *)
Fixpoint dies (os : list sendres) : Prop :=
  match os with
  | [] => True
  | Accepted _ :: t | Again :: t => dies t
  | Pipe :: t | Fail :: t => quiet t
  end.

Definition prefix (a b : bytes) : Prop := exists c, b = a ++ c.

Lemma quiet_dies os : quiet os -> dies os.
Proof.
  induction os as [|r os IH]; cbn [dies]; auto. intros H.
  destruct r; try (apply IH; inversion H; assumption); inversion H; assumption.
Qed.

Lemma healthy_dies os : healthy os -> dies os.
Proof.
  induction os as [|r os IH]; cbn [dies]; auto. intros H.
  pose proof (Forall_inv H) as [H1 H2]. apply Forall_inv_tail in H. destruct r; auto; congruence.
Qed.

Lemma quiet_app_r a b : quiet (a ++ b) -> quiet b.
Proof. unfold quiet. rewrite Forall_app. tauto. Qed.

Lemma dies_app_r a b : dies (a ++ b) -> dies b.
Proof.
  induction a as [|r a IH]; cbn [app dies]; auto.
  destruct r; auto; intros H; apply quiet_dies; eapply quiet_app_r; eassumption.
Qed.

(* one response *)
Lemma send_response_ok os : forall rest sent more, dies (os ++ more) ->
  forall sent' rest' kept os', send_response os rest sent = (sent', rest', kept, os') ->
  (exists mid, sent' = sent ++ mid /\ mid ++ rest' = rest /\ (kept = false -> rest' = []) /\ dies (os' ++ more)
     /\ (quiet (os ++ more) -> mid = [] /\ quiet (os' ++ more)))
  \/ (exists mid rem, sent' = sent ++ mid /\ rest = mid ++ rem /\ kept = false /\ quiet (os' ++ more)
     /\ (quiet (os ++ more) -> mid = [])).
Proof.
  induction os as [|r os IH]; intros rest sent more Hd sent' rest' kept os' E.
  - destruct rest as [|b rest]; cbn [send_response] in E; inversion E; subst.
    + left. exists []. rewrite app_nil_r. split; [|split; [|split; [|split]]]; auto.
    + left. exists []. rewrite app_nil_r. split; [|split; [|split; [|split]]]; auto. discriminate.
  - destruct rest as [|b rest].
    + cbn [send_response] in E. inversion E; subst.
      left. exists []. rewrite app_nil_r. split; [|split; [|split; [|split]]]; auto.
    + destruct r as [n| | |]; cbn [send_response] in E; cbn [app dies] in Hd.
      * set (k := N.max 1 (N.min n (blen (b :: rest)))) in *.
        destruct (IH _ _ more Hd _ _ _ _ E) as [(mid & H1 & H2 & H3 & H4 & H5)|(mid & rem & H1 & H2 & H3 & H4 & H5)].
        -- left. exists (nfirst k (b :: rest) ++ mid). rewrite H1, <- !app_assoc, H2, nfirst_nskip.
           split; [|split; [|split; [|split]]]; auto.
           intros Q. exfalso. apply (Forall_inv Q n). reflexivity.
        -- right. exists (nfirst k (b :: rest) ++ mid), rem. rewrite H1, <- !app_assoc, <- H2, nfirst_nskip.
           split; [|split; [|split; [|split]]]; auto.
           intros Q. exfalso. apply (Forall_inv Q n). reflexivity.
      * inversion E; subst. left. exists []. rewrite app_nil_r. split; [|split; [|split; [|split]]]; auto; [discriminate|].
        intros Q. apply Forall_inv_tail in Q. auto.
      * inversion E; subst. right. exists [], (b :: rest). rewrite app_nil_r.
        split; [|split; [|split; [|split]]]; auto.
      * inversion E; subst. right. exists [], (b :: rest). rewrite app_nil_r.
        split; [|split; [|split; [|split]]]; auto.
Qed.

(* the shape of the chain: distinct known addresses, the tail is the last *)
Definition chain_ok (chain : list response) (tail : option N) (next : N) : Prop :=
  NoDup (map r_addr chain) /\ Forall (fun a => a < next) (map r_addr chain)
  /\ forall a t h, chain = t ++ [h] -> a = r_addr h -> tail = Some a.

Lemma last_split {A} (l : list A) : l <> [] -> exists t h, l = t ++ [h].
Proof. intros H. destruct (exists_last H) as (t & h & E). exists t, h. exact E. Qed.

Lemma link_after_last t : forall h r, NoDup (map r_addr (t ++ [h])) ->
  link_after (r_addr h) (t ++ [h]) r = Some (t ++ [h; r]).
Proof.
  induction t as [|x t IH]; intros h r H; cbn [app link_after].
  - rewrite N.eqb_refl. reflexivity.
  - cbn [app map] in H. apply NoDup_cons_iff in H. destruct H as [H1 H2].
    destruct (N.eqb_spec (r_addr x) (r_addr h)) as [E|_].
    + exfalso. apply H1. rewrite E, map_app. apply in_or_app. right. left. reflexivity.
    + rewrite IH by exact H2. reflexivity.
Qed.

Lemma push_ok o rest : chain_ok (o_chain o) (o_tail o) (o_next o) ->
  exists o', response_push o rest = Some o' /\ o_sent o' = o_sent o
    /\ queued o' = queued o ++ rest /\ chain_ok (o_chain o') (o_tail o') (o_next o').
Proof.
  intros (H1 & H2 & H3). unfold response_push.
  destruct (o_chain o) as [|c0 cs] eqn:E.
  - eexists. split; [reflexivity|]. unfold queued. rewrite E. cbn [o_sent o_chain o_tail o_next map concat r_rest app].
    split; [reflexivity|]. split; [rewrite app_nil_r; reflexivity|].
    split; [|split].
    + cbn [map r_addr]. constructor; [intros []|constructor].
    + cbn [map r_addr]. constructor; [lia|constructor].
    + intros a t h Et Ea. destruct t as [|x [|y t]]; cbn [app] in Et; inversion Et; subst. reflexivity.
  - destruct (last_split (c0 :: cs)) as (t & h & Et); [discriminate|]. rewrite Et in *.
    rewrite (H3 _ _ _ eq_refl eq_refl). rewrite link_after_last by exact H1.
    eexists. split; [reflexivity|]. unfold queued. rewrite E.
    cbn [o_sent o_chain o_tail o_next]. split; [reflexivity|].
    change (t ++ [h; mkResp (o_next o) rest]) with (t ++ [h] ++ [mkResp (o_next o) rest]). rewrite app_assoc.
    split; [rewrite map_app, concat_app; cbn [map concat r_rest]; rewrite app_nil_r; reflexivity|].
    split; [|split].
    + rewrite map_app. cbn [map r_addr]. apply NoDup_Add with (a := o_next o) (l := map r_addr (t ++ [h])).
      * rewrite <- (app_nil_r (map r_addr (t ++ [h]))) at 1. apply Add_app.
      * split; [exact H1|]. intros I. rewrite Forall_forall in H2. apply H2 in I. lia.
    + rewrite map_app, Forall_app. split; [|constructor; [cbn [r_addr]; lia|constructor]].
      eapply Forall_impl; [|exact H2]. intros; cbn beta in *; lia.
    + intros a t' h' Et' Ea. apply app_inj_tail in Et'. destruct Et' as [_ <-]. cbn [r_addr] in *. congruence.
Qed.

Lemma chain_ok_tail r chain tail next : chain_ok (r :: chain) tail next ->
  chain_ok chain (match chain with [] => None | _ => tail end) next.
Proof.
  intros (H1 & H2 & H3). cbn [map] in *. apply NoDup_cons_iff in H1. apply Forall_inv_tail in H2.
  split; [tauto|]. split; [assumption|]. intros a t h E Ea.
  destruct chain as [|c cs]; [destruct t; discriminate|].
  apply (H3 a (r :: t) h); [|assumption]. cbn [app]. rewrite E. reflexivity.
Qed.

Lemma chain_ok_head r rest chain tail next : chain_ok (r :: chain) tail next ->
  chain_ok (mkResp (r_addr r) rest :: chain) tail next.
Proof.
  intros (H1 & H2 & H3). split; [exact H1|]. split; [exact H2|]. intros a t h E Ea.
  destruct t as [|x t]; cbn [app] in E.
  - inversion E; subst. cbn [r_addr]. apply (H3 _ [] r); reflexivity.
  - inversion E; subst. apply (H3 _ (r :: t) h); reflexivity.
Qed.

Lemma delayed_loop_ok chain : forall os sent tail next more, dies (os ++ more) -> chain_ok chain tail next ->
  forall sent' chain' tail', delayed_loop os chain sent tail = (sent', chain', tail') ->
  chain_ok chain' tail' next
  /\ ((exists mid, sent' = sent ++ mid /\ mid ++ concat (map r_rest chain') = concat (map r_rest chain)
        /\ (quiet (os ++ more) -> mid = []))
     \/ (exists mid rem, sent' = sent ++ mid /\ concat (map r_rest chain) = mid ++ rem /\ quiet more
        /\ (quiet (os ++ more) -> mid = []))).
Proof.
  induction chain as [|r chain IH]; intros os sent tail next more Hd Hc sent' chain' tail' E; cbn [delayed_loop] in E.
  - inversion E; subst. split; [exact Hc|]. left. exists []. rewrite app_nil_r. auto.
  - destruct (send_response os (r_rest r) sent) as [[[s1 rest1] kept] os1] eqn:S.
    destruct (send_response_ok os (r_rest r) sent more Hd _ _ _ _ S)
      as [(mid & H1 & H2 & H3 & H4 & H5)|(mid & rem & H1 & H2 & H3 & H4 & H5)].
    + destruct kept.
      * inversion E; subst. split; [apply chain_ok_head; exact Hc|]. left. exists mid. split; [reflexivity|].
        cbn [map concat r_rest]. rewrite <- H2, app_assoc. split; [reflexivity|tauto].
      * rewrite (H3 eq_refl), app_nil_r in H2. subst mid s1.
        destruct (IH os1 (sent ++ r_rest r) _ next more H4 (chain_ok_tail _ _ _ _ Hc) _ _ _ E) as [C D].
        split; [exact C|]. destruct D as [(mid & D1 & D2 & D3)|(mid & rem & D1 & D2 & D3 & D4)].
        -- left. exists (r_rest r ++ mid). rewrite D1, <- !app_assoc, D2. split; [reflexivity|]. split; [reflexivity|].
           intros Q. destruct (H5 Q) as [Q1 Q2]. rewrite Q1, (D3 Q2). reflexivity.
        -- right. exists (r_rest r ++ mid), rem. rewrite D1, <- !app_assoc. cbn [map concat]. rewrite D2.
           split; [reflexivity|]. split; [reflexivity|]. split; [exact D3|].
           intros Q. destruct (H5 Q) as [Q1 Q2]. rewrite Q1, (D4 Q2). reflexivity.
    + subst kept s1.
      destruct (IH os1 (sent ++ mid) _ next more (quiet_dies _ H4) (chain_ok_tail _ _ _ _ Hc) _ _ _ E) as [C D].
      split; [exact C|]. right. exists mid, (rem ++ concat (map r_rest chain)).
      assert (X : sent' = sent ++ mid).
      { destruct D as [(mid' & D1 & _ & D3)|(mid' & rem' & D1 & _ & _ & D4)];
          [rewrite D1, (D3 H4)|rewrite D1, (D4 H4)]; rewrite app_nil_r; reflexivity. }
      split; [exact X|]. cbn [map concat]. rewrite H2, app_assoc. split; [reflexivity|].
      split; [eapply quiet_app_r; eassumption|exact H5].
Qed.

Definition out_inv (more : list sendres) (done : bytes) (o : client_out) : Prop :=
  chain_ok (o_chain o) (o_tail o) (o_next o)
  /\ (o_sent o ++ queued o = done \/ (quiet more /\ prefix (o_sent o) done)).

Lemma prefix_app a b c : prefix a b -> prefix a (b ++ c).
Proof. intros (d & ->). exists (d ++ c). rewrite app_assoc. reflexivity. Qed.

Lemma prefix_rest a b c : prefix (a ++ b) ((a ++ b) ++ c).
Proof. exists c. reflexivity. Qed.

Lemma direct_ok os payload sent done more o' :
  dies (os ++ more) ->
  (sent = done \/ (quiet (os ++ more) /\ prefix sent done)) ->
  forall sent' rest kept os', send_response os payload sent = (sent', rest, kept, os') ->
  chain_ok (o_chain o') (o_tail o') (o_next o') ->
  o_sent o' = sent' -> queued o' = (if kept then rest else []) ->
  out_inv more (done ++ payload) o'.
Proof.
  intros Hd H sent' rest kept os' E C S Q. split; [exact C|]. rewrite S, Q.
  destruct (send_response_ok os payload sent more Hd _ _ _ _ E)
    as [(mid & H1 & H2 & H3 & H4 & H5)|(mid & rem & H1 & H2 & H3 & H4 & H5)].
  - destruct H as [->|[Hq Hp]].
    + left. rewrite H1, <- app_assoc. f_equal. destruct kept; [exact H2|].
      rewrite (H3 eq_refl) in H2. exact H2.
    + right. split; [eapply quiet_app_r; eassumption|]. rewrite H1. destruct (H5 Hq) as [-> _].
      rewrite app_nil_r. apply prefix_app. exact Hp.
  - right. split; [eapply quiet_app_r; eassumption|]. destruct H as [->|[Hq Hp]].
    + rewrite H1, H2, app_assoc. apply prefix_rest.
    + rewrite H1, (H5 Hq), app_nil_r. apply prefix_app. exact Hp.
Qed.

Lemma send_rest_suffix os : forall rest sent sent' rest' os', send_response os rest sent = (sent', rest', true, os') ->
  nskip (blen rest - blen rest') rest = rest'.
Proof.
  intros rest sent sent' rest' os' E.
  assert (X : exists mid, rest = mid ++ rest').
  { revert rest sent E. induction os as [|r os IH]; intros rest sent E; destruct rest as [|b rest]; cbn [send_response] in E;
      try (inversion E; subst; exists []; reflexivity).
    destruct r as [n| | |]; try (inversion E; subst; exists []; reflexivity).
    destruct (IH _ _ E) as (mid & M).
    exists (nfirst (N.max 1 (N.min n (blen (b :: rest)))) (b :: rest) ++ mid). rewrite <- app_assoc, <- M, nfirst_nskip. reflexivity. }
  destruct X as (mid & ->). apply nskip_app_exact'. rewrite blen_app. lia.
Qed.

Lemma out_step_ok e o more done : dies (sends_of e ++ more) -> out_inv (sends_of e ++ more) done o ->
  exists o', out_step e o = Some o' /\ out_inv more (done ++ reply_of e) o'.
Proof.
  intros Hd [C H]. destruct e as [p os|p os|os]; cbn [out_step sends_of reply_of] in *.
  - unfold reply_heap. destruct (o_chain o) as [|c cs] eqn:Ec.
    + destruct (send_response os p (o_sent o)) as [[[s1 rest] kept] os1] eqn:E.
      assert (Q0 : queued o = []) by (unfold queued; rewrite Ec; reflexivity).
      rewrite Q0, app_nil_r in H.
      assert (C0 : chain_ok (o_chain (mkOut s1 [] (o_tail o) (o_next o))) (o_tail (mkOut s1 [] (o_tail o) (o_next o))) (o_next (mkOut s1 [] (o_tail o) (o_next o)))).
      { cbn [o_chain o_tail o_next]. exact C. }
      destruct kept.
      * destruct (push_ok (mkOut s1 [] (o_tail o) (o_next o)) rest C0) as (o' & E' & P1 & P2 & P3).
        exists o'. split; [exact E'|]. eapply direct_ok; eauto.
      * eexists. split; [reflexivity|]. eapply direct_ok; eauto.
    + assert (Cc : chain_ok (o_chain o) (o_tail o) (o_next o)) by (rewrite Ec; exact C).
      destruct (push_ok o p Cc) as (o' & E' & P1 & P2 & P3).
      exists o'. split; [exact E'|]. split; [exact P3|]. rewrite P1, P2.
      destruct H as [<-|[Hq Hp]]; [left; rewrite app_assoc; reflexivity|].
      right. split; [eapply quiet_app_r; eassumption|apply prefix_app; exact Hp].
  - unfold reply_stack. destruct (o_chain o) as [|c cs] eqn:Ec.
    + destruct (send_response os p (o_sent o)) as [[[s1 rest] kept] os1] eqn:E.
      assert (Q0 : queued o = []) by (unfold queued; rewrite Ec; reflexivity).
      rewrite Q0, app_nil_r in H.
      assert (C0 : chain_ok (o_chain (mkOut s1 [] (o_tail o) (o_next o))) (o_tail (mkOut s1 [] (o_tail o) (o_next o))) (o_next (mkOut s1 [] (o_tail o) (o_next o)))).
      { cbn [o_chain o_tail o_next]. exact C. }
      destruct kept.
      * rewrite (send_rest_suffix _ _ _ _ _ _ E).
        destruct (push_ok (mkOut s1 [] (o_tail o) (o_next o)) rest C0) as (o' & E' & P1 & P2 & P3).
        exists o'. split; [exact E'|]. eapply direct_ok; eauto.
      * eexists. split; [reflexivity|]. eapply direct_ok; eauto.
    + assert (Cc : chain_ok (o_chain o) (o_tail o) (o_next o)) by (rewrite Ec; exact C).
      destruct (push_ok o p Cc) as (o' & E' & P1 & P2 & P3).
      exists o'. split; [exact E'|]. split; [exact P3|]. rewrite P1, P2.
      destruct H as [<-|[Hq Hp]]; [left; rewrite app_assoc; reflexivity|].
      right. split; [eapply quiet_app_r; eassumption|apply prefix_app; exact Hp].
  - eexists. split; [reflexivity|]. rewrite app_nil_r. unfold delayed_write.
    destruct (o_chain o) as [|c cs] eqn:Ec.
    + split; [rewrite Ec; exact C|]. destruct H as [H|[Hq Hp]]; [left; exact H|].
      right. split; [eapply quiet_app_r; eassumption|exact Hp].
    + destruct (delayed_loop os (c :: cs) (o_sent o) (o_tail o)) as [[s1 ch1] t1] eqn:E.
      destruct (delayed_loop_ok _ _ _ _ (o_next o) more Hd C _ _ _ E) as [C1 D].
      split; [exact C1|]. cbn [o_sent]. unfold queued in *. cbn [o_chain]. rewrite Ec in H.
      destruct D as [(mid & D1 & D2 & D3)|(mid & rem & D1 & D2 & D3 & D4)].
      * destruct H as [H|[Hq Hp]].
        -- left. rewrite D1, <- app_assoc, D2. exact H.
        -- right. split; [eapply quiet_app_r; eassumption|]. rewrite D1, (D3 Hq), app_nil_r. exact Hp.
      * right. split; [exact D3|]. destruct H as [H|[Hq Hp]].
        -- rewrite D1, <- H, D2, app_assoc. apply prefix_rest.
        -- rewrite D1, (D4 Hq), app_nil_r. exact Hp.
Qed.

Lemma out_run_ok es : forall o done, dies (sends es) -> out_inv (sends es) done o ->
  exists o', out_run es o = Some o' /\ out_inv [] (done ++ replies es) o'.
Proof.
  induction es as [|e es IH]; intros o done Hd Hi.
  - exists o. split; [reflexivity|]. unfold replies. cbn [map concat]. rewrite app_nil_r. exact Hi.
  - unfold sends in *. cbn [map concat] in *.
    destruct (out_step_ok e o (sends es) done Hd Hi) as (o1 & E1 & I1).
    destruct (IH o1 (done ++ reply_of e)) as (o2 & E2 & I2).
    + eapply dies_app_r; eassumption.
    + exact I1.
    + exists o2. cbn [out_run]. rewrite E1. split; [exact E2|].
      unfold replies in *. cbn [map concat]. rewrite app_assoc. exact I2.
Qed.

Lemma out_new_inv more : out_inv more [] out_new.
Proof.
  split; [|left; reflexivity]. split; [constructor|]. split; [constructor|].
  intros a t h E. destruct t; discriminate.
Qed.

Lemma received_prefix es : dies (sends es) ->
  exists o, out_run es out_new = Some o /\ prefix (o_sent o) (replies es).
Proof.
  intros Hd. destruct (out_run_ok es out_new [] Hd (out_new_inv _)) as (o & E & _ & H).
  exists o. split; [exact E|]. cbn [app] in H. destruct H as [<-|[_ H]]; [exists (queued o); reflexivity|exact H].
Qed.

(* nothing is lost while the socket does not fail *)
Lemma healthy_send os : forall rest sent sent' rest' kept os', healthy os ->
  send_response os rest sent = (sent', rest', kept, os') ->
  sent' ++ rest' = sent ++ rest /\ (kept = false -> rest' = []) /\ healthy os'.
Proof.
  induction os as [|r os IH]; intros rest sent sent' rest' kept os' Hh E; destruct rest as [|b rest]; cbn [send_response] in E;
    try (inversion E; subst; repeat split; auto; discriminate).
  pose proof (Forall_inv Hh) as [H1 H2]. pose proof (Forall_inv_tail Hh) as Ht.
  destruct r as [n| | |]; try congruence.
  - destruct (IH _ _ _ _ _ _ Ht E) as (A & B & C). rewrite A, <- app_assoc, nfirst_nskip. auto.
  - inversion E; subst. repeat split; auto. discriminate.
Qed.

Lemma healthy_loop chain : forall os sent tail sent' chain' tail', healthy os ->
  delayed_loop os chain sent tail = (sent', chain', tail') ->
  sent' ++ concat (map r_rest chain') = sent ++ concat (map r_rest chain).
Proof.
  induction chain as [|r chain IH]; intros os sent tail sent' chain' tail' Hh E; cbn [delayed_loop] in E.
  - inversion E; subst. reflexivity.
  - destruct (send_response os (r_rest r) sent) as [[[s1 rest1] kept] os1] eqn:S.
    destruct (healthy_send _ _ _ _ _ _ _ Hh S) as (A & B & C). destruct kept.
    + inversion E; subst. cbn [map concat r_rest]. rewrite !app_assoc, A. reflexivity.
    + rewrite (IH _ _ _ _ _ _ C E). rewrite (B eq_refl), app_nil_r in A. subst s1.
      cbn [map concat]. rewrite <- app_assoc. reflexivity.
Qed.

Lemma healthy_step e o o' done : healthy (sends_of e) -> chain_ok (o_chain o) (o_tail o) (o_next o) ->
  o_sent o ++ queued o = done -> out_step e o = Some o' -> o_sent o' ++ queued o' = done ++ reply_of e.
Proof.
  intros Hh C H E. assert (X : forall p, response_push o p = Some o' -> o_sent o' ++ queued o' = done ++ p).
  { intros p X. destruct (push_ok o p C) as (o2 & E2 & P1 & P2 & _). assert (o2 = o') by congruence. subst o2.
    rewrite P1, P2, app_assoc, H. reflexivity. }
  assert (Y : forall os p s1 rest kept os1 w, o_chain o = [] -> healthy os ->
     send_response os p (o_sent o) = (s1, rest, kept, os1) -> (kept = true -> w = rest) ->
     (if kept then response_push (mkOut s1 [] (o_tail o) (o_next o)) w else Some (mkOut s1 [] (o_tail o) (o_next o))) = Some o' ->
     o_sent o' ++ queued o' = done ++ p).
  { intros os p s1 rest kept os1 w Ec Ho S W R. destruct (healthy_send _ _ _ _ _ _ _ Ho S) as (A & B & _).
    assert (Q0 : queued o = []) by (unfold queued; rewrite Ec; reflexivity). rewrite Q0, app_nil_r in H. subst done.
    destruct kept.
    - rewrite (W eq_refl) in R.
      destruct (push_ok (mkOut s1 [] (o_tail o) (o_next o)) rest) as (o2 & E2 & P1 & P2 & _).
      { cbn [o_chain o_tail o_next]. rewrite Ec in C. exact C. }
      assert (o2 = o') by congruence. subst o2. rewrite P1, P2. exact A.
    - inversion R; subst. rewrite (B eq_refl) in A. exact A. }
  destruct e as [p os|p os|os]; cbn [out_step sends_of reply_of] in *.
  - unfold reply_heap in E. destruct (o_chain o) as [|c cs] eqn:Ec; [|apply X; exact E].
    destruct (send_response os p (o_sent o)) as [[[s1 rest] kept] os1] eqn:S. eapply (Y os); eauto.
  - unfold reply_stack in E. destruct (o_chain o) as [|c cs] eqn:Ec; [|apply X; exact E].
    destruct (send_response os p (o_sent o)) as [[[s1 rest] kept] os1] eqn:S. eapply (Y os _ _ rest _ _ _ eq_refl Hh S); [|exact E].
    intros ->. eapply send_rest_suffix; eassumption.
  - rewrite app_nil_r. inversion E; subst o'. unfold delayed_write. destruct (o_chain o) as [|c cs] eqn:Ec; [exact H|].
    destruct (delayed_loop os (c :: cs) (o_sent o) (o_tail o)) as [[s1 ch1] t1] eqn:D.
    unfold queued in *. cbn [o_sent o_chain]. rewrite (healthy_loop _ _ _ _ _ _ _ Hh D), <- Ec. exact H.
Qed.

Lemma nothing_lost es : healthy (sends es) ->
  exists o, out_run es out_new = Some o /\ o_sent o ++ queued o = replies es.
Proof.
  intros Hh.
  assert (G : forall es o done, healthy (sends es) -> out_inv (sends es) done o -> o_sent o ++ queued o = done ->
     exists o', out_run es o = Some o' /\ o_sent o' ++ queued o' = done ++ replies es).
  { clear. induction es as [|e es IH]; intros o done Hh Hi H.
    - exists o. split; [reflexivity|]. unfold replies. cbn [map concat]. rewrite app_nil_r. exact H.
    - unfold sends in *. cbn [map concat] in *. pose proof Hh as Hh0.
      unfold healthy in Hh. rewrite Forall_app in Hh. destruct Hh as [Ha Hb].
      destruct (out_step_ok e o (sends es) done (healthy_dies _ Hh0) Hi) as (o1 & E1 & I1).
      destruct (IH o1 (done ++ reply_of e)) as (o2 & E2 & I2); [exact Hb|exact I1| |].
      + eapply healthy_step; eauto. apply Hi.
      + exists o2. cbn [out_run]. rewrite E1. split; [exact E2|].
        unfold replies in *. cbn [map concat]. rewrite app_assoc. exact I2. }
  apply (G es out_new []); auto using out_new_inv.
Qed.

(* a socket that takes everything empties the queue *)
Lemma send_all os : forall n rest sent, blen rest <= n -> (exists os', os = Accepted n :: os') ->
  exists os1, send_response os rest sent = (sent ++ rest, [], false, os1) /\ (os1 = os \/ os = Accepted n :: os1).
Proof.
  intros n rest sent Hn (os' & ->). destruct rest as [|b rest]; cbn [send_response].
  - rewrite app_nil_r. eauto.
  - set (k := N.max 1 (N.min n (blen (b :: rest)))).
    assert (K : k = blen (b :: rest)). { unfold k. rewrite blen_length in *. cbn [length] in *. lia. }
    rewrite K, blen_nlen. rewrite nskip_all, nfirst_all by lia.
    exists os'. split; [|auto]. destruct os'; reflexivity.
Qed.

Lemma drain_loop chain : forall k n sent tail, (length chain <= k)%nat -> Forall (fun r => blen (r_rest r) <= n) chain ->
  exists tail', delayed_loop (repeat (Accepted n) k) chain sent tail = (sent ++ concat (map r_rest chain), [], tail').
Proof.
  induction chain as [|r chain IH]; intros k n sent tail Hk Hf; cbn [delayed_loop map concat].
  - rewrite app_nil_r. eauto.
  - destruct k as [|k]; [cbn [length] in Hk; lia|]. cbn [repeat].
    destruct (send_all (Accepted n :: repeat (Accepted n) k) n (r_rest r) sent (Forall_inv Hf)) as (os1 & E & O); [eauto|].
    rewrite E. cbn [length] in Hk. destruct O as [->|O].
    + destruct (IH (S k) n (sent ++ r_rest r) (match chain with [] => None | _ => tail end)) as (t' & T); [lia|exact (Forall_inv_tail Hf)|].
      cbn [repeat] in T. exists t'. rewrite app_assoc. exact T.
    + inversion O; subst os1.
      destruct (IH k n (sent ++ r_rest r) (match chain with [] => None | _ => tail end)) as (t' & T); [lia|exact (Forall_inv_tail Hf)|].
      exists t'. rewrite app_assoc. exact T.
Qed.

Lemma drained o n : Forall (fun r => blen (r_rest r) <= n) (o_chain o) ->
  let o' := delayed_write (repeat (Accepted n) (length (o_chain o))) o in
  queued o' = [] /\ o_sent o' = o_sent o ++ queued o.
Proof.
  intros Hf. cbn zeta. unfold delayed_write, queued. destruct (o_chain o) as [|c cs] eqn:E.
  - rewrite E. cbn [map concat]. rewrite app_nil_r. auto.
  - destruct (drain_loop (c :: cs) (length (c :: cs)) n (o_sent o) (o_tail o)) as (t' & T); [lia|exact Hf|].
    rewrite T. cbn [o_chain o_sent]. auto.
Qed.
