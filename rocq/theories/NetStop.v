(* PROOFS.  When the event loop ends. *)
From Coq Require Import Strings.String Strings.Byte List NArith ZArith Bool Lia ZifyBool ZifyN ZifyNat.
From Verif Require Import Bytes BytesFacts Layout Text TextFacts Store Commands Dispatch Namespace Resp RespSpec RespFacts ReplyQueue ReplyFacts Server AuthFacts
  Net SpecNet NetFacts NetDefined NetClose.
Import ListNotations.
Open Scope N_scope.
Local Notation length := List.length.

Lemma handle_stop g v fd cl i r c argv w rep w' : handle g v fd cl i r c argv w = Done rep SHUTDOWN w' ->
  c = CStop /\ v_release g = false /\ rep = str "+Stopping" ++ CRLF.
Proof.
  intros H. destruct c; unfold handle in H; try discriminate; try (unfold told in H; destr_res H; discriminate);
    try (unfold on_ns in H; destr_res H; discriminate).
  all: try (unfold command_wait in H; destr_res H; discriminate).
  all: try (unfold command_auth in H; destr_res H; discriminate).
  all: try (unfold command_nsnew in H; destr_res H; discriminate).
  all: try (unfold command_nsdel in H; destr_res H; discriminate).
  all: try (unfold command_nsset in H; destr_res H; discriminate).
  all: try (unfold command_select in H; destr_res H; discriminate).
  all: try (unfold command_reload in H; destr_res H; discriminate).
  all: try (unfold command_flush in H; destr_res H; discriminate).
  all: try (destr_res H; discriminate).
  destruct (v_release g); [discriminate|]. injection H as <- _. auto.
Qed.

Lemma request_stop g v fd argv w out w' : Server.request g v fd argv w = SDone out SHUTDOWN w' ->
  v_release g = false /\ exists cl h more, client_at fd w = Some cl /\ lookup_handler (arg 0 (effective cl argv)) = Some (h, CStop) /\
    out = (fd, str "+Stopping" ++ CRLF) :: more.
Proof.
  unfold Server.request, effective. intros H. destruct (client_at fd w) as [cl|]; [|discriminate].
  assert (R : forall a, match dispatch g v fd cl a w with
        | Undef => SUndef
        | Done rep st w1 => match posthandler v fd a w1 with None => SUndef | Some (out, w2) => SDone ((fd, rep) :: out) st w2 end
        end = SDone out SHUTDOWN w' -> v_release g = false /\ exists h more, lookup_handler (arg 0 a) = Some (h, CStop) /\
    out = (fd, str "+Stopping" ++ CRLF) :: more).
  { intros a X. destruct (dispatch g v fd cl a w) as [rep st1 w1|] eqn:D; [|discriminate].
    destruct (posthandler v fd a w1) as [[o w2]|]; [|discriminate]. injection X as <- -> _.
    unfold dispatch in D. destruct (c_ns cl) eqn:En; [|discriminate].
    destruct (slot n w); [|discriminate]. destruct (lookup_handler (arg 0 a)) as [[h c]|]; [|discriminate].
    apply handle_stop in D. destruct D as (-> & Hr & ->). split; [exact Hr|]. exists h, o. auto. }
  destruct (c_master cl) eqn:Em.
  - destruct (32 <? _); [discriminate|]. destruct (_ <=? 1); [discriminate|]. destruct (R _ H) as (A & h & m & B & C).
    split; [exact A|]. exists cl, h, m. rewrite Em. auto.
  - destruct (R _ H) as (A & h & m & B & C). split; [exact A|]. exists cl, h, m. rewrite Em. auto.
Qed.

Lemma front_stop p : snd (fst (parse_front p)) <> SHUTDOWN.
Proof.
  assert (A : forall q, snd (handle_empty q) <> SHUTDOWN).
  { intros q. unfold handle_empty, resp_error. repeat match goal with |- context [match ?a with _ => _ end] => destruct a end; cbn [snd]; discriminate. }
  assert (B : forall q, snd (handle_header q) <> SHUTDOWN).
  { intros q. unfold handle_header, resp_error. repeat match goal with |- context [match ?a with _ => _ end] => destruct a end; cbn [snd]; discriminate. }
  assert (C : forall q, snd (handle_payload q) <> SHUTDOWN).
  { intros q. unfold handle_payload. repeat match goal with |- context [match ?a with _ => _ end] => destruct a end; cbn [snd]; discriminate. }
  unfold parse_front.
  destruct (q_state p) eqn:Sp.
  - specialize (A p). destruct (handle_empty p) as [p1 v1]. cbn [snd] in A.
    destruct v1; cbn [fst snd]; try congruence; try discriminate.
    destruct (q_state p1) eqn:S1.
    + rewrite S1. discriminate.
    + specialize (B p1). destruct (handle_header p1) as [p2 v2]. cbn [snd] in B.
      destruct v2; cbn [fst snd]; try congruence; try discriminate.
      destruct (q_state p2); try discriminate. specialize (C p2). destruct (handle_payload p2) as [p3 v3]. cbn [snd] in C.
      destruct v3; cbn [fst snd]; congruence.
    + rewrite S1. specialize (C p1). destruct (handle_payload p1) as [p3 v3]. cbn [snd] in C.
      destruct v3; cbn [fst snd]; congruence.
  - rewrite Sp. specialize (B p). destruct (handle_header p) as [p2 v2]. cbn [snd] in B.
    destruct v2; cbn [fst snd]; try congruence; try discriminate.
    destruct (q_state p2); try discriminate. specialize (C p2). destruct (handle_payload p2) as [p3 v3]. cbn [snd] in C.
    destruct v3; cbn [fst snd]; congruence.
  - rewrite Sp, Sp. specialize (C p). destruct (handle_payload p) as [p3 v3]. cbn [snd] in C.
    destruct v3; cbn [fst snd]; congruence.
Qed.

Lemma returned_stop v st : returned v st = SHUTDOWN -> st = SHUTDOWN.
Proof. unfold returned. destruct st; try discriminate; try reflexivity. destruct (v_one v); discriminate. Qed.

Section Stops.
Variable g : server.
Variable fd : N.
Variable x : N -> env * (N -> how).
Variable y : N -> how.

Definition stops (w w' : world) : Prop := exists ext ms w1 k argv out,
  Forall (of_read fd x) ext /\ run_sevents g ext w = Some (ms, w1) /\ Server.request g (fst (x k)) fd argv w1 = SDone out SHUTDOWN w'.

Lemma loop_stops w0 fuel : forall k p v w outs k' p' v' w' outs',
  runs g fd x w0 w -> (v = SHUTDOWN -> stops w0 w) ->
  net_loop g fd x y fuel k p v w outs = Some (k', p', v', w', outs') ->
  runs g fd x w0 w' /\ (v' = SHUTDOWN -> stops w0 w').
Proof.
  induction fuel as [|fuel IH]; intros k p v w outs k' p' v' w' outs' Rn Hv E; cbn [net_loop] in E.
  all: destruct (b_data p) as [|b0 d0].
  1,3: injection E as <- <- <- <- <-; auto.
  { discriminate. }
  pose proof (front_stop p) as FS.
  destruct (parse_front p) as [[p1 v1] stop] eqn:Ef. cbn [fst snd] in FS.
  destruct (send_errors _ _ _ _ _) as [outs1|]; [|discriminate].
  destruct stop; [injection E as <- <- <- <- <-; split; [exact Rn|contradiction]|].
  destruct (q_fillin p1 =? q_argc p1)%Z eqn:Ec.
  - unfold finish in E. destruct (args (q_argv p1)) as [argv|]; [|discriminate].
    destruct (Server.request g (fst (x k)) fd argv w) as [out st w2|] eqn:Er; [|discriminate].
    destruct (send_all _ _ _ _) as [outs2|]; [|discriminate].
    eapply IH; [| |exact E].
    + eapply runs_snoc; eassumption.
    + intros Hs. apply returned_stop in Hs. subst st. destruct Rn as (ext & ms & F & Rr). exists ext, ms, w, k, argv, out. auto.
  - eapply IH; [exact Rn| |exact E]. contradiction.
Qed.

Lemma chunk_stops e w0 cuts : forall k sock p v w outs p' sock' v' w' outs',
  runs g fd x w0 w -> (v = SHUTDOWN -> stops w0 w) ->
  net_chunk g fd x y cuts e k sock p v w outs = Some (p', sock', v', w', outs') -> v' = SHUTDOWN -> stops w0 w'.
Proof.
  induction cuts as [|n cuts IH]; intros k sock p v w outs p' sock' v' w' outs' Rn Hv E; cbn [net_chunk] in E;
    (destruct (b_remain p =? 0); [injection E as <- <- <- <- <-; discriminate|]).
  - injection E as <- <- <- <- <-. destruct e; [exact Hv|discriminate|discriminate].
  - destruct sock as [|s0 sock0]; [injection E as <- <- <- <- <-; destruct e; [exact Hv|discriminate|discriminate]|].
    destruct (recv n (s0 :: sock0) p) as [p1 sock1].
    destruct (net_loop g fd x y (loop_fuel p1) k p1 v w outs) as [[[[[k2 p2] v2] w2] outs2]|] eqn:El; [|discriminate].
    destruct (loop_stops w0 _ _ _ _ _ _ _ _ _ _ _ Rn Hv El) as (L2 & L3).
    destruct v2; try discriminate; try (injection E as <- <- <- <- <-; exact L3); (eapply IH; [exact L2|exact L3|exact E]).
Qed.
End Stops.

Lemma stopped_why g ev n n' : net_step g ev n = Some n' -> e_up n' = false ->
  v_release g = false /\ exists fd cuts e x y es ms w k argv cl h more,
    ev = NRead fd cuts e x y /\ Forall (of_read fd x) es /\ run_sevents g es (e_world n) = Some (ms, w) /\
    client_at fd w = Some cl /\ lookup_handler (arg 0 (effective cl argv)) = Some (h, CStop) /\
    run_sevent g (SRequest fd (fst (x k)) argv) w = SDone ((fd, str "+Stopping" ++ CRLF) :: more) SHUTDOWN (e_world n').
Proof.
  intros E U. unfold net_step in E. destruct (e_up n) eqn:Up; [|discriminate]. cbn [negb] in E.
  assert (NC : forall f m m', net_close f m = Some m' -> e_up m' = e_up m).
  { intros f m m' X. unfold net_close in X. destruct (close f (e_world m)); [|discriminate]. injection X as <-. reflexivity. }
  destruct ev as [fd|fd b|fd cuts e x y|fd os|fd|now old hws].
  - destruct (connect g fd (e_world n)); [|discriminate]. injection E as <-. discriminate.
  - destruct (e_in n fd) as [[p s]|]; injection E as <-; cbn [e_up] in U; congruence.
  - destruct (e_in n fd) as [[p sock]|]; [|injection E as <-; congruence].
    destruct (net_chunk g fd x y cuts e 0 sock p SUCCESS (e_world n) (e_out n)) as [[[[[p' sock'] v] w'] outs']|] eqn:Ec; [|discriminate].
    cbv zeta in E. destruct v; try discriminate; try (apply NC in E; cbn [e_up] in E; congruence);
      try (injection E as <-; discriminate U).
    injection E as <-. cbn [e_world].
    destruct (chunk_stops g fd x y e (e_world n) cuts _ _ _ _ _ _ _ _ _ _ _ (runs_refl g fd x (e_world n)) (fun H : SUCCESS = SHUTDOWN => ltac:(discriminate H)) Ec eq_refl)
      as (es & ms & w & k & argv & out & F & R & Q).
    destruct (request_stop _ _ _ _ _ _ _ Q) as (A & cl & h & more & B & C & ->).
    split; [exact A|]. exists fd, cuts, e, x, y, es, ms, w, k, argv, cl, h, more. auto 10.
  - destruct (e_out n fd); injection E as <-; cbn [e_up] in U; congruence.
  - destruct (e_in n fd); [apply NC in E; congruence|injection E as <-; congruence].
  - destruct (idle g now old (e_world n)); [|discriminate]. destruct (send_all _ _ _ _); [|discriminate]. injection E as <-. discriminate.
Qed.
