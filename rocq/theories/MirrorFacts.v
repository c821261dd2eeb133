(* PROOFS for C58 (SpecMirror.v) and for the start of WAIT (C38). *)
From Coq Require Import Strings.String Strings.Byte List NArith ZArith Bool Lia ZifyBool ZifyN ZifyNat.
From Verif Require Import Bytes BytesFacts Layout Store Text TextFacts Commands Sha1 Dispatch Namespace System Resp Server
  SpecAuth AuthFacts WaitFacts SpecMirror.
Import ListNotations.
Open Scope N_scope.
Local Notation length := List.length.

Lemma word_bulk b : word b = bulk b.
Proof. unfold word, bulk, number. rewrite blen_length. rewrite <- !app_assoc. reflexivity. Qed.

Lemma encode_message v name a : encode (mkTell (v_sec v) name (v_owner v) a) = mirror_message v name a.
Proof.
  unfold encode, mirror_message, intreply, arrayhdr. cbn [t_words t_time t_ns t_owner]. rewrite word_bulk, nlen_length.
  unfold number. do 4 f_equal. rewrite !(map_ext _ _ word_bulk). reflexivity.
Qed.

Lemma mirror_sent v argv w fd cl h l : forall k out l', posthandle v argv w fd cl h k l = Some (out, l') -> forall j ck, j <> fd ->
  at_off j k l = Some ck -> c_mirror ck = true ->
  at_off j k l' = Some ck /\
  if v_owner v =? 0 then sent j out = []
  else match c_ns cl with
       | None => False
       | Some i => exists r, slot i w = Some r /\ sent j out = [mirror_message v (n_name (r_cfg r)) argv]
       end.
Proof.
  assert (Before : forall l k out l', posthandle v argv w fd cl h k l = Some (out, l') -> forall j, j < k -> sent j out = []).
  { intros ls. induction ls as [|o ls IH]; intros k out l' H j J; cbn [posthandle] in H; [injection H as <- <-; reflexivity|].
    destruct (posthandle v argv w fd cl h (k + 1) ls) as [[o1 t1]|] eqn:E; [|discriminate]. specialize (IH (k + 1) o1 t1 E j ltac:(lia)).
    destruct o as [c|]; [|injection H as <- <-; exact IH].
    repeat match type of H with
    | (if ?b then _ else _) = _ => destruct b
    | match ?x with Some _ => _ | None => _ end = _ => destruct x
    | None = Some _ => discriminate H
    | Some _ = Some _ => injection H as <- <-
    end; try exact IH; rewrite sent_cons_other by lia; exact IH. }
  induction l as [|o l IH]; intros k out l' H j ck NE At M; cbn [posthandle] in H.
  { unfold at_off in At. destruct (k <=? j); [unfold oget in At; cbn [nget] in At|]; discriminate. }
  destruct (posthandle v argv w fd cl h (k + 1) l) as [[o1 t1]|] eqn:E; [|discriminate].
  rewrite at_off_cons in At. destruct (N.eqb_spec j k) as [->|Nk].
  - subst o. replace (k =? fd) with false in H by lia. rewrite M in H. pose proof (Before l (k + 1) o1 t1 E k ltac:(lia)) as B.
    destruct (v_owner v =? 0).
    + injection H as <- <-. rewrite at_off_cons, N.eqb_refl. auto.
    + destruct (c_ns cl) as [i|]; [|discriminate]. destruct (slot i w) as [r|]; [|discriminate]. injection H as <- <-.
      rewrite at_off_cons, N.eqb_refl, sent_cons_same, B. split; [reflexivity|]. exists r. auto.
  - specialize (IH (k + 1) o1 t1 E j ck NE At M).
    assert (R : exists o' p, l' = o' :: t1 /\ out = p ++ o1 /\ (p = [] \/ exists m, p = [(k, m)])).
    { destruct o as [c|]; [|injection H as <- <-; eexists _, []; auto].
      repeat match type of H with
      | (if ?b then _ else _) = _ => destruct b
      | match ?x with Some _ => _ | None => _ end = _ => destruct x
      | None = Some _ => discriminate H
      | Some _ = Some _ => injection H as <- <-
      end; first [eexists _, []; split; [reflexivity|]; split; [reflexivity|left; reflexivity]
        |eexists _, [_]; split; [reflexivity|]; split; [reflexivity|right; eexists; reflexivity]]. }
    destruct R as (o' & p & -> & -> & P). rewrite at_off_cons. replace (j =? k) with false by lia.
    assert (Se : sent j (p ++ o1) = sent j o1) by (destruct P as [->|(m & ->)]; [reflexivity|]; cbn [app]; apply sent_cons_other; lia).
    rewrite Se. exact IH.
Qed.

(* the command recorded by the dispatcher *)
Lemma dispatch_exec g v fd cl argv w rep st w1 cl1 i : client_at fd w = Some cl -> dispatch g v fd cl argv w = Done rep st w1 ->
  client_at fd w1 = Some cl1 -> c_ns cl = Some i ->
  c_exec cl1 = match lookup_handler (arg 0 argv) with Some (h, _) => Some h | None => None end.
Proof.
  intros Hcl D Hcl1 Nn. apply dispatch_inv in D. destruct D as [(X & _)|(i1 & r & _ & _ & D)]; [congruence|].
  destruct D as [(Lk & -> & _)|(h & c & Lk & D)].
  - rewrite (client_put_same _ _ cl) in Hcl1 by exact Hcl. injection Hcl1 as <-. rewrite Lk. reflexivity.
  - rewrite Lk. set (cx := c_set_exec (Some h) cl) in *.
    assert (H0 : client_at fd (put_client fd cx w) = Some cx) by (apply (client_put_same _ _ cl); exact Hcl).
    apply handle_sessions in D. destruct D as [E|[(_ & j & r' & _ & _ & E & _)|(cl' & E & Ch)]].
    + rewrite client_oget, E in Hcl1. change (client_at fd (put_client fd cx w) = Some cl1) in Hcl1. rewrite H0 in Hcl1.
      injection Hcl1 as <-. reflexivity.
    + rewrite client_oget, E, detach_at in Hcl1. change (detach_client j (client_at fd (put_client fd cx w)) = Some cl1) in Hcl1.
      rewrite H0 in Hcl1. cbn [detach_client] in Hcl1. destruct (c_ns cx); [destruct (_ =? _)|]; injection Hcl1 as <-; reflexivity.
    + subst w1. rewrite (client_put_same _ _ cx) in Hcl1 by exact H0. injection Hcl1 as <-.
      destruct c; cbn [session_change] in Ch; try contradiction.
      * destruct Ch as (? & ? & ->). reflexivity.
      * destruct Ch as (_ & ->). reflexivity.
      * destruct Ch as (_ & ->). reflexivity.
      * destruct Ch as [(? & _ & -> & _)|[(-> & _)|[(? & _ & -> & _)| ->]]]; reflexivity.
      * destruct Ch as (? & ? & ? & -> & _). reflexivity.
Qed.

Lemma request_taken g v fd argv w out st w' cl : client_at fd w = Some cl -> request g v fd argv w = SDone out st w' ->
  match taken cl argv with
  | None => out = [] /\ w' = w
  | Some a => exists rep w1 out1, dispatch g v fd cl a w = Done rep st w1 /\ posthandler v fd a w1 = Some (out1, w') /\ out = (fd, rep) :: out1
  end.
Proof.
  intros Hc R. unfold request in R. rewrite Hc in R. unfold taken. destruct (c_master cl).
  - destruct (32 <? _); [injection R as <- <- <-; auto|]. destruct (nlen argv <=? 1); [discriminate|].
    destruct (dispatch _ _ _ _ _ _) as [rep st1 w1|]; [|discriminate]. destruct (posthandler _ _ _ _) as [[o w2]|] eqn:P; [|discriminate].
    injection R as <- <- <-. eauto 8.
  - destruct (dispatch _ _ _ _ _ _) as [rep st1 w1|]; [|discriminate]. destruct (posthandler _ _ _ _) as [[o w2]|] eqn:P; [|discriminate].
    injection R as <- <- <-. eauto 8.
Qed.

Lemma mirror_request g v fd argv w out st w' k ck : request g v fd argv w = SDone out st w' -> k <> fd ->
  client_at k w = Some ck -> c_mirror ck = true ->
  exists l ck', told_of v fd argv w w' = Some l /\ sent k out = map encode l /\
    client_at k w' = Some ck' /\ c_mirror ck' = true /\ (c_watch ck = None -> c_watch ck' = None).
Proof.
  intros R NE Hk M. pose proof R as R0. apply request_inv in R0. destruct R0 as (cl & Hcl & _).
  pose proof (request_taken _ _ _ _ _ _ _ _ _ Hcl R) as T. unfold told_of. rewrite Hcl.
  destruct (taken cl argv) as [a|]; [|destruct T as (-> & ->); exists [], ck; repeat split; auto].
  destruct T as (rep & w1 & out1 & D & P & ->).
  destruct (dispatch_keeps _ _ _ _ _ _ _ _ _ _ _ Hcl D Hk) as (ck1 & Hk1 & Keep). destruct (Keep NE) as (Kw & _ & _ & Km & _). clear Keep.
  destruct (dispatch_keeps _ _ _ _ _ _ _ _ _ _ _ Hcl D Hcl) as (cl1 & Hcl1 & _).
  rewrite sent_cons_other by lia. unfold posthandler in P. rewrite Hcl1 in P.
  assert (Ex : forall i, c_ns cl = Some i -> c_exec cl1 = match lookup_handler (arg 0 a) with Some (h, _) => Some h | None => None end)
    by (intros i; apply (dispatch_exec _ _ _ _ _ _ _ _ _ _ _ Hcl D Hcl1)).
  destruct (c_exec cl1) as [h|] eqn:Eh.
  - destruct (posthandle v a w1 fd cl1 h 0 (w_clients w1)) as [[o l]|] eqn:Ph; [|discriminate]. injection P as <- <-.
    rewrite <- at_off_0 in Hk1 || rewrite client_oget, <- at_off_0 in Hk1.
    destruct (mirror_sent _ _ _ _ _ _ _ _ _ _ Ph k ck1 NE Hk1 ltac:(congruence)) as (A & B). rewrite at_off_0 in A.
    assert (W : client_at k (mkWorld (w_tb w1) (w_slots w1) (w_eff w1) l) = Some ck1) by exact A.
    pose proof (posthandle_sessions _ _ _ _ _ _ _ _ _ _ Ph) as Ss. destruct (same_sessions_at _ _ fd cl1 Ss Hcl1) as (cl2 & Hcl2 & Same2).
    assert (Ns : ns_of fd (mkWorld (w_tb w1) (w_slots w1) (w_eff w1) l) = match c_ns cl1 with Some i => option_map (fun r => n_name (r_cfg r)) (slot i w1) | None => None end).
    { unfold ns_of. rewrite client_oget. cbn [w_clients]. rewrite Hcl2, (proj1 Same2). reflexivity. }
    rewrite Ns. destruct (v_owner v =? 0).
    + exists [], ck1. rewrite B. repeat split; auto; congruence.
    + destruct (c_ns cl1) as [i|] eqn:En; [|contradiction]. destruct B as (r & Sl & B). rewrite Sl. cbn [option_map].
      destruct (c_ns cl) as [i0|] eqn:En0.
      * specialize (Ex i0 eq_refl). destruct (lookup_handler (arg 0 a)) as [[h0 c0]|]; [|discriminate].
        exists [mkTell (v_sec v) (n_name (r_cfg r)) (v_owner v) a], ck1. cbn [map]. rewrite encode_message, B. repeat split; auto; congruence.
      * exfalso. unfold dispatch in D. rewrite En0 in D. injection D as _ _ E1. subst w1. congruence.
  - injection P as <- <-. exists [], ck1. split; [|repeat split; auto; congruence].
    destruct (v_owner v =? 0); [reflexivity|]. destruct (c_ns cl) as [i|]; [|reflexivity]. specialize (Ex i eq_refl).
    destruct (lookup_handler (arg 0 a)) as [[h0 c0]|]; [discriminate|reflexivity].
Qed.

Lemma mirror_run g k es : forall w outs w' ck, run_sevents g es w = Some (outs, w') -> (forall e, In e es -> foreign k e) ->
  client_at k w = Some ck -> c_mirror ck = true -> c_watch ck = None ->
  exists l, feed g es w = Some l /\ sent k (concat outs) = map encode l.
Proof.
  induction es as [|e es IH]; intros w outs w' ck R F Hk M W; cbn [run_sevents feed] in *.
  { injection R as <- <-. exists []. auto. }
  destruct (run_sevent g e w) as [out st w1|] eqn:E; [|discriminate].
  destruct (run_sevents g es w1) as [[o w2]|] eqn:E2; [|discriminate]. injection R as <- <-.
  assert (S : exists l ck', match e with SRequest fd v argv => told_of v fd argv w w1 | _ => Some [] end = Some l /\ sent k out = map encode l /\
    client_at k w1 = Some ck' /\ c_mirror ck' = true /\ c_watch ck' = None).
  { pose proof (F e (or_introl eq_refl)) as Fe. destruct e as [fd|fd|fd v argv|now old|ord]; cbn [run_sevent foreign] in *.
    - unfold connect in E. destruct (client_at fd w) eqn:Ef; [discriminate|]. injection E as <- <- <-. exists [], ck.
      split; [reflexivity|]. split; [reflexivity|]. split; [|auto]. rewrite client_oget in *. cbn [w_clients]. rewrite nset_oget_other by congruence. apply grow_at. exact Hk.
    - unfold close in E. injection E as <- <- <-. exists [], ck. split; [reflexivity|]. split; [reflexivity|]. split; [|auto]. rewrite client_oget in *. cbn [w_clients].
      rewrite nset_oget_other by congruence. exact Hk.
    - destruct (mirror_request _ _ _ _ _ _ _ _ k ck E ltac:(congruence) Hk M) as (l & ck' & A & B & C & D & G). exists l, ck'. repeat (split; [assumption|]). exact (G W).
    - destruct (idle_wait _ _ _ _ _ _ _ k ck E Hk) as (ck' & A & B & C). rewrite W in C. destruct C as (C1 & C2). exists [], ck'.
      split; [reflexivity|]. split; [exact C1|]. split; [exact A|]. split; [congruence|exact C2].
    - contradiction. }
  destruct S as (l & ck' & -> & S2 & H1 & M1 & W1). destruct (IH w1 o w2 ck' E2 (fun e0 H0 => F e0 (or_intror H0)) H1 M1 W1) as (l2 & -> & S3).
  exists (l ++ l2). split; [reflexivity|]. rewrite map_app, <- S2, <- S3. cbn [concat]. unfold sent. rewrite filter_app, map_app. reflexivity.
Qed.

(* ---- the feed can be read back ---- *)

Lemma digits_split l : forall l' r r', forallb is_digit l = true -> forallb is_digit l' = true -> l ++ x0d :: r = l' ++ x0d :: r' -> l = l' /\ r = r'.
Proof.
  induction l as [|b l IH]; intros [|b' l'] r r' H H' E; cbn [app forallb] in *.
  - injection E as E. auto.
  - injection E as E1 E2. subst b'. apply andb_true_iff in H'. destruct H' as (X & _). discriminate X.
  - injection E as E1 E2. subst b. apply andb_true_iff in H. destruct H as (X & _). discriminate X.
  - injection E as E1 E2. subst b'. apply andb_true_iff in H, H'. destruct (IH l' r r' (proj2 H) (proj2 H') E2) as (-> & ->). auto.
Qed.

Lemma number_inj c n n' r r' : number c n ++ r = number c n' ++ r' -> n = n' /\ r = r'.
Proof.
  unfold number. rewrite <- !app_assoc. intros E. apply app_inv_head in E.
  destruct (digits_split _ _ _ _ (dec_all n) (dec_all n') E) as (D & T). injection T as T. split; [|exact T].
  rewrite <- (parse_dec n), <- (parse_dec n'), D. reflexivity.
Qed.

Lemma word_inj b b' r r' : word b ++ r = word b' ++ r' -> b = b' /\ r = r'.
Proof.
  unfold word. rewrite <- !app_assoc. intros E. apply number_inj in E. destruct E as (L & E).
  assert (b = b' /\ [x0d; x0a] ++ r = [x0d; x0a] ++ r') as (-> & E').
  { assert (L' : length b = length b') by lia. clear L. revert b' L' E. induction b as [|x b IH]; intros [|x' b'] L' E; try discriminate L'; [auto|].
    cbn [app] in E. injection E as -> E. injection L' as L'. destruct (IH b' L' E) as (-> & ?). auto. }
  injection E' as E'. auto.
Qed.

Lemma words_inj l : forall l' r r', length l = length l' -> concat (map word l) ++ r = concat (map word l') ++ r' -> l = l' /\ r = r'.
Proof.
  induction l as [|b l IH]; intros [|b' l'] r r' L E; try discriminate L; cbn [map concat] in E; [auto|].
  rewrite <- !app_assoc in E. apply word_inj in E. destruct E as (-> & E). destruct (IH l' r r' ltac:(cbn in L; lia) E) as (-> & ->). auto.
Qed.

Lemma encode_inj m m' r r' : encode m ++ r = encode m' ++ r' -> m = m' /\ r = r'.
Proof.
  destruct m as [t n o ws], m' as [t' n' o' ws']. unfold encode. cbn [t_words t_time t_ns t_owner]. rewrite <- !app_assoc. intros E.
  apply number_inj in E. destruct E as (L & E). apply number_inj in E. destruct E as (-> & E). apply word_inj in E. destruct E as (-> & E).
  apply number_inj in E. destruct E as (-> & E). destruct (words_inj ws ws' r r' ltac:(lia) E) as (-> & ->). auto.
Qed.

Lemma encode_nonempty m : encode m <> [].
Proof. unfold encode, number. discriminate. Qed.

Lemma feed_readable l : forall l', concat (map encode l) = concat (map encode l') -> l = l'.
Proof.
  induction l as [|m l IH]; intros [|m' l'] E; cbn [map concat] in E; [reflexivity| | |].
  - destruct (encode m') eqn:X; [destruct (encode_nonempty m' X)|discriminate E].
  - destruct (encode m) eqn:X; [destruct (encode_nonempty m X)|discriminate E].
  - apply encode_inj in E. destruct E as (-> & E). f_equal. apply IH. exact E.
Qed.

(* ---- the start of WAIT ---- *)

Lemma dec_digits_short fuel : forall n acc k, (n < 10 ^ N.of_nat (S k)) -> (length (dec_digits fuel n acc) <= S k + length acc)%nat.
Proof.
  induction fuel as [|f IH]; intros n acc k H; cbn [dec_digits]; [lia|]. destruct (N.ltb_spec n 10); [cbn [List.length]; lia|].
  destruct k as [|k]; [cbn in H; lia|]. assert (n / 10 < 10 ^ N.of_nat (S k)).
  { apply N.div_lt_upper_bound; [lia|]. rewrite <- N.pow_succ_r'. replace (N.succ (N.of_nat (S k))) with (N.of_nat (S (S k))) by lia. exact H. }
  specialize (IH (n / 10) (digit (n mod 10) :: acc) k ltac:(assumption)). cbn [List.length] in *. lia.
Qed.

Lemma strtoull_dec n : strtoull (cstr (dec n)) = N.min 18446744073709551615 n.
Proof.
  rewrite cstr_digits by apply dec_all. pose proof (dec_all n) as D. pose proof (dec_nonempty n) as E. pose proof (parse_dec n) as P.
  destruct (dec n) as [|b l]; [congruence|]. unfold strtoull. cbn [skip_space].
  pose proof D as H'. cbn [forallb] in H'. apply andb_true_iff in H'. destruct H' as [Hb _]. unfold is_digit in Hb.
  assert (Hs : is_space b = false) by (unfold is_space; lia). rewrite Hs.
  destruct (N.eqb_spec (b2n b) 45); [lia|]. destruct (N.eqb_spec (b2n b) 43); [lia|]. rewrite P. reflexivity.
Qed.

Lemma post_self v fd argv w out w' cl : client_at fd w = Some cl -> posthandler v fd argv w = Some (out, w') -> client_at fd w' = Some cl /\ sent fd out = [].
Proof.
  intros H P. unfold posthandler in P. rewrite H in P. destruct (c_exec cl) as [h|]; [|injection P as <- <-; auto].
  destruct (posthandle v argv w fd cl h 0 (w_clients w)) as [[o l]|] eqn:Ph; [|discriminate]. injection P as <- <-.
  rewrite client_oget in *. cbn [w_clients]. rewrite <- at_off_0 in *. revert H Ph. generalize 0 as k. generalize (w_clients w) as ls. clear.
  intros ls k. revert o l. revert k. induction ls as [|c ls IH]; intros k o l At H; cbn [posthandle] in H.
  { injection H as <- <-. auto. }
  destruct (posthandle v argv w fd cl h (k + 1) ls) as [[o1 t1]|] eqn:E; [|discriminate]. rewrite at_off_cons in At.
  destruct (N.eqb_spec fd k) as [->|Nk].
  - subst c. rewrite N.eqb_refl in H. injection H as <- <-. rewrite at_off_cons, N.eqb_refl. split; [reflexivity|].
    pose proof (posthandle_sent v argv w k cl h ls (k + 1) o1 t1 E) as _. revert E. clear.
    assert (G : forall ls j o1 t1, k < j -> posthandle v argv w k cl h j ls = Some (o1, t1) -> sent k o1 = []); [|intros E; apply (G ls (k + 1) o1 t1); [lia|exact E]].
    induction ls0 as [|c ls0 IH]; intros j o1' t1' J H; cbn [posthandle] in H; [injection H as <- <-; reflexivity|].
    destruct (posthandle v argv w k cl h (j + 1) ls0) as [[o2 t2]|] eqn:E; [|discriminate]. specialize (IH (j + 1) o2 t2 ltac:(lia) E).
    destruct c as [c|]; [|injection H as <- <-; exact IH].
    repeat match type of H with
    | (if ?b then _ else _) = _ => destruct b
    | match ?x with Some _ => _ | None => _ end = _ => destruct x
    | None = Some _ => discriminate H
    | Some _ = Some _ => injection H as <- <-
    end; try exact IH; rewrite sent_cons_other by lia; exact IH.
  - destruct (IH (k + 1) o1 t1 At E) as (A & B).
    destruct c as [c|]; [|injection H as <- <-; rewrite at_off_cons; replace (fd =? k) with false by lia; auto].
    repeat match type of H with
    | (if ?b then _ else _) = _ => destruct b
    | match ?x with Some _ => _ | None => _ end = _ => destruct x
    | None = Some _ => discriminate H
    | Some _ = Some _ => injection H as <- <-
    end; rewrite at_off_cons; (replace (fd =? k) with false by lia); rewrite ?sent_cons_other by lia; auto.
Qed.

Lemma wait_started g v fd x y rest w out st w' cl i h hy cy : request g v fd (x :: y :: rest) w = SDone out st w' ->
  client_at fd w = Some cl -> c_master cl = false -> c_ns cl = Some i -> lookup_handler x = Some (h, CWait) -> lookup_handler y = Some (hy, cy) ->
  exists cl', client_at fd w' = Some cl' /\
    let started t := sent fd out = [[]] /\ c_watch cl' = Some hy /\ c_since cl' = (v_sec v, v_usec v) /\ c_timeout cl' = t in
    let refused m := sent fd out = [m] /\ waiting_as cl cl' in
    (rest = [] -> started 5000) /\
    (forall n, rest = [dec n] -> 100 <= n <= 1800000 -> started n) /\
    (forall n, rest = [dec n] -> n < 100 \/ 1800000 < n -> refused (hardsend "-Invalid timeout")) /\
    ((1 < length rest)%nat -> refused (hardsend "-Invalid arguments")).
Proof.
  intros R Hc Mm Nn Lx Ly. destruct (request_plain _ _ _ _ _ _ _ _ _ Hc Mm R) as (rep & w1 & out1 & D & P & ->). clear R.
  unfold dispatch in D. rewrite Nn in D. destruct (slot i w) as [r|]; [|discriminate]. change (arg 0 (x :: y :: rest)) with x in D. rewrite Lx in D.
  cbv beta iota zeta delta [handle] in D. unfold command_wait in D. change (arg 1 (x :: y :: rest)) with y in D. rewrite Ly in D. unfold argc in D. cbv beta zeta in D.
  set (cx := c_set_exec (Some h) cl) in *. assert (H0 : client_at fd (put_client fd cx w) = Some cx) by (apply (client_put_same _ _ cl); exact Hc).
  assert (Fin : forall c1, client_at fd w1 = Some c1 -> client_at fd w' = Some c1 /\ sent fd ((fd, rep) :: out1) = [rep]).
  { intros c1 H1. destruct (post_self _ _ _ _ _ _ _ H1 P) as (A & B). split; [exact A|]. rewrite sent_cons_same, B. reflexivity. }
  assert (Len : forall n, n <= 1800000 -> blen (dec n) <= 16).
  { intros n Hn. rewrite blen_length. pose proof (dec_digits_short (S (N.size_nat n)) n [] 6) as L. change (10 ^ N.of_nat 7) with 10000000 in L.
    unfold dec. cbn [List.length] in L. lia. }
  destruct rest as [|z [|z2 rest]].
  - cbn in D. injection D as <- <- <-. destruct (Fin _ (client_put_same _ _ cx _ H0)) as (A & B). eexists. split; [exact A|]. cbv zeta.
    split; [intros _; repeat split; exact B|]. split; [intros n X; discriminate X|]. split; [intros n X; discriminate X|]. cbn [List.length]. lia.
  - change (negb ((nlen [x; y; z] =? 2) || (nlen [x; y; z] =? 3))) with false in D. change (nlen [x; y; z] =? 3) with true in D. cbv iota in D.
    assert (Ref : forall m, rep = m -> w1 = put_client fd cx w -> exists cl', client_at fd w' = Some cl' /\ sent fd ((fd, rep) :: out1) = [m] /\ waiting_as cl cl').
    { intros m -> ->. destruct (Fin _ H0) as (A & B). exists cx. split; [exact A|]. split; [exact B|]. repeat split. }
    change (arg 2 [x; y; z]) with z in D. destruct (N.ltb_spec 16 (blen z)) as [L|L].
    + injection D as <- <- <-. destruct (Ref _ eq_refl eq_refl) as (cl' & A & B & C). exists cl'. split; [exact A|]. cbv zeta.
      split; [intros X; discriminate X|]. split; [|split; [intros; split; [exact B|exact C]|cbn [List.length]; lia]].
      intros n X Hn. injection X as ->. specialize (Len n ltac:(lia)). lia.
    + destruct ((strtoull (cstr z) <? 100) || (1800000 <? strtoull (cstr z))) eqn:T.
      * injection D as <- <- <-. destruct (Ref _ eq_refl eq_refl) as (cl' & A & B & C). exists cl'. split; [exact A|]. cbv zeta.
        split; [intros X; discriminate X|]. split; [|split; [intros; split; [exact B|exact C]|cbn [List.length]; lia]].
        intros n X Hn. injection X as ->. rewrite strtoull_dec in T. lia.
      * injection D as <- <- <-. destruct (Fin _ (client_put_same _ _ cx _ H0)) as (A & B). eexists. split; [exact A|]. cbv zeta.
        split; [intros X; discriminate X|]. split; [|split; [|cbn [List.length]; lia]].
        -- intros n X Hn. injection X as ->. split; [exact B|]. split; [reflexivity|]. split; [reflexivity|]. change (strtoull (cstr (dec n)) = n). rewrite strtoull_dec. lia.
        -- intros n X Hn. injection X as ->. rewrite strtoull_dec in T. lia.
  - assert (F : negb ((nlen (x :: y :: z :: z2 :: rest) =? 2) || (nlen (x :: y :: z :: z2 :: rest) =? 3)) = true) by (rewrite nlen_length; cbn [List.length]; lia).
    rewrite F in D. injection D as <- <- <-. destruct (Fin _ H0) as (A & B). exists cx. split; [exact A|]. cbv zeta.
    split; [intros X; discriminate X|]. split; [intros n X; discriminate X|]. split; [intros n X; discriminate X|]. intros _. split; [exact B|repeat split].
Qed.
