(* Proofs about the request parser: packet boundaries do not matter. *)
From Coq Require Import Strings.String Strings.Byte List NArith ZArith Bool Lia ZifyBool ZifyN ZifyNat.
From Verif Require Import Bytes BytesFacts Layout Text TextFacts Resp RespSpec.
Import ListNotations.
Open Scope N_scope.
Ltac Zify.zify_post_hook ::= Z.div_mod_to_equations.

(* decimal texts *)
Lemma dec_digits_len fuel : forall n acc, (length (dec_digits fuel n acc) <= fuel + length acc)%nat.
Proof.
  induction fuel as [|fuel IH]; intros n acc; cbn [dec_digits]; [lia|].
  destruct (n <? 10); cbn [List.length]; [lia|]. etransitivity; [apply IH|]. cbn [List.length]. lia.
Qed.

Lemma size_nat_bound k : forall n, n < 2 ^ N.of_nat k -> (N.size_nat n <= k)%nat.
Proof.
  intros [|p] H; cbn [N.size_nat]; [lia|]. revert k H.
  induction p as [p IH|p IH|]; intros k H; cbn [Pos.size_nat];
    (destruct k as [|k]; [change (2 ^ N.of_nat 0) with 1 in H; lia|]);
    rewrite Nat2N.inj_succ, N.pow_succ_r' in H; try lia.
  - assert (N.pos p < 2 ^ N.of_nat k) by (revert H; generalize (2 ^ N.of_nat k); intros; lia).
    apply IH in H0. lia.
  - assert (N.pos p < 2 ^ N.of_nat k) by (revert H; generalize (2 ^ N.of_nat k); intros; lia).
    apply IH in H0. lia.
Qed.

Lemma dec_short n : n <= 8388608 -> blen (dec n) <= 25.
Proof.
  intros H. rewrite blen_length. unfold dec.
  pose proof (dec_digits_len (S (N.size_nat n)) n []) as L.
  pose proof (size_nat_bound 24 n) as S. change (2 ^ N.of_nat 24) with 16777216 in S. cbn [List.length] in L. lia.
Qed.

(* memchr on a header line *)
Definition no_nl (l : bytes) : Prop := Forall (fun b => b2n b <> 10) l.

Lemma find_nl_line l d : no_nl l -> find_nl (l ++ x0a :: d) = Some (blen l).
Proof.
  induction l as [|b l IH]; intros H; cbn [app find_nl blen].
  - reflexivity.
  - destruct (N.eqb_spec (b2n b) 10) as [E|_]; [exfalso; exact (Forall_inv H E)|].
    rewrite IH by exact (Forall_inv_tail H). cbn [option_map]. f_equal; lia.
Qed.

Lemma find_nl_none l : no_nl l -> find_nl l = None.
Proof.
  induction l as [|b l IH]; intros H; cbn [find_nl]; auto.
  destruct (N.eqb_spec (b2n b) 10) as [E|_]; [exfalso; exact (Forall_inv H E)|].
  rewrite IH by exact (Forall_inv_tail H). reflexivity.
Qed.

Lemma line_cases l : forall data w x, no_nl l -> data ++ w = l ++ x0a :: x ->
  (exists d, data = l ++ x0a :: d /\ d ++ w = x) \/ (no_nl data /\ blen data <= blen l).
Proof.
  induction l as [|b l IH]; intros data w x H E; destruct data as [|c data]; cbn [app] in E.
  - right. split; [constructor|reflexivity].
  - inversion E; subst. left. exists data. auto.
  - right. split; [constructor|]. cbn [blen]. lia.
  - inversion E; subst. destruct (IH data w x (Forall_inv_tail H) ltac:(assumption)) as [(d & -> & D)|[A B]].
    + left. exists d. auto.
    + right. split; [constructor; [exact (Forall_inv H)|exact A]|]. cbn [blen]. lia.
Qed.

Lemma digits_no_nl l : forallb is_digit l = true -> no_nl l.
Proof.
  intros H. apply Forall_forall. intros b I E. rewrite forallb_forall in H. apply H in I.
  unfold is_digit in I. rewrite E in I. discriminate.
Qed.

Lemma digits_in_line l : forall acc d, forallb is_digit l = true ->
  digits_in (l ++ x0d :: d) acc = Some (parse_digits l acc).
Proof.
  induction l as [|b l IH]; intros acc d H; cbn [app digits_in parse_digits forallb] in *.
  - reflexivity.
  - apply andb_true_iff in H. destruct H as [-> H]. apply IH. exact H.
Qed.

Lemma atoi_in_dec n d : n <= 8388608 -> atoi_in (dec n ++ x0d :: d) = Some (Z.of_N n).
Proof.
  intros H. unfold atoi_in. pose proof (dec_nonempty n) as Hn. pose proof (dec_all n) as Ha.
  destruct (dec n) as [|b t] eqn:E; [congruence|]. rewrite <- E in Ha. cbn [app skip_space].
  assert (Hb : is_digit b = true). { rewrite E in Ha. cbn [forallb] in Ha. apply andb_true_iff in Ha. tauto. }
  unfold is_digit in Hb.
  replace (is_space b) with false by (unfold is_space; lia).
  replace (b2n b =? 45) with false by lia. replace (b2n b =? 43) with false by lia.
  change (b :: t ++ x0d :: d) with ((b :: t) ++ x0d :: d). rewrite <- E.
  rewrite digits_in_line, parse_dec by exact Ha. cbn [option_map]. f_equal. unfold to_int.
  rewrite Z.min_r by lia. rewrite Z.mod_small by lia. lia.
Qed.

(* the invariant: what the parser holds and what is still to come are, together,
   the encodings of the requests not executed yet *)
Definition rests (rs : list bytes) (todo : list request) : bytes := concat (map enc_arg rs) ++ enc_reqs todo.

Inductive holds (w : bytes) : list request -> parser -> Prop :=
| HEmpty todo p : q_state p = RESP_EMPTY -> b_data p ++ w = enc_reqs todo -> holds w todo p
| HHeader ds a rs todo p : q_state p = RESP_FILLIN_HEADER ->
    q_argv p = map obj_of ds -> q_fillin p = Z.of_nat (length ds) -> q_argc p = Z.of_nat (length (ds ++ a :: rs)) ->
    b_data p ++ w = rests (a :: rs) todo -> holds w ((ds ++ a :: rs) :: todo) p
| HPayload ds a rs todo f g p : q_state p = RESP_FILLIN_PAYLOAD ->
    a ++ CRLF = f ++ g -> g <> [] ->
    q_argv p = map obj_of ds ++ [mkObj (Z.of_N (blen a)) (blen a + 2) f] ->
    q_fillin p = Z.of_nat (length ds) -> q_argc p = Z.of_nat (length (ds ++ a :: rs)) ->
    b_data p ++ w = g ++ rests rs todo -> holds w ((ds ++ a :: rs) :: todo) p.

Definition room (p : parser) : Prop := b_off p + blen (b_data p) + b_remain p = 8192.

Record rel (rs : list request) (w : bytes) (done todo : list request) (p : parser) : Prop := {
  rel_all : rs = done ++ todo;
  rel_ok : Forall req_ok todo;
  rel_trace : p_trace p = map (map obj_of) done;
  rel_errors : p_errors p = [];
  rel_room : room p;
  rel_holds : holds w todo p }.

Lemma shift_facts p : q_state (buffer_shift p) = q_state p /\ q_argv (buffer_shift p) = q_argv p
  /\ q_fillin (buffer_shift p) = q_fillin p /\ q_argc (buffer_shift p) = q_argc p
  /\ b_data (buffer_shift p) = b_data p /\ p_trace (buffer_shift p) = p_trace p /\ p_errors (buffer_shift p) = p_errors p.
Proof. unfold buffer_shift. destruct (b_off p =? 0); cbn; auto 10. Qed.

Lemma shift_room p : room p -> blen (b_data p) < 8192 -> room (buffer_shift p) /\ (b_remain p = 0 -> b_remain (buffer_shift p) <> 0).
Proof.
  unfold room, buffer_shift, REDIS_BUFFER_SIZE. intros R L.
  destruct (N.eqb_spec (b_off p) 0); cbn [b_off b_data b_remain]; split; try lia; exact R.
Qed.

Lemma holds_same w todo p p' : q_state p' = q_state p -> q_argv p' = q_argv p -> q_fillin p' = q_fillin p ->
  q_argc p' = q_argc p -> b_data p' = b_data p -> holds w todo p -> holds w todo p'.
Proof.
  intros H1 H2 H3 H4 H5 H. destruct H.
  - apply HEmpty; congruence.
  - apply HHeader; congruence.
  - eapply HPayload; try eassumption; congruence.
Qed.

Lemma rel_shift rs w done todo p : rel rs w done todo p -> blen (b_data p) < 8192 -> rel rs w done todo (buffer_shift p).
Proof.
  intros [A B C D E F] L. destruct (shift_facts p) as (S1 & S2 & S3 & S4 & S5 & S6 & S7).
  split; auto; try congruence.
  - apply shift_room; assumption.
  - eapply holds_same; eassumption.
Qed.

(* the first line of a request *)
Lemma enc_reqs_cons r todo : enc_reqs (r :: todo) = (str "*" ++ dec (nlen r) ++ [x0d]) ++ x0a :: concat (map enc_arg r) ++ enc_reqs todo.
Proof. unfold enc_reqs, enc_req, CRLF. cbn [map concat]. rewrite <- !app_assoc. reflexivity. Qed.

Lemma rests_cons a rs todo : rests (a :: rs) todo = (str "$" ++ dec (blen a) ++ [x0d]) ++ x0a :: (a ++ CRLF) ++ rests rs todo.
Proof. unfold rests, enc_arg, CRLF. cbn [map concat]. rewrite <- !app_assoc. reflexivity. Qed.

Lemma line_no_nl b n : b2n b <> 10 -> no_nl ([b] ++ dec n ++ [x0d]).
Proof.
  intros H. apply Forall_app. split; [constructor; [exact H|constructor]|].
  apply Forall_app. split; [apply digits_no_nl, dec_all|]. constructor; [discriminate|constructor].
Qed.

Lemma line_len b n : n <= 8388608 -> blen ([b] ++ dec n ++ [x0d]) <= 27.
Proof. intros H. rewrite !blen_app. pose proof (dec_short n H). cbn [blen]. lia. Qed.

Lemma fill_last argv a more : fill more (argv ++ [a]) = argv ++ [mkObj (ob_length a) (ob_size a) (ob_data a ++ more)].
Proof. unfold fill. rewrite rev_unit, rev_involutive. reflexivity. Qed.

Lemma last_obj_last argv a : last_obj (argv ++ [a]) = a.
Proof. unfold last_obj. apply last_last. Qed.

Lemma nil_blen (l : bytes) : blen l = 0 -> l = [].
Proof. rewrite blen_length. destruct l; [auto|cbn [List.length]; lia]. Qed.

(* nothing more can be done with the received bytes *)
Definition stuck (p : parser) : Prop :=
  match q_state p with RESP_FILLIN_PAYLOAD => b_data p = [] | _ => no_nl (b_data p) end.

Lemma stuck_nil p : b_data p = [] -> stuck p.
Proof. unfold stuck. intros ->. destruct (q_state p); auto; constructor. Qed.

(* the three handlers *)
Lemma empty_ok rs w done todo p : rel rs w done todo p -> q_state p = RESP_EMPTY -> b_data p <> [] ->
  exists p' v, handle_empty p = (p', v) /\ rel rs w done todo p' /\
    ((v = SUCCESS /\ q_state p' = RESP_FILLIN_HEADER /\ blen (b_data p') < blen (b_data p))
     \/ ((v = CONTINUE \/ v = RESET) /\ b_remain p' <> 0 /\ stuck p')).
Proof.
  intros R St Hne. destruct (rel_holds _ _ _ _ _ R) as [todo p _ E| |]; [|congruence|congruence].
  destruct todo as [|r todo].
  { unfold enc_reqs in E. cbn [map concat] in E. apply app_eq_nil in E. destruct E; congruence. }
  pose proof (Forall_inv (rel_ok _ _ _ _ _ R)) as (Rn & Rl & Ra).
  rewrite enc_reqs_cons in E. change (str "*") with [x2a] in E.
  pose proof (line_no_nl x2a (nlen r) ltac:(discriminate)) as Hl.
  pose proof (line_len x2a (nlen r) ltac:(lia)) as Hll.
  destruct (line_cases _ _ _ _ Hl E) as [(d & D1 & D2)|[N1 N2]].
  - assert (Hr : 0 < nlen r) by (destruct r; [congruence|cbn [nlen]; lia]).
    assert (HE : handle_empty p = (advance (blen ([x2a] ++ dec (nlen r) ++ [x0d]) + 1)
        (set_request RESP_FILLIN_HEADER 0 (Z.of_N (nlen r)) [] (set_request (q_state p) (q_fillin p) (Z.of_N (nlen r)) (q_argv p) p)), SUCCESS)).
    { unfold handle_empty. rewrite D1, find_nl_line by exact Hl.
      cbn [app]. change (b2n x2a =? 42) with true. cbn [negb].
      rewrite <- !app_assoc. cbn [app]. rewrite atoi_in_dec by lia.
      replace (Z.of_N (nlen r) =? 0)%Z with false by lia.
      replace (1024 <? Z.of_N (nlen r))%Z with false by lia.
      replace (Z.of_N (nlen r) <? 0)%Z with false by lia. reflexivity. }
    rewrite HE. eexists _, _. split; [reflexivity|].
    assert (Dn : nskip (blen ([x2a] ++ dec (nlen r) ++ [x0d]) + 1) (b_data p) = d).
    { rewrite D1. replace (([x2a] ++ dec (nlen r) ++ [x0d]) ++ x0a :: d) with ((([x2a] ++ dec (nlen r) ++ [x0d]) ++ [x0a]) ++ d)
        by (rewrite <- !app_assoc; reflexivity).
      apply nskip_app_exact'. rewrite !blen_app. cbn [blen]. lia. }
    assert (Dl : blen (b_data p) = blen ([x2a] ++ dec (nlen r) ++ [x0d]) + 1 + blen d).
    { rewrite D1, blen_app. cbn [blen]. lia. }
    split.
    + destruct R as [A B C D F G]. split; auto.
      * unfold room in *. cbn [advance set_request b_off b_data b_remain]. rewrite Dn. lia.
      * destruct r as [|a r]; [congruence|]. apply (HHeader w [] a r); cbn [advance set_request q_state q_argv q_fillin q_argc b_data map List.length]; try reflexivity.
        -- rewrite nlen_length. cbn [app List.length]. lia.
        -- rewrite Dn. exact D2.
    + left. split; [reflexivity|]. split; [reflexivity|]. cbn [advance set_request b_data]. rewrite Dn. lia.
  - unfold handle_empty. rewrite find_nl_none by exact N1.
    destruct (N.eqb_spec (b_remain p) 0) as [Z|NZ]; (eexists _, _; split; [reflexivity|]).
    + split; [apply rel_shift; [exact R|lia]|]. right. split; [auto|].
      split; [apply (shift_room p); [exact (rel_room _ _ _ _ _ R)|lia|exact Z]|].
      destruct (shift_facts p) as (F1 & _ & _ & _ & F5 & _). unfold stuck. rewrite F1, F5, St. exact N1.
    + split; [exact R|]. right. unfold stuck. rewrite St. auto.
Qed.

Lemma header_ok rs w done todo p : rel rs w done todo p -> q_state p = RESP_FILLIN_HEADER ->
  exists p' v, handle_header p = (p', v) /\ rel rs w done todo p' /\
    ((v = CONTINUE /\ q_state p' = RESP_FILLIN_PAYLOAD /\ blen (b_data p') < blen (b_data p))
     \/ ((v = ABNORMAL \/ v = RESET) /\ b_remain p' <> 0 /\ stuck p')).
Proof.
  intros R St. destruct (rel_holds _ _ _ _ _ R) as [|ds a rest todo p _ Eargv Efill Eargc E|]; [congruence| |congruence].
  pose proof (Forall_inv (rel_ok _ _ _ _ _ R)) as (Rn & Rl & Ra).
  assert (Ha : blen a <= 8388608). { rewrite Forall_app in Ra. exact (Forall_inv (proj2 Ra)). }
  rewrite rests_cons in E. change (str "$") with [x24] in E.
  pose proof (line_no_nl x24 (blen a) ltac:(discriminate)) as Hl.
  pose proof (line_len x24 (blen a) Ha) as Hll.
  destruct (line_cases _ _ _ _ Hl E) as [(d & D1 & D2)|[N1 N2]].
  - assert (HE : handle_header p = (advance (blen ([x24] ++ dec (blen a) ++ [x0d]) + 1)
        (set_request RESP_FILLIN_PAYLOAD (q_fillin p) (q_argc p) (q_argv p ++ [mkObj (Z.of_N (blen a)) (Z.to_N (Z.of_N (blen a) + 2)) []]) p), CONTINUE)).
    { unfold handle_header. rewrite D1, find_nl_line by exact Hl.
      cbn [app]. change (b2n x24 =? 36) with true. cbn [negb].
      rewrite <- !app_assoc. cbn [app]. rewrite atoi_in_dec by lia.
      replace (REDIS_MAX_PAYLOAD <? Z.of_N (blen a))%Z with false by (unfold REDIS_MAX_PAYLOAD; lia).
      replace (Z.of_N (blen a) + 2 <? 0)%Z with false by lia. reflexivity. }
    rewrite HE. eexists _, _. split; [reflexivity|].
    assert (Dn : nskip (blen ([x24] ++ dec (blen a) ++ [x0d]) + 1) (b_data p) = d).
    { rewrite D1. replace (([x24] ++ dec (blen a) ++ [x0d]) ++ x0a :: d) with ((([x24] ++ dec (blen a) ++ [x0d]) ++ [x0a]) ++ d)
        by (rewrite <- !app_assoc; reflexivity).
      apply nskip_app_exact'. rewrite !blen_app. cbn [blen]. lia. }
    assert (Dl : blen (b_data p) = blen ([x24] ++ dec (blen a) ++ [x0d]) + 1 + blen d).
    { rewrite D1, blen_app. cbn [blen]. lia. }
    split.
    + destruct R as [A B C D F G]. split; auto.
      * unfold room in *. cbn [advance set_request b_off b_data b_remain]. rewrite Dn. lia.
      * apply (HPayload w ds a rest todo [] (a ++ CRLF)); cbn [advance set_request q_state q_argv q_fillin q_argc b_data]; auto.
        -- unfold CRLF. destruct a; discriminate.
        -- rewrite Eargv. repeat f_equal. lia.
        -- rewrite Dn. exact D2.
    + left. split; [reflexivity|]. split; [reflexivity|]. cbn [advance set_request b_data]. rewrite Dn. lia.
  - unfold handle_header. rewrite find_nl_none by exact N1.
    destruct (N.eqb_spec (b_remain p) 0) as [Z|NZ]; (eexists _, _; split; [reflexivity|]).
    + split; [apply rel_shift; [exact R|lia]|]. right. split; [auto|].
      split; [apply (shift_room p); [exact (rel_room _ _ _ _ _ R)|lia|exact Z]|].
      destruct (shift_facts p) as (F1 & _ & _ & _ & F5 & _). unfold stuck. rewrite F1, F5, St. exact N1.
    + split; [exact R|]. right. unfold stuck. rewrite St. auto.
Qed.

(* after the payload handler: either the argument is still incomplete, or it is
   complete and possibly the whole request is *)
Definition after_payload (rs : list request) (w : bytes) (done todo : list request) (p : parser) : Prop :=
  (rel rs w done todo p /\ q_fillin p <> q_argc p)
  \/ (exists r todo', todo = r :: todo' /\ rs = done ++ todo /\ Forall req_ok todo /\ p_trace p = map (map obj_of) done
      /\ p_errors p = [] /\ room p /\ q_argv p = map obj_of r /\ q_fillin p = q_argc p /\ b_data p ++ w = enc_reqs todo').

Lemma payload_ok rs w done todo p : rel rs w done todo p -> q_state p = RESP_FILLIN_PAYLOAD ->
  exists p' v, handle_payload p = (p', v) /\
    ((v = CONTINUE /\ after_payload rs w done todo p' /\ (b_data p <> [] -> blen (b_data p') < blen (b_data p))
       /\ (b_data p = [] -> b_data p' = []) /\ (b_data p' = [] -> b_remain p' <> 0))
     \/ (v = RESET /\ rel rs w done todo p' /\ b_remain p' <> 0 /\ stuck p')).
Proof.
  intros R St. destruct (rel_holds _ _ _ _ _ R) as [|  |ds a rest todo f g p _ Ea Hg Eargv Efill Eargc E]; [congruence|congruence|].
  unfold handle_payload. destruct (N.eqb_spec (blen (b_data p)) 0) as [Z0|NZ0].
  - apply nil_blen in Z0. destruct (N.eqb_spec (b_remain p) 0) as [Z|NZ]; (eexists _, _; split; [reflexivity|]).
    + right. split; [reflexivity|]. split; [apply rel_shift; [exact R|rewrite Z0; reflexivity]|].
      split; [apply (shift_room p); [exact (rel_room _ _ _ _ _ R)|rewrite Z0; reflexivity|exact Z]|].
      apply stuck_nil. destruct (shift_facts p) as (_ & _ & _ & _ & F5 & _). congruence.
    + left. split; [reflexivity|]. split; [|split; [congruence|split; [auto|auto]]].
      left. split; [exact R|]. rewrite Efill, Eargc, app_length. cbn [List.length]. lia.
  - rewrite Eargv, last_obj_last. cbn [ob_size ob_data].
    assert (Lg : blen a + 2 - blen f = blen g).
    { assert (X : blen (a ++ CRLF) = blen (f ++ g)) by (rewrite Ea; reflexivity).
      rewrite !blen_app in X. change (blen CRLF) with 2 in X. lia. }
    rewrite Lg. assert (Gp : 0 < blen g).
    { rewrite blen_length. destruct g; [congruence|cbn [List.length]; lia]. }
    destruct (N.leb_spec (blen g) (blen (b_data p))) as [L|L]; (eexists _, _; split; [reflexivity|]); left; (split; [reflexivity|]).
    + assert (D : exists d, b_data p = g ++ d /\ d ++ w = rests rest todo).
      { apply app_eq_app in E. destruct E as (l & [[E1 E2]|[E1 E2]]).
        - exists l. auto.
        - rewrite E1, blen_app in L. assert (l = []) by (apply nil_blen; lia). subst l.
          rewrite app_nil_r in E1. exists []. rewrite app_nil_r. auto. }
      destruct D as (d & D1 & D2).
      assert (Dn : nskip (blen g) (b_data p) = d) by (rewrite D1; apply nskip_app_exact'; reflexivity).
      assert (Df : nfirst (blen g) (b_data p) = g) by (rewrite D1; apply nfirst_app_exact'; reflexivity).
      assert (Dl : blen (b_data p) = blen g + blen d) by (rewrite D1, blen_app; reflexivity).
      set (p1 := set_request RESP_FILLIN_HEADER (q_fillin p + 1) (q_argc p)
          (fill (nfirst (blen g) (b_data p)) (map obj_of ds ++ [mkObj (Z.of_N (blen a)) (blen a + 2) f])) p).
      set (p2 := if blen (b_data p) =? blen g then buffer_reset (advance (blen g) p1) else advance (blen g) p1).
      assert (P : q_state p2 = RESP_FILLIN_HEADER /\ q_fillin p2 = (q_fillin p + 1)%Z /\ q_argc p2 = q_argc p
        /\ q_argv p2 = map obj_of (ds ++ [a]) /\ b_data p2 = d /\ p_trace p2 = p_trace p /\ p_errors p2 = p_errors p
        /\ room p2 /\ (b_data p2 = [] -> b_remain p2 <> 0)).
      { assert (Av : q_argv p1 = map obj_of (ds ++ [a])).
        { unfold p1. cbn [set_request q_argv]. rewrite fill_last. cbn [ob_length ob_size ob_data].
          rewrite Df, <- Ea, map_app. reflexivity. }
        pose proof (rel_room _ _ _ _ _ R) as Rm. unfold room in Rm.
        unfold p2. destruct (N.eqb_spec (blen (b_data p)) (blen g)) as [Eq|Nq].
        - assert (Hd0 : d = []) by (apply nil_blen; lia). rewrite Hd0.
          cbn [buffer_reset advance set_request q_state q_fillin q_argc q_argv b_data p_trace p_errors p1] in *.
          unfold room. cbn [b_off b_data b_remain blen]. unfold REDIS_BUFFER_SIZE.
          split; [reflexivity|]. split; [reflexivity|]. split; [reflexivity|]. split; [exact Av|]. split; [reflexivity|].
          split; [reflexivity|]. split; [reflexivity|]. split; [reflexivity|]. intros _. discriminate.
        - unfold room. cbn [buffer_reset advance set_request q_state q_fillin q_argc q_argv b_off b_data b_remain p_trace p_errors p1] in *.
          rewrite Dn.
          split; [reflexivity|]. split; [reflexivity|]. split; [reflexivity|]. split; [exact Av|]. split; [reflexivity|].
          split; [reflexivity|]. split; [reflexivity|]. split; [lia|]. intros ->. cbn [blen] in Dl. lia. }
      destruct P as (P1 & P2 & P3 & P4 & P5 & P6 & P7 & P8 & P9).
      split; [|split; [|split; [|exact P9]]].
      * destruct R as [A B C D F G]. destruct rest as [|a2 rest].
        -- right. exists (ds ++ [a]), todo. rewrite P5, P6, P7. unfold rests in D2. cbn [map concat app] in D2.
           repeat (split; [first [reflexivity|assumption]|]). split; [|exact D2].
           rewrite P2, P3, Efill, Eargc, app_length. cbn [List.length]. lia.
        -- left. split.
           ++ split; try congruence; try assumption.
              replace (ds ++ a :: a2 :: rest) with ((ds ++ [a]) ++ a2 :: rest) by (rewrite <- app_assoc; reflexivity).
              apply HHeader; try congruence.
              ** rewrite P2, Efill, app_length. cbn [List.length]. lia.
              ** rewrite P3, Eargc. f_equal. rewrite <- app_assoc. reflexivity.
              ** rewrite P5. exact D2.
           ++ rewrite P2, P3, Efill, Eargc, app_length. cbn [List.length]. lia.
      * intros _. rewrite P5. lia.
      * intros X. rewrite X in NZ0. exfalso. apply NZ0. reflexivity.
    + split; [|split; [|split]]; cbn [buffer_reset b_data b_remain].
      * left. split; [|cbn [buffer_reset set_request q_fillin q_argc]; rewrite Efill, Eargc, app_length; cbn [List.length]; lia].
        assert (X : exists g', g = b_data p ++ g' /\ w = g' ++ rests rest todo).
        { apply app_eq_app in E. destruct E as (l & [[E1 E2]|[E1 E2]]).
          - exfalso. rewrite E1, blen_app in L. lia.
          - exists l. auto. }
        destruct X as (g' & G1 & G2).
        destruct R as [A B C D F G]. split; auto; [reflexivity|].
        apply (HPayload w ds a rest todo (f ++ b_data p) g'); cbn [buffer_reset set_request q_state q_argv q_fillin q_argc b_data]; auto.
        -- rewrite Ea, G1, app_assoc. reflexivity.
        -- intros ->. rewrite G1, app_nil_r in L. lia.
        -- rewrite fill_last. reflexivity.
      * intros _. cbn [blen]. lia.
      * reflexivity.
      * intros _. discriminate.
Qed.

Section H.
Variable h : list (list robj) -> status.


Lemma finish_ok rs w done todo p p' v : after_payload rs w done todo p ->
  (b_data p = [] -> b_remain p <> 0) ->
  (if (q_fillin p =? q_argc p)%Z then let '(p4, v4) := handle_finished h p in (p4, v4, false) else (p, CONTINUE, false)) = (p', v, false) ->
  b_data p' = b_data p /\ b_remain p' = b_remain p /\ exists done' todo', rel rs w done' todo' p'.
Proof.
  intros [[R N]|(r & todo' & -> & A & B & C & D & F & G & I & J)] Hr E.
  - destruct (Z.eqb_spec (q_fillin p) (q_argc p)); [congruence|]. inversion E; subst. eauto 6.
  - rewrite I, Z.eqb_refl in E. unfold handle_finished in E. inversion E; subst p' v.
    split; [reflexivity|]. split; [reflexivity|].
    exists (done ++ [r]), todo'. split.
    + rewrite <- app_assoc. exact A.
    + exact (Forall_inv_tail B).
    + cbn [p_trace]. rewrite C, G, map_app. reflexivity.
    + exact D.
    + exact F.
    + apply HEmpty; [reflexivity|exact J].
Qed.

Definition pass_post (rs : list request) (w : bytes) (p : parser) (res : parser * status * bool) : Prop :=
  let '(p', v, stop) := res in
  (exists done' todo', rel rs w done' todo' p') /\
  (if stop then b_remain p' <> 0 /\ stuck p'
   else blen (b_data p') < blen (b_data p) /\ (b_data p' = [] -> b_remain p' <> 0)).

(* the last two stages of a pass *)
Definition tail_stages (p2 : parser) (v2 : status) : parser * status * bool :=
  let '(p3, v3, stop3) :=
    match q_state p2 with
    | RESP_FILLIN_PAYLOAD => match handle_payload p2 with (p', CONTINUE) => (p', CONTINUE, false) | (p', v) => (p', v, true) end
    | _ => (p2, v2, false)
    end in
  if stop3 then (p3, v3, true) else
  if (q_fillin p3 =? q_argc p3)%Z then let '(p4, v4) := handle_finished h p3 in (p4, v4, false)
  else (p3, v3, false).

Lemma tail_ok rs w done todo p v n : rel rs w done todo p -> q_state p = RESP_FILLIN_PAYLOAD ->
  (b_data p <> [] -> blen (b_data p) <= n) -> (b_data p = [] -> 0 < n) ->
  forall q, blen (b_data q) = n -> pass_post rs w q (tail_stages p v).
Proof.
  intros R St N1 N2 q Q. unfold tail_stages. rewrite St.
  destruct (payload_ok _ _ _ _ _ R St) as (p' & v' & E & [(-> & A & B & C & D)|(-> & A & B & B')]); rewrite E.
  - destruct (if (q_fillin p' =? q_argc p')%Z then let '(p4, v4) := handle_finished h p' in (p4, v4, false) else (p', CONTINUE, false))
      as [[p4 v4] stop] eqn:F.
    assert (stop = false). { destruct (q_fillin p' =? q_argc p')%Z; unfold handle_finished in F; inversion F; reflexivity. }
    subst stop. destruct (finish_ok _ _ _ _ _ _ _ A D F) as (X2 & X3 & X4).
    split; [exact X4|]. rewrite X2, X3. split; [|exact D].
    rewrite Q. destruct (b_data p) as [|b0 d0] eqn:Ed.
    + rewrite C by reflexivity. cbn [blen]. apply N2. reflexivity.
    + specialize (B ltac:(discriminate)). specialize (N1 ltac:(discriminate)). lia.
  - split; [eauto|]. split; [exact B|exact B'].
Qed.

Lemma pass_ok rs w done todo p : rel rs w done todo p -> b_data p <> [] -> pass_post rs w p (parse_pass h p).
Proof.
  intros R Hne. unfold parse_pass.
  assert (Hpos : 0 < blen (b_data p)) by (rewrite blen_length; destruct (b_data p); [congruence|cbn [List.length]; lia]).
  assert (HH : forall p1, rel rs w done todo p1 -> q_state p1 = RESP_FILLIN_HEADER -> blen (b_data p1) <= blen (b_data p) ->
     pass_post rs w p (let '(p2, v2, stop2) :=
        match handle_header p1 with (p', CONTINUE) => (p', CONTINUE, false) | (p', v) => (p', v, true) end in
        if stop2 then (p2, v2, true) else tail_stages p2 v2)).
  { intros p1 R1 S1 L1. destruct (header_ok _ _ _ _ _ R1 S1) as (p2 & v2 & E & R2 & [(-> & S2 & L2)|([-> | ->] & Rm & Sk)]); rewrite E.
    - apply (tail_ok _ _ _ _ _ _ (blen (b_data p)) R2 S2); auto; lia.
    - split; [eauto|]. split; [exact Rm|exact Sk].
    - split; [eauto|]. split; [exact Rm|exact Sk]. }
  destruct (q_state p) eqn:St.
  - destruct (empty_ok _ _ _ _ _ R St Hne) as (p1 & v1 & E & R1 & [(-> & S1 & L1)|([-> | ->] & Rm & Sk)]); rewrite E.
    + rewrite S1. apply (HH p1 R1 S1). lia.
    + split; [eauto|]. split; [exact Rm|exact Sk].
    + split; [eauto|]. split; [exact Rm|exact Sk].
  - rewrite St. apply (HH p R St). lia.
  - rewrite St. apply (tail_ok _ _ _ _ _ SUCCESS (blen (b_data p)) R St); auto; lia.
Qed.

Lemma loop_ok rs w fuel : forall done todo p v, rel rs w done todo p ->
  (b_data p = [] -> b_remain p <> 0) -> (N.of_nat fuel > blen (b_data p)) ->
  exists p' v' done' todo', parse_loop h fuel p v = (p', v') /\ rel rs w done' todo' p' /\ b_remain p' <> 0 /\ stuck p'.
Proof.
  induction fuel as [|fuel IH]; intros done todo p v R Hr Hf; [lia|].
  cbn [parse_loop]. destruct (b_data p) as [|b0 d0] eqn:Ed.
  - exists p, v, done, todo. split; [reflexivity|]. split; [exact R|]. split; [apply Hr; reflexivity|apply stuck_nil; exact Ed].
  - rewrite <- Ed in *. pose proof (pass_ok _ _ _ _ _ R ltac:(rewrite Ed; discriminate)) as P.
    destruct (parse_pass h p) as [[p' v'] stop]. destruct P as ((done' & todo' & P2) & P3). destruct stop.
    + exists p', v', done', todo'. tauto.
    + eapply IH; try eassumption; [tauto|]. lia.
Qed.

(* bytes delivered by recv *)
Lemma recv_ok rs w done todo p n sock p' sock' : rel rs (sock ++ w) done todo p -> b_remain p <> 0 -> sock <> [] ->
  recv n sock p = (p', sock') ->
  rel rs (sock' ++ w) done todo p' /\ b_data p' <> [] /\ p_trace p' = p_trace p.
Proof.
  intros R Hr Hs E. unfold recv in E. set (k := N.max 1 (N.min n (b_remain p))) in *. inversion E; subst p' sock'. clear E.
  assert (K : 1 <= k <= b_remain p) by lia.
  assert (G : nfirst k sock <> []).
  { rewrite nfirst_firstn. destruct sock; [congruence|]. destruct (N.to_nat k) eqn:X; [lia|]. discriminate. }
  assert (L : blen (nfirst k sock) <= k).
  { rewrite nfirst_firstn, blen_length. rewrite firstn_length. lia. }
  split; [|split; [|reflexivity]].
  - destruct R as [A B C D F H]. split; auto.
    + unfold room in *. cbn [b_off b_data b_remain]. rewrite blen_app. lia.
    + assert (X : (b_data p ++ nfirst k sock) ++ nskip k sock ++ w = b_data p ++ sock ++ w).
      { rewrite <- app_assoc, (app_assoc (nfirst k sock)), nfirst_nskip. reflexivity. }
      destruct H.
      * apply HEmpty; [assumption|]. cbn [b_data]. rewrite X. assumption.
      * apply HHeader; try assumption. cbn [b_data]. rewrite X. assumption.
      * eapply HPayload; try eassumption. cbn [b_data]. rewrite X. assumption.
  - cbn [b_data]. destruct (b_data p); [|discriminate]. exact G.
Qed.

Lemma fuel_enough p : N.of_nat (loop_fuel p) > blen (b_data p).
Proof. unfold loop_fuel. rewrite blen_length. lia. Qed.

Lemma chunk_ok rs w cuts : forall sock done todo p v, rel rs (sock ++ w) done todo p -> b_remain p <> 0 -> stuck p ->
  exists p' sock' v' done' todo', chunk_read h cuts sock p v = (p', sock', v') /\ rel rs (sock' ++ w) done' todo' p'
    /\ b_remain p' <> 0 /\ stuck p'.
Proof.
  induction cuts as [|n cuts IH]; intros sock done todo p v R Hr Hs; cbn [chunk_read]; (destruct (N.eqb_spec (b_remain p) 0); [congruence|]).
  - exists p, sock, v, done, todo. auto 6.
  - destruct sock as [|s0 sock0] eqn:Es.
    + exists p, [], v, done, todo. auto 6.
    + rewrite <- Es in *. destruct (recv n sock p) as [p1 sock1] eqn:E1.
      destruct (recv_ok _ _ _ _ _ _ _ _ _ R Hr ltac:(rewrite Es; discriminate) E1) as (R1 & N1 & _).
      destruct (loop_ok rs (sock1 ++ w) (loop_fuel p1) done todo p1 v R1) as (p2 & v2 & done2 & todo2 & E2 & R2 & M2 & K2).
      { intros X. congruence. } { apply fuel_enough. }
      rewrite E2.
      destruct v2; first [eexists p2, sock1, _, done2, todo2; split; [reflexivity|auto]
                         |eapply IH; [exact R2|exact M2|exact K2]].
Qed.

Lemma run_ok rs es : forall w done todo c, rel rs (k_sock c ++ arrived es ++ w) done todo (k_parser c) ->
  b_remain (k_parser c) <> 0 -> stuck (k_parser c) ->
  exists done' todo', rel rs (k_sock (conn_run h es c) ++ w) done' todo' (k_parser (conn_run h es c))
    /\ stuck (k_parser (conn_run h es c)).
Proof.
  induction es as [|e es IH]; intros w done todo c R Hr Hs.
  - exists done, todo. split; [exact R|exact Hs].
  - change (conn_run h (e :: es) c) with (conn_run h es (conn_step h e c)).
    destruct e as [b|cuts].
    + apply (IH w done todo); cbn [conn_step k_parser k_sock k_open]; auto.
      unfold arrived in R. cbn [map concat] in R. rewrite <- !app_assoc in *. exact R.
    + unfold arrived in R. cbn [map concat app] in R. fold (arrived es) in R.
      cbn [conn_step]. destruct (k_open c); [|eapply IH; eassumption].
      destruct (chunk_ok rs (arrived es ++ w) cuts (k_sock c) done todo (k_parser c) SUCCESS R Hr Hs)
        as (p' & sock' & v' & done' & todo' & E & R' & M' & K').
      rewrite E. apply (IH w done' todo'); cbn [k_parser k_sock k_open]; auto.
Qed.

(* the connection stays open if the dispatcher never closes it *)
Lemma chunk_calm rs w cuts : calm h -> forall sock done todo p v, rel rs (sock ++ w) done todo p -> b_remain p <> 0 -> stuck p ->
  match v with DISCARD | DISCONNECTED | SHUTDOWN | UNDEF => False | _ => True end ->
  match snd (chunk_read h cuts sock p v) with DISCARD | DISCONNECTED | SHUTDOWN | UNDEF => False | _ => True end.
Proof.
  intros Hc.
  assert (P : forall p v, forall done todo w, rel rs w done todo p -> b_data p <> [] ->
     match v with DISCARD | DISCONNECTED | SHUTDOWN | UNDEF => False | _ => True end ->
     match snd (fst (parse_pass h p)) with DISCARD | DISCONNECTED | SHUTDOWN | UNDEF => False | _ => True end).
  { clear w. intros p v done todo w R Hne Hv. unfold parse_pass.
    assert (T : forall p2 v2, rel rs w done todo p2 -> q_state p2 = RESP_FILLIN_PAYLOAD ->
       match snd (fst (tail_stages p2 v2)) with DISCARD | DISCONNECTED | SHUTDOWN | UNDEF => False | _ => True end).
    { intros p2 v2 R2 S2. unfold tail_stages. rewrite S2.
      destruct (payload_ok _ _ _ _ _ R2 S2) as (p' & v' & E & [(-> & _)|(-> & _)]); rewrite E; [|exact I].
      destruct (q_fillin p' =? q_argc p')%Z; [|exact I]. cbn [handle_finished fst snd]. apply Hc. }
    assert (HH : forall p1, rel rs w done todo p1 -> q_state p1 = RESP_FILLIN_HEADER ->
       match snd (fst (let '(p2, v2, stop2) :=
          match handle_header p1 with (p', CONTINUE) => (p', CONTINUE, false) | (p', v) => (p', v, true) end in
          if stop2 then (p2, v2, true) else tail_stages p2 v2)) with DISCARD | DISCONNECTED | SHUTDOWN | UNDEF => False | _ => True end).
    { intros p1 R1 S1. destruct (header_ok _ _ _ _ _ R1 S1) as (p2 & v2 & E & R2 & [(-> & S2 & L2)|([-> | ->] & _)]); rewrite E;
        [|exact I|exact I]. apply (T p2 CONTINUE R2 S2). }
    destruct (q_state p) eqn:St.
    - destruct (empty_ok _ _ _ _ _ R St Hne) as (p1 & v1 & E & R1 & [(-> & S1 & L1)|([-> | ->] & _)]); rewrite E;
        [|exact I|exact I]. rewrite S1. apply (HH p1 R1 S1).
    - rewrite St. apply (HH p R St).
    - rewrite St. apply (T p SUCCESS R St). }
  assert (L : forall fuel p v done todo w, rel rs w done todo p -> N.of_nat fuel > blen (b_data p) ->
     match v with DISCARD | DISCONNECTED | SHUTDOWN | UNDEF => False | _ => True end ->
     match snd (parse_loop h fuel p v) with DISCARD | DISCONNECTED | SHUTDOWN | UNDEF => False | _ => True end).
  { clear w. induction fuel as [|fuel IH]; intros p v done todo w R Hf Hv; [lia|]. cbn [parse_loop].
    destruct (b_data p) as [|b0 d0] eqn:Ed; [exact Hv|]. rewrite <- Ed in *.
    pose proof (pass_ok _ _ _ _ _ R ltac:(rewrite Ed; discriminate)) as Q.
    pose proof (P p v _ _ _ R ltac:(rewrite Ed; discriminate) Hv) as Q2.
    destruct (parse_pass h p) as [[p' v'] stop]. cbn [fst snd] in Q2. destruct stop; [exact Q2|].
    destruct Q as ((done' & todo' & R') & Q3 & _). eapply IH; [exact R'|lia|exact Q2]. }
  induction cuts as [|n cuts IH]; intros sock done todo p v R Hr Hs Hv; cbn [chunk_read];
    (destruct (N.eqb_spec (b_remain p) 0); [congruence|]); [exact Hv|].
  destruct sock as [|s0 sock0] eqn:Es; [exact Hv|]. rewrite <- Es in *.
  destruct (recv n sock p) as [p1 sock1] eqn:E1.
  destruct (recv_ok _ _ _ _ _ _ _ _ _ R Hr ltac:(rewrite Es; discriminate) E1) as (R1 & N1 & _).
  pose proof (L (loop_fuel p1) p1 v _ _ _ R1 (fuel_enough p1) Hv) as Q.
  destruct (loop_ok rs (sock1 ++ w) (loop_fuel p1) done todo p1 v R1) as (p2 & v2 & done2 & todo2 & E2 & R2 & M2 & K2).
  { intros X. congruence. } { apply fuel_enough. }
  rewrite E2 in *. cbn [snd] in Q.
  destruct v2; cbn [snd]; first [exact Q|exact I|eapply IH; [exact R2|exact M2|exact K2|exact I]].
Qed.

Lemma run_open rs es : calm h -> forall w done todo c, rel rs (k_sock c ++ arrived es ++ w) done todo (k_parser c) ->
  b_remain (k_parser c) <> 0 -> stuck (k_parser c) -> k_open c = true -> k_open (conn_run h es c) = true.
Proof.
  intros Hc. induction es as [|e es IH]; intros w done todo c R Hr Hs Ho; [exact Ho|].
  change (conn_run h (e :: es) c) with (conn_run h es (conn_step h e c)).
  destruct e as [b|cuts].
  - apply (IH w done todo); cbn [conn_step k_parser k_sock k_open]; auto.
    unfold arrived in R. cbn [map concat] in R. rewrite <- !app_assoc in *. exact R.
  - unfold arrived in R. cbn [map concat app] in R. fold (arrived es) in R.
    cbn [conn_step]. rewrite Ho.
    destruct (chunk_ok rs (arrived es ++ w) cuts (k_sock c) done todo (k_parser c) SUCCESS R Hr Hs)
      as (p' & sock' & v' & done' & todo' & E & R' & M' & K').
    pose proof (chunk_calm rs (arrived es ++ w) cuts Hc (k_sock c) done todo (k_parser c) SUCCESS R Hr Hs I) as Q.
    rewrite E in *. cbn [snd] in Q. apply (IH w done' todo'); cbn [k_parser k_sock k_open]; auto.
    destruct v'; try (exfalso; exact Q); reflexivity.
Qed.
End H.

Lemma enc_reqs_app a b : enc_reqs (a ++ b) = enc_reqs a ++ enc_reqs b.
Proof. unfold enc_reqs. rewrite map_app, concat_app. reflexivity. Qed.

Lemma start_rel rs w : Forall req_ok rs -> w = enc_reqs rs -> rel rs w [] rs parser_new.
Proof.
  intros H E. split; auto.
  - reflexivity.
  - apply HEmpty; [reflexivity|exact E].
Qed.

(* bytes of the stream taken by the server: the executed requests and a proper
   prefix of the next one *)
Lemma line_prefix l : forall data w x, no_nl l -> no_nl data -> data ++ w = l ++ x0a :: x -> exists l', l = data ++ l'.
Proof.
  induction l as [|b l IH]; intros data w x H N E; destruct data as [|c data]; cbn [app] in E.
  - exists []. reflexivity.
  - inversion E; subst. exfalso. apply (Forall_inv N). reflexivity.
  - exists (b :: l). reflexivity.
  - inversion E; subst. destruct (IH data w x (Forall_inv_tail H) (Forall_inv_tail N) ltac:(assumption)) as (l' & ->).
    exists l'. reflexivity.
Qed.

Lemma enc_req_split ds a rs : enc_req (ds ++ a :: rs) =
  (str "*" ++ dec (nlen (ds ++ a :: rs)) ++ CRLF ++ concat (map enc_arg ds))
  ++ (str "$" ++ dec (blen a) ++ [x0d]) ++ x0a :: (a ++ CRLF) ++ concat (map enc_arg rs).
Proof. unfold enc_req, enc_arg, CRLF. rewrite map_app, concat_app. cbn [map concat]. rewrite <- !app_assoc. reflexivity. Qed.

Lemma enc_reqs_one r todo : enc_reqs (r :: todo) = enc_req r ++ enc_reqs todo.
Proof. reflexivity. Qed.

Lemma consumed_shape rs w done todo p : rel rs w done todo p -> stuck p ->
  exists part, enc_reqs rs = enc_reqs done ++ part ++ w /\ (part = [] \/ exists r todo', todo = r :: todo' /\ incomplete part r).
Proof.
  intros R S. rewrite (rel_all _ _ _ _ _ R), enc_reqs_app. unfold stuck in S.
  destruct (rel_holds _ _ _ _ _ R) as [todo p St E|ds a rest todo p St _ _ _ E|ds a rest todo f g p St Ea Hg _ _ _ E]; rewrite St in S.
  - exists (b_data p). rewrite E. split; [reflexivity|]. destruct todo as [|r todo].
    + left. unfold enc_reqs in E. cbn [map concat] in E. apply app_eq_nil in E. tauto.
    + right. exists r, todo. split; [reflexivity|]. rewrite enc_reqs_cons in E.
      destruct (line_prefix _ _ _ _ (line_no_nl x2a (nlen r) ltac:(discriminate)) S E) as (l' & L).
      exists (l' ++ x0a :: concat (map enc_arg r)). split; [destruct l'; discriminate|].
      rewrite (app_assoc (b_data p) l'), <- L. unfold enc_req, CRLF. rewrite <- !app_assoc. reflexivity.
  - exists ((str "*" ++ dec (nlen (ds ++ a :: rest)) ++ CRLF ++ concat (map enc_arg ds)) ++ b_data p). split.
    + f_equal. rewrite <- (app_assoc _ (b_data p) w), E, enc_reqs_one, enc_req_split, rests_cons.
      unfold rests. rewrite <- !app_assoc. cbn [app]. rewrite <- !app_assoc. reflexivity.
    + right. exists (ds ++ a :: rest), todo. split; [reflexivity|]. rewrite rests_cons in E.
      destruct (line_prefix _ _ _ _ (line_no_nl x24 (blen a) ltac:(discriminate)) S E) as (l' & L).
      exists (l' ++ x0a :: (a ++ CRLF) ++ concat (map enc_arg rest)). split; [destruct l'; discriminate|].
      rewrite enc_req_split. rewrite <- (app_assoc _ (b_data p)). f_equal. rewrite (app_assoc (b_data p) l'), <- L. reflexivity.
  - rewrite S in E. cbn [app] in E. exists ((str "*" ++ dec (nlen (ds ++ a :: rest)) ++ CRLF ++ concat (map enc_arg ds))
       ++ (str "$" ++ dec (blen a) ++ [x0d]) ++ x0a :: f). split.
    + f_equal. rewrite E, enc_reqs_one, enc_req_split, Ea. unfold rests. rewrite <- !app_assoc. cbn [app]. rewrite <- !app_assoc. reflexivity.
    + right. exists (ds ++ a :: rest), todo. split; [reflexivity|].
      exists (g ++ concat (map enc_arg rest)). split; [destruct g; [congruence|discriminate]|].
      rewrite enc_req_split, Ea. rewrite <- !app_assoc. reflexivity.
Qed.

(* the main statement: whatever the packets and the reads *)
Lemma parsing_ok h rs es later : Forall req_ok rs -> arrived es ++ later = enc_reqs rs ->
  exists done todo part,
    let c := conn_run h es conn_new in
    rs = done ++ todo /\ p_trace (k_parser c) = map (map obj_of) done /\ p_errors (k_parser c) = []
    /\ arrived es = enc_reqs done ++ part ++ k_sock c
    /\ (part = [] \/ exists r todo', todo = r :: todo' /\ incomplete part r).
Proof.
  intros Hok E.
  destruct (run_ok h rs es later [] rs conn_new) as (done & todo & R & S).
  - cbn [conn_new k_sock k_parser app]. apply start_rel; auto.
  - discriminate.
  - apply stuck_nil. reflexivity.
  - destruct (consumed_shape _ _ _ _ _ R S) as (part & P1 & P2).
    exists done, todo, part. cbn zeta. split; [exact (rel_all _ _ _ _ _ R)|].
    split; [exact (rel_trace _ _ _ _ _ R)|]. split; [exact (rel_errors _ _ _ _ _ R)|]. split; [|exact P2].
    rewrite <- E in P1. rewrite !app_assoc in P1. apply app_inv_tail in P1. rewrite <- app_assoc in P1. exact P1.
Qed.

Lemma stays_open h rs es later : calm h -> Forall req_ok rs -> arrived es ++ later = enc_reqs rs ->
  k_open (conn_run h es conn_new) = true.
Proof.
  intros Hc Hok E. apply (run_open h rs es Hc later [] rs conn_new).
  - cbn [conn_new k_sock k_parser app]. apply start_rel; auto.
  - discriminate.
  - apply stuck_nil. reflexivity.
  - reflexivity.
Qed.

Lemma enc_req_nonempty r : enc_req r <> [].
Proof. discriminate. Qed.

Lemma incomplete_shorter a r : incomplete a r -> blen a < blen (enc_req r).
Proof.
  intros (b & Hb & ->). rewrite blen_app, (blen_length b). destruct b; [congruence|cbn [List.length]; lia].
Qed.

Lemma whole_stream done todo part : enc_reqs (done ++ todo) = enc_reqs done ++ part ->
  (part = [] \/ exists r todo', todo = r :: todo' /\ incomplete part r) -> todo = [].
Proof.
  intros E H. rewrite enc_reqs_app in E. apply app_inv_head in E. subst part.
  destruct todo as [|r todo]; [reflexivity|]. rewrite enc_reqs_one in H. destruct H as [H|(r' & t' & T & H)].
  - apply app_eq_nil in H. destruct H as [H _]. exfalso. exact (enc_req_nonempty r H).
  - injection T as <- <-. apply incomplete_shorter in H. rewrite blen_app in H. lia.
Qed.

Lemma done_unique d1 : forall t1 p1 d2 t2 p2, d1 ++ t1 = d2 ++ t2 ->
  blen (enc_reqs d1 ++ p1) = blen (enc_reqs d2 ++ p2) ->
  (p1 = [] \/ exists r t, t1 = r :: t /\ incomplete p1 r) -> (p2 = [] \/ exists r t, t2 = r :: t /\ incomplete p2 r) ->
  d1 = d2.
Proof.
  induction d1 as [|r d1 IH]; intros t1 p1 d2 t2 p2 E L H1 H2; destruct d2 as [|r2 d2].
  - reflexivity.
  - exfalso. cbn [app] in E. subst t1. rewrite enc_reqs_one in L. change (enc_reqs []) with (@nil byte) in L.
    cbn [app] in L. rewrite !blen_app in L.
    assert (0 < blen (enc_req r2)) by (rewrite blen_length; unfold enc_req; cbn [str app]; cbn; lia).
    destruct H1 as [->|(r & t & T & I1)]; [cbn [blen] in L; lia|].
    injection T as <- <-. apply incomplete_shorter in I1. lia.
  - exfalso. cbn [app] in E. subst t2. rewrite enc_reqs_one in L. change (enc_reqs []) with (@nil byte) in L.
    cbn [app] in L. rewrite !blen_app in L.
    assert (0 < blen (enc_req r)) by (rewrite blen_length; unfold enc_req; cbn [str app]; cbn; lia).
    destruct H2 as [->|(r' & t & T & I1)]; [cbn [blen] in L; lia|].
    injection T as <- <-. apply incomplete_shorter in I1. lia.
  - cbn [app] in E. assert (r = r2) by congruence. subst r2. f_equal.
    apply (IH t1 p1 d2 t2 p2); auto; [congruence|]. rewrite !enc_reqs_one, !blen_app in L. rewrite !blen_app. lia.
Qed.

Definition executed (h : list (list robj) -> status) (es : list conn_event) : list (list robj) :=
  p_trace (k_parser (conn_run h es conn_new)).
Definition unread (h : list (list robj) -> status) (es : list conn_event) : bytes := k_sock (conn_run h es conn_new).

Lemma all_executed h rs es : Forall req_ok rs -> arrived es = enc_reqs rs -> unread h es = [] ->
  executed h es = map (map obj_of) rs.
Proof.
  intros Hok E U. destruct (parsing_ok h rs es []) as (done & todo & part & A & B & C & D & F); auto.
  { rewrite app_nil_r. exact E. }
  unfold unread in U. rewrite U, app_nil_r, E in D. rewrite A in D.
  rewrite (whole_stream _ _ _ D F), app_nil_r in A. subst rs. exact B.
Qed.

Lemma same_executed h1 h2 rs es1 es2 l1 l2 : Forall req_ok rs ->
  arrived es1 ++ l1 = enc_reqs rs -> arrived es2 ++ l2 = enc_reqs rs ->
  blen (arrived es1) - blen (unread h1 es1) = blen (arrived es2) - blen (unread h2 es2) ->
  executed h1 es1 = executed h2 es2.
Proof.
  intros Hok E1 E2 L.
  destruct (parsing_ok h1 rs es1 l1 Hok E1) as (d1 & t1 & p1 & A1 & B1 & _ & D1 & F1).
  destruct (parsing_ok h2 rs es2 l2 Hok E2) as (d2 & t2 & p2 & A2 & B2 & _ & D2 & F2).
  unfold executed, unread in *. rewrite B1, B2. f_equal.
  apply (done_unique d1 t1 p1 d2 t2 p2); auto; [congruence|].
  rewrite D1, D2, !blen_app in L. rewrite !blen_app. lia.
Qed.
