(* PROOFS for C59: copying a namespace with db-sync *)
From Coq Require Import Strings.String Strings.Byte List NArith ZArith Bool Lia ZifyBool ZifyN ZifyNat.
From Verif Require Import Bytes BytesFacts Layout LayoutFacts Store Text TextFacts Commands SpecKV Machine Reach
  Ghost UserInv UserReq UserRun UserMove KvFacts CrashSpec CrashFacts Scan SpecScan ScanFacts ScanRun ScanTop ScanMix DbSync SpecSync.
Import ListNotations.
Open Scope N_scope.
Local Notation length := List.length.

(* ---- reading replies ---- *)
Definition clean (l : bytes) : bool := forallb (fun b => negb (b2n b =? 13)) l.

Lemma line_ok l r : clean l = true -> line (l ++ CRLF ++ r) = Some (l, r).
Proof.
  unfold clean. induction l as [|x l IH]; cbn [forallb]; intros C; [reflexivity|].
  apply andb_true_iff in C. destruct C as [Cx Cl]. specialize (IH Cl). cbn [app].
  destruct (l ++ CRLF ++ r) as [|y u] eqn:E; [destruct l; discriminate|].
  change (line (x :: y :: u)) with
    (if (b2n x =? 13) && (b2n y =? 10) then Some ([], u) else option_map (fun p => (x :: fst p, snd p)) (line (y :: u))).
  rewrite IH. destruct (b2n x =? 13); [discriminate|]. reflexivity.
Qed.

Lemma digits_clean l : forallb is_digit l = true -> clean l = true.
Proof.
  unfold clean. induction l as [|b l IH]; cbn [forallb]; auto. intros H. apply andb_true_iff in H. destruct H as [Hb Hl].
  rewrite IH by auto. unfold is_digit in Hb. lia.
Qed.

Lemma clean_app a b : clean (a ++ b) = clean a && clean b.
Proof. apply forallb_app. Qed.

Lemma count_dec n : count_of (dec n) = Some n.
Proof.
  unfold count_of. pose proof (dec_nonempty n) as NE. pose proof (dec_all n) as DA. pose proof (parse_dec n) as P.
  destruct (dec n) as [|b l]; [congruence|]. rewrite DA, P. reflexivity.
Qed.

Lemma dec_not_minus n : bseqb (dec n) (str "-1") = false.
Proof.
  apply bseqb_neq. intros E. pose proof (dec_all n) as DA. rewrite E in DA. discriminate DA.
Qed.

Lemma parse_line d c l r : clean (c :: l) = true -> parse (S d) ((c :: l) ++ CRLF ++ r) =
  (if b2n c =? 43 then Some (PStatus l, r)
          else if b2n c =? 45 then Some (PError l, r)
          else if b2n c =? 58 then Some (PInteger l, r)
          else if b2n c =? 36 then
            if bseqb l (str "-1") then Some (PNil, r)
            else match count_of l with
                 | None => None
                 | Some n => if n + 2 <=? blen r then Some (PString (firstn (N.to_nat n) r), skipn (N.to_nat (n + 2)) r) else None
                 end
          else if b2n c =? 42 then
            match count_of l with
            | None => None
            | Some n => option_map (fun p => (PArray (fst p), snd p)) (many (parse d) (length r) n r)
            end
          else None).
Proof. intros C. cbn [parse]. rewrite (line_ok _ _ C). reflexivity. Qed.

Lemma clean_dec n : clean (dec n) = true.
Proof. apply digits_clean, dec_all. Qed.

Lemma parse_bulk d b r : parse (S d) (bulk b ++ r) = Some (PString b, r).
Proof.
  unfold bulk. change (str "$") with [x24]. rewrite <- !app_assoc.
  change ([x24] ++ dec (blen b) ++ CRLF ++ b ++ CRLF ++ r) with ((x24 :: dec (blen b)) ++ CRLF ++ b ++ CRLF ++ r).
  rewrite parse_line by (cbn [clean forallb]; apply clean_dec). cbn [N.eqb b2n]. change (b2n x24) with 36. cbn [N.eqb Pos.eqb].
  rewrite dec_not_minus, count_dec. rewrite !blen_app. change (blen CRLF) with 2.
  replace (blen b + 2 <=? blen b + (2 + blen r)) with true by lia.
  assert (L : length b = N.to_nat (blen b)) by (rewrite blen_length; lia).
  f_equal. f_equal.
  - f_equal. now apply firstn_exact.
  - rewrite app_assoc. apply skipn_exact. rewrite app_length. cbn [length CRLF]. lia.
Qed.

Lemma parse_int d t r : clean t = true -> parse (S d) (str ":" ++ t ++ CRLF ++ r) = Some (PInteger t, r).
Proof.
  intros C. change (str ":" ++ t ++ CRLF ++ r) with ((x3a :: t) ++ CRLF ++ r). rewrite parse_line; [reflexivity|].
  cbn [clean forallb]. exact C.
Qed.

Lemma parse_err d t r : clean t = true -> parse (S d) (str "-" ++ t ++ CRLF ++ r) = Some (PError t, r).
Proof.
  intros C. change (str "-" ++ t ++ CRLF ++ r) with ((x2d :: t) ++ CRLF ++ r). rewrite parse_line; [reflexivity|].
  cbn [clean forallb]. exact C.
Qed.

Lemma parse_arr d n r : parse (S d) (arrayhdr n ++ r) =
  option_map (fun p => (PArray (fst p), snd p)) (many (parse d) (length r) n r).
Proof.
  unfold arrayhdr. rewrite <- !app_assoc. change (str "*" ++ dec n ++ CRLF ++ r) with ((x2a :: dec n) ++ CRLF ++ r).
  rewrite parse_line by (cbn [clean forallb]; apply clean_dec). change (b2n x2a) with 42. cbn [N.eqb Pos.eqb].
  now rewrite count_dec.
Qed.

Lemma many_ok {A} one (enc : A -> bytes) (val : A -> rrep) : (forall x r, one (enc x ++ r) = Some (val x, r)) ->
  forall xs fuel r, (length xs <= fuel)%nat -> many one fuel (nlen xs) (flat_map enc xs ++ r) = Some (map val xs, r).
Proof.
  intros One. induction xs as [|x xs IH]; intros fuel r F; [destruct fuel; reflexivity|].
  cbn [length] in F. destruct fuel as [|fuel]; [lia|]. cbn [many nlen flat_map map].
  destruct (N.eqb_spec (N.succ (nlen xs)) 0); [lia|]. rewrite <- app_assoc, One.
  replace (N.succ (nlen xs) - 1) with (nlen xs) by lia. rewrite IH by lia. reflexivity.
Qed.

Lemma clean_signed n : clean (print_int32 n) = true.
Proof. unfold print_int32. destruct (n <? 2 ^ 31); [apply clean_dec|]. rewrite clean_app, clean_dec. reflexivity. Qed.

Definition row_val (r : bytes * (bytes * N)) : rrep :=
  let '(k, (v, ts)) := r in PArray [PString k; PInteger (dec (blen v)); PInteger (print_int32 ts)].

Lemma parse_row d x r : parse (S (S d)) (scan_row x ++ r) = Some (row_val x, r).
Proof.
  destruct x as [k [v ts]]. unfold scan_row, row_val.
  replace ((str "*3" ++ CRLF ++ bulk k ++ str ":" ++ dec (blen v) ++ CRLF ++ str ":" ++ print_int32 ts ++ CRLF) ++ r)
    with (arrayhdr 3 ++ bulk k ++ (str ":" ++ dec (blen v) ++ CRLF ++ (str ":" ++ print_int32 ts ++ CRLF ++ r)))
    by (unfold arrayhdr; change (dec 3) with (str "3"); rewrite <- !app_assoc; reflexivity).
  rewrite parse_arr.
  match goal with |- context [many _ ?f _ _] => assert (F : (3 <= f)%nat) end.
  { rewrite !app_length. cbn [length str CRLF]. unfold str. cbn. lia. }
  match goal with |- context [many _ ?f _ _] => set (fuel := f) in * end. clearbody fuel.
  destruct fuel as [|[|[|fuel]]]; try lia. cbn [many]. change (3 =? 0) with false. cbn iota.
  rewrite parse_bulk. change (3 - 1 =? 0) with false. cbn iota. rewrite parse_int by apply clean_dec.
  change (3 - 1 - 1 =? 0) with false. cbn iota. rewrite parse_int by apply clean_signed.
  change (3 - 1 - 1 - 1) with 0. destruct fuel; reflexivity.
Qed.

Lemma row_len x : (1 <= length (scan_row x))%nat.
Proof. destruct x as [k [v ts]]. unfold scan_row. rewrite app_length. change (length (str "*3")) with 2%nat. lia. Qed.

Lemma rows_len rows : (length rows <= length (flat_map scan_row rows))%nat.
Proof.
  induction rows as [|x rows IH]; cbn [flat_map length]; [lia|]. rewrite app_length. pose proof (row_len x). lia.
Qed.

Lemma hiredis_rows cur rows :
  hiredis (arrayhdr 2 ++ bulk cur ++ arrayhdr (nlen rows) ++ flat_map scan_row rows) =
  Some (PArray [PString cur; PArray (map row_val rows)]).
Proof.
  unfold hiredis. rewrite parse_arr.
  match goal with |- context [many _ ?f _ _] => assert (F : (2 <= f)%nat) end.
  { unfold arrayhdr. rewrite !app_length. change (length (str "*")) with 1%nat. change (length CRLF) with 2%nat. lia. }
  match goal with |- context [many _ ?f _ _] => set (fuel := f) in * end. clearbody fuel.
  destruct fuel as [|[|fuel]]; try lia. cbn [many]. change (2 =? 0) with false. cbn iota. rewrite parse_bulk.
  change (2 - 1 =? 0) with false. cbn iota.
  replace (arrayhdr (nlen rows) ++ flat_map scan_row rows) with (arrayhdr (nlen rows) ++ flat_map scan_row rows ++ []) by (now rewrite app_nil_r).
  rewrite parse_arr. rewrite (many_ok _ scan_row row_val) by (try apply parse_row; rewrite app_nil_r; apply rows_len).
  cbn [option_map fst snd]. change (2 - 1 - 1) with 0. destruct fuel; reflexivity.
Qed.

Lemma keys_rows rows : keys_of_items (map row_val rows) = Some (map fst rows).
Proof. induction rows as [|[k [v ts]] rows IH]; [reflexivity|]. cbn [map keys_of_items row_val]. rewrite IH. reflexivity. Qed.

Lemma hiredis_bulk b : hiredis (bulk b) = Some (PString b).
Proof. unfold hiredis. rewrite <- (app_nil_r (bulk b)), parse_bulk. reflexivity. Qed.

(* ---- running events, with a bound on the number of index files ---- *)
Lemma run_files g n es : g_ok g -> Forall event_wf es -> forall c s gi H, UInv n s gi H -> nlen gi + nlen es < 4294967296 ->
  forall o c' s', run_events g es (c, s) = Some (o, (c', s')) -> nlen (dk_i (dk s')) <= nlen gi + nlen es.
Proof.
  intros Hg. induction es as [|e es IH]; intros W c s gi H U B o c' s' R.
  - cbn [run_events] in R. injection R as <- <- <-. rewrite (nlen_files _ _ _ _ U). lia.
  - inversion W as [|? ? We Wes]; subst. cbn [nlen run_events] in *.
    destruct (event_ok g n e c s gi H Hg We U) as (o1 & c1 & s1 & gi1 & H1 & X1 & E1 & E2 & _ & _ & _ & _ & _ & E8).
    { unfold files_lt. rewrite (nlen_files _ _ _ _ U). lia. }
    rewrite E1 in R. destruct (run_events g es (c1, s1)) as [[o2 [c2 s2]]|] eqn:R2; [|discriminate]. injection R as <- <- <-.
    pose proof (IH Wes c1 s1 gi1 H1 E2 ltac:(lia) _ _ _ R2). lia.
Qed.

Definition quiet (es : list event) : Prop := Forall is_request es.

Lemma quiet_wf es : quiet es -> Forall event_wf es.
Proof. apply Forall_impl. intros [p now q|c|]; cbn; auto. Qed.

Lemma quiet_cfg es : quiet es -> forall c m, fst (snd (kv_run es (c, m))) = c.
Proof.
  induction 1 as [|e es W F IH]; intros c m; [reflexivity|]. destruct e as [p now q|c1|]; cbn in W; try tauto. cbn [kv_run kv_event].
  destruct (kv_step p now c q m) as [r m1]. specialize (IH c m1). destruct (kv_run es (c, m1)) as [o2 [c2 m2]]. exact IH.
Qed.

(* the replies, the new map, and where the records are *)
Lemma run_quiet g n es : g_ok g -> quiet es -> forall c s gi H, UInv n s gi H -> small (livem (flat 0 gi) H) ->
  nlen gi + nlen es < 4294967296 ->
  exists s' gi' H', run_events g es (c, s) = Some (map enc_reply (fst (kv_run es (c, livem (flat 0 gi) H))), (c, s')) /\
    UInv n s' gi' H' /\ small (livem (flat 0 gi') H') /\ nlen gi' <= nlen gi + nlen es /\ grows (flat 0 gi) (flat 0 gi') /\
    (exists X, H' = H ++ X) /\ (forall i x, nth_error (flat 0 gi) i = Some x -> spares (l_id x) es -> nth_error (flat 0 gi') i = Some x) /\
    snd (kv_run es (c, livem (flat 0 gi) H)) = (c, livem (flat 0 gi') H').
Proof.
  intros Hg Q c s gi H U Sm B. pose proof (quiet_wf _ Q) as W.
  pose proof (files_fit_short g n es Hg W c s gi H U B) as FF.
  destruct (run_moved g n es Hg W c s gi H U FF) as (o & c' & s' & gi' & H' & R & U' & Gr & X & Sp & Kr).
  destruct (run_ok g n es Hg W c s gi H U FF) as (o2 & c2 & s2 & gi2 & H2 & X2 & R2 & _ & _ & _ & _ & _ & Eo).
  rewrite R in R2. injection R2 as <- <- <-. pose proof (quiet_cfg es Q c (livem (flat 0 gi) H)) as Ec. rewrite Kr in Ec. cbn [fst] in Ec. subst c'.
  pose proof (small_kv_run es W c _ Sm) as Sm'. rewrite Kr in Sm'. cbn [snd] in Sm'.
  pose proof (run_files g n es Hg W c s gi H U B _ _ _ R) as L. rewrite (nlen_files _ _ _ _ U') in L.
  exists s', gi', H'. rewrite R, Eo. auto 10.
Qed.

Lemma kv_run_app a : forall b st, kv_run (a ++ b) st =
  (fst (kv_run a st) ++ fst (kv_run b (snd (kv_run a st))), snd (kv_run b (snd (kv_run a st)))).
Proof.
  induction a as [|e a IH]; intros b st; cbn [app kv_run].
  - cbn [fst snd app]. destruct (kv_run b st). reflexivity.
  - destruct (kv_event e st) as [o1 st1]. rewrite IH. destruct (kv_run a st1) as [o2 st2]. cbn [fst snd]. now rewrite app_assoc.
Qed.

(* ---- what is copied ---- *)
Definition val (k : bytes) (m : kv) : option bytes := option_map fst (kget k m).

Lemma small_get k m v ts : small m -> kget k m = Some (v, ts) -> blen v <= 8388608.
Proof.
  intros S. induction S as [|[k' [v' t']] m Hx S IH]; cbn [kget]; [discriminate|]. destruct (bseqb k' k); auto.
  intros E. injection E as -> ->. exact Hx.
Qed.

Lemma got n c s gi H p now k r : UInv n s gi H -> small (livem (flat 0 gi) H) -> is_frozen c = false ->
  r = fst (kv_step p now c (QGet k) (livem (flat 0 gi) H)) ->
  match kget k (livem (flat 0 gi) H) with
  | Some (v, _) => hiredis (enc_reply r) = Some (PString v) /\ blen v <= 8388608
  | None => exists i, hiredis (enc_reply r) = Some i /\ blen (text_of i) <= 8388608
  end.
Proof.
  intros U Sm Fz ->. cbn [kv_step fst]. unfold kv_read. unfold is_frozen in Fz.
  destruct (kget k (livem (flat 0 gi) H)) as [[v ts]|] eqn:E.
  - destruct (kget_valid _ _ _ _ _ _ U E) as [K1 K2]. destruct (N.eqb_spec (blen k) 0); [lia|]. destruct (N.ltb_spec 255 (blen k)); [lia|].
    replace (n_lock c =? 2) with false by (symmetry; exact Fz). cbn [get_reply]. split; [apply hiredis_bulk|]. eapply small_get; eauto.
  - assert (X : forall e, clean (str e) = true -> blen (str e) <= 8388608 -> exists i, hiredis (enc_reply (RErr e)) = Some i /\ blen (text_of i) <= 8388608).
    { intros e C L. exists (PError (str e)). split; [|exact L]. unfold hiredis. cbn [enc_reply].
      rewrite <- (app_nil_r CRLF), parse_err by exact C. reflexivity. }
    destruct (blen k =? 0); [apply X; vm_compute; congruence|]. destruct (255 <? blen k); [apply X; vm_compute; congruence|].
    replace (n_lock c =? 2) with false by (symmetry; exact Fz). exists PNil. split; [vm_compute; reflexivity|vm_compute; congruence].
Qed.

(* the target takes every write *)
Definition takes (p : perm) (d : nscfg) : Prop := p_writable p = true /\ n_lock d = 0 /\ n_worm d = false /\ n_maxsize d = 0.

Lemma set_taken p now d k v m : takes p d -> 0 < blen k -> blen k <= 255 ->
  val k (snd (kv_step p now d (QSet k v None) m)) = Some v.
Proof.
  intros (T1 & T2 & T3 & T4) K1 K2. cbn [kv_step]. unfold kv_set. rewrite T1, T2, T3, T4. cbn [negb].
  destruct (N.ltb_spec 255 (blen k)); [lia|]. change (0 =? 2) with false. change (negb (0 =? 0)) with false. cbn iota.
  unfold over_quota. change (negb (0 =? 0)) with false. cbn [andb]. destruct (N.eqb_spec (blen k) 0); [lia|].
  replace (match kget k m with Some _ => false | None => false end) with false by (now destruct (kget k m)).
  unfold val. destruct (kget k m) as [[v' t']|] eqn:E; cbn [snd].
  - destruct (bseqb_spec v' v) as [->|N]; cbn [snd]; [rewrite E; reflexivity|]. rewrite kget_kput, bseqb_refl. reflexivity.
  - rewrite kget_kput, bseqb_refl. reflexivity.
Qed.

Lemma in_step (k0 k : bytes) l : In k (k0 :: l) -> k0 = k \/ In k l. Proof. auto. Qed.

Lemma fetch_ok gs gt ns nt ps pt : g_ok gs -> g_ok gt -> forall keys ts c s gi H d t gj K src dst,
  UInv ns s gi H -> small (livem (flat 0 gi) H) -> UInv nt t gj K -> small (livem (flat 0 gj) K) ->
  is_frozen c = false -> takes pt d -> quiet (flat_map t_src ts) -> quiet (flat_map t_dst ts) ->
  nlen gi + nlen (flat_map t_src ts) + nlen ts < 4294967296 -> nlen gj + nlen (flat_map t_dst ts) + nlen ts < 4294967296 ->
  fetchsync gs gt ps pt keys ts (c, s) (d, t) = Some (src, dst) ->
  exists s' gi' H' t' gj' K', src = (c, s') /\ dst = (d, t') /\
    UInv ns s' gi' H' /\ small (livem (flat 0 gi') H') /\ UInv nt t' gj' K' /\ small (livem (flat 0 gj') K') /\
    nlen gi' <= nlen gi + nlen (flat_map t_src ts) + nlen ts /\ nlen gj' <= nlen gj + nlen (flat_map t_dst ts) + nlen ts /\
    grows (flat 0 gi) (flat 0 gi') /\ (exists X, H' = H ++ X) /\
    (forall i x, nth_error (flat 0 gi) i = Some x -> spares (l_id x) (flat_map t_src ts) -> nth_error (flat 0 gi') i = Some x) /\
    forall k, spares k (flat_map t_src ts) -> spares k (flat_map t_dst ts) ->
      kget k (livem (flat 0 gi') H') = kget k (livem (flat 0 gi) H) /\
      (~ In k keys -> kget k (livem (flat 0 gj') K') = kget k (livem (flat 0 gj) K)) /\
      forall v w, kget k (livem (flat 0 gi) H) = Some (v, w) -> In k keys \/ val k (livem (flat 0 gj) K) = Some v ->
        val k (livem (flat 0 gj') K') = Some v.
Proof.
  intros Hgs Hgt. induction keys as [|k0 keys IH]; intros ts c s gi H d t gj K src dst U Sm V Sn Fz Tk Q1 Q2 B1 B2 F.
  - cbn [fetchsync] in F. injection F as <- <-. exists s, gi, H, t, gj, K. do 8 (split; [first [reflexivity|assumption|lia]|]).
    split; [apply grows_refl|]. split; [exists []; now rewrite app_nil_r|]. split; [auto|].
    { intros k S1 S2. split; [reflexivity|]. split; [reflexivity|]. intros v w E [[]|E2]. exact E2. }
  - cbn [fetchsync] in F. destruct ts as [|tn ts]; [discriminate|]. cbn [flat_map nlen] in *. rewrite nlen_app in *.
    apply Forall_app in Q1, Q2. destruct Q1 as [Q1 Q1'], Q2 as [Q2 Q2']. unfold served in F.
    destruct (run_quiet gs ns (t_src tn) Hgs Q1 c s gi H U Sm ltac:(lia)) as (s1 & gi1 & H1 & R1 & U1 & Sm1 & L1 & Gr1 & (X1 & EX1) & Sp1 & Kr1).
    rewrite R1 in F. cbn [run_events run_event] in F.
    assert (RG : run_req gs ps (t_now tn) (QGet k0) c s1 = (enc_reply (fst (kv_step ps (t_now tn) c (QGet k0) (livem (flat 0 gi1) H1))), s1)).
    { assert (FL : files_lt s1) by (unfold files_lt; rewrite (nlen_files _ _ _ _ U1); lia).
      destruct (req_ok gs ns s1 gi1 H1 ps (t_now tn) (QGet k0) c U1 Hgs I FL) as (Rq & _). cbn [run_req fst] in *. now rewrite <- Rq. }
    rewrite RG in F. cbn [app] in F.
    pose proof (got ns c s1 gi1 H1 ps (t_now tn) k0 _ U1 Sm1 Fz eq_refl) as G.
    assert (exists i, hiredis (enc_reply (fst (kv_step ps (t_now tn) c (QGet k0) (livem (flat 0 gi1) H1)))) = Some i /\ blen (text_of i) <= 8388608 /\
      forall v w, kget k0 (livem (flat 0 gi1) H1) = Some (v, w) -> text_of i = v) as (i & Ei & Li & Gi).
    { destruct (kget k0 (livem (flat 0 gi1) H1)) as [[v w]|].
      - destruct G as [G1 G2]. exists (PString v). split; [exact G1|]. split; [exact G2|]. intros v' w' E'. cbn [text_of]. congruence.
      - destruct G as (i & G1 & G2). exists i. split; [exact G1|]. split; [exact G2|]. discriminate. }
    rewrite Ei in F. set (sete := EReq pt (t_now tn) (QSet k0 (text_of i) None)) in *.
    assert (Q3 : quiet (t_dst tn ++ [sete])) by (apply Forall_app; split; [exact Q2|]; constructor; [|constructor]; cbn; auto).
    destruct (run_quiet gt nt (t_dst tn ++ [sete]) Hgt Q3 d t gj K V Sn) as (t1 & gj1 & K1 & R2 & V1 & Sn1 & L2 & _ & _ & _ & Kr2).
    { rewrite nlen_app. cbn [nlen]. lia. }
    rewrite R2 in F. rewrite nlen_app in L2. cbn [nlen] in L2.
    destruct (IH ts c s1 gi1 H1 d t1 gj1 K1 src dst U1 Sm1 V1 Sn1 Fz Tk Q1' Q2' ltac:(lia) ltac:(lia) F) as
      (s' & gi' & H' & t' & gj' & K' & E1 & E2 & U' & Sm' & V' & Sn' & N1 & N2 & Gr & (X & EX) & Sp & Fin).
    exists s', gi', H', t', gj', K'. do 8 (split; [first [assumption|rewrite ?nlen_app; lia]|]). split; [eapply grows_trans; eauto|].
    split; [exists (X1 ++ X); subst; now rewrite app_assoc|]. split.
    { intros j x Ej S0. apply Forall_app in S0. destruct S0 as [S1 S2]. apply Sp; auto. }
    intros k S1 S2. apply Forall_app in S1, S2. destruct S1 as [S1 S1'], S2 as [S2 S2'].
    destruct (Fin k S1' S2') as (F1 & F2 & F3).
    pose proof (kv_run_other k (t_src tn) S1 c (livem (flat 0 gi) H)) as O1. rewrite Kr1 in O1. cbn [snd] in O1.
    split; [congruence|].
    assert (Km : livem (flat 0 gj1) K1 = snd (kv_step pt (t_now tn) d (QSet k0 (text_of i) None) (snd (snd (kv_run (t_dst tn) (d, livem (flat 0 gj) K)))))).
    { rewrite kv_run_app in Kr2. cbn [snd] in Kr2. pose proof (quiet_cfg _ Q2 d (livem (flat 0 gj) K)) as Ed.
      destruct (snd (kv_run (t_dst tn) (d, livem (flat 0 gj) K))) as [d1 m1]. cbn [fst snd] in *. subst d1.
      unfold sete in Kr2. cbn [kv_run kv_event] in Kr2. destruct (kv_step pt (t_now tn) d (QSet k0 (text_of i) None) m1) as [r2 m2].
      cbn [snd] in Kr2. injection Kr2 as <-. reflexivity. }
    pose proof (kv_run_other k (t_dst tn) S2 d (livem (flat 0 gj) K)) as O2.
    assert (Oth : k0 <> k -> kget k (livem (flat 0 gj1) K1) = kget k (livem (flat 0 gj) K)).
    { intros N. rewrite Km, <- O2. apply kv_step_other. cbn [target]. congruence. }
    split.
    + intros N. cbn [In] in N. rewrite F2 by tauto. apply Oth. tauto.
    + intros v w E D. apply (F3 v w); [congruence|].
      destruct (bseqb_spec k0 k) as [->|N0].
      * right. rewrite Km. rewrite (Gi v w) by congruence. destruct (kget_valid _ _ _ _ _ _ U E). now apply set_taken.
      * destruct D as [D|D]; [apply in_step in D; destruct D; [congruence|now left]|]. right. unfold val in *. rewrite Oth; auto.
Qed.

Lemma kget_filter k m : kget k m = match filter (byid k) m with [] => None | r :: _ => Some (snd r) end.
Proof.
  induction m as [|[k' v] m IH]; [reflexivity|]. cbn [kget filter]. unfold byid at 1. cbn [fst]. destruct (bseqb k' k); auto.
Qed.

Lemma kget_at G H q y v : Forall2 same_id G H -> live_last G -> nth_error G q = Some y -> nth_error H q = Some v -> live y = true ->
  kget (l_id y) (livem G H) = Some (snd v).
Proof. intros F LL E1 E2 L. rewrite kget_filter, (live_once G H F LL q y v E1 E2 L). reflexivity. Qed.

Lemma not_in_keys k (rows m : kv) : incl rows m -> kget k m = None -> ~ In k (map fst rows).
Proof.
  intros I N J. apply kget_none in N. apply N. apply in_map_iff in J. destruct J as (r & <- & J). apply in_map. now apply I.
Qed.

Lemma sync_ok gs gt ns nt ps pt : g_ok gs -> g_ok gt -> forall ws cur keys c s gi H d t gj K from src dst,
  UInv ns s gi H -> small (livem (flat 0 gi) H) -> UInv nt t gj K -> small (livem (flat 0 gj) K) ->
  is_frozen c = false -> takes pt d -> quiet (at_source ws) -> quiet (at_target ws) ->
  Forall (fun w => 1 <= p_room w)%nat ws ->
  nlen gi + nlen (at_source ws) + copies ws < 4294967296 -> nlen gj + nlen (at_target ws) + copies ws < 4294967296 ->
  cursor_at cur from (flat 0 gi) ->
  synchronize gs gt ps pt ws cur keys (c, s) (d, t) = Some (src, dst) ->
  exists s' t' gj' K', src = (c, s') /\ dst = (d, t') /\ UInv nt t' gj' K' /\ nlen gj' < 4294967296 /\
    forall k, spares k (at_source ws) -> spares k (at_target ws) ->
      (kget k (livem (flat 0 gi) H) = None -> ~ In k keys -> kget k (livem (flat 0 gj') K') = kget k (livem (flat 0 gj) K)) /\
      forall q y v, nth_error (flat 0 gi) q = Some y -> nth_error H q = Some v -> live y = true -> l_id y = k ->
        In k keys \/ val k (livem (flat 0 gj) K) = Some (fst (snd v)) \/ (from <= q)%nat ->
        val k (livem (flat 0 gj') K') = Some (fst (snd v)).
Proof.
  intros Hgs Hgt. induction ws as [|w ws IH]; intros cur keys c s gi H d t gj K from src dst U Sm V Sn Fz Tk Q1 Q2 Rm B1 B2 C F; [discriminate|].
  cbn [synchronize] in F. unfold at_source, at_target, copies in *. cbn [flat_map] in *. repeat rewrite nlen_app in B1. repeat rewrite nlen_app in B2.
  apply Forall_app in Q1, Q2. destruct Q1 as [Q1 Q1'], Q2 as [Q2 Q2']. apply Forall_app in Q1. destruct Q1 as [Q1 Q1t].
  inversion Rm as [|? ? Rm1 Rm2]; subst. unfold served in F.
  destruct (run_quiet gs ns (p_src w) Hgs Q1 c s gi H U Sm ltac:(lia)) as (s1 & gi1 & H1 & R1 & U1 & Sm1 & L1 & Gr1 & (X1 & EX1) & Sp1 & Kr1).
  rewrite R1 in F. cbn [fst snd] in F. pose proof (cursor_grows _ _ _ _ C Gr1) as C1.
  assert (FL1 : files_lt s1) by (unfold files_lt; rewrite (nlen_files _ _ _ _ U1); lia).
  rewrite (call_ok _ _ _ _ c (str "SCAN") (p_room w) cur from U1 FL1 Fz C1) in F.
  set (G := flat 0 gi1) in *. set (L := filter live (skipn from G)) in *.
  assert (VS : Forall2 same_id G H1) by (eapply ver_same; apply U1).
  assert (LL : live_last G) by apply U1.
  assert (Hroom : (1 <= room cur (p_room w))%nat) by (destruct cur; cbn [room]; lia).
  destruct (hiredis (command_scan_send_scanlist (firstn (room cur (p_room w)) L))) as [reply|] eqn:Hr; [|discriminate].
  destruct (fetchsync gs gt ps pt keys (p_turns w) (c, s1) (d, t)) as [[src2 dst2]|] eqn:Fe; [|discriminate].
  destruct (fetch_ok gs gt ns nt ps pt Hgs Hgt keys (p_turns w) c s1 gi1 H1 d t gj K src2 dst2 U1 Sm1 V Sn Fz Tk Q1t Q2 ltac:(lia) ltac:(lia) Fe)
    as (s2 & gi2 & H2 & t2 & gj2 & K2 & -> & -> & U2 & Sm2 & V2 & Sn2 & N1 & N2 & Gr2 & (X2 & EX2) & Sp2 & Fin). fold G in Gr2, Sp2.
  (* a key that is left alone, up to the copies of this pass *)
  assert (Step : forall k, spares k ((p_src w ++ flat_map t_src (p_turns w)) ++ flat_map (fun w => p_src w ++ flat_map t_src (p_turns w)) ws) ->
    spares k (flat_map t_dst (p_turns w) ++ flat_map (fun w => flat_map t_dst (p_turns w)) ws) ->
    kget k (livem G H1) = kget k (livem (flat 0 gi) H) /\ kget k (livem (flat 0 gi2) H2) = kget k (livem (flat 0 gi) H) /\
    (~ In k keys -> kget k (livem (flat 0 gj2) K2) = kget k (livem (flat 0 gj) K)) /\
    forall q y v, nth_error (flat 0 gi) q = Some y -> nth_error H q = Some v -> live y = true -> l_id y = k ->
      nth_error G q = Some y /\ nth_error H1 q = Some v /\ nth_error (flat 0 gi2) q = Some y /\ nth_error H2 q = Some v /\
      (In k keys \/ val k (livem (flat 0 gj) K) = Some (fst (snd v)) -> val k (livem (flat 0 gj2) K2) = Some (fst (snd v)))).
  { intros k S1 S2. apply Forall_app in S1, S2. destruct S1 as [S1 _], S2 as [S2 _]. apply Forall_app in S1. destruct S1 as [S1 S1t].
    pose proof (kv_run_other k (p_src w) S1 c (livem (flat 0 gi) H)) as O1. rewrite Kr1 in O1. cbn [snd] in O1.
    destruct (Fin k S1t S2) as (F1 & F2 & F3). fold G in O1, F1, F3.
    split; [exact O1|]. split; [congruence|]. split; [exact F2|]. intros q y v E1 E2 Ly Ek.
    assert (E1' : nth_error G q = Some y) by (apply Sp1; auto; now rewrite Ek).
    assert (E2' : nth_error H1 q = Some v) by (rewrite EX1, nth_error_app1; auto; apply nth_error_Some; congruence).
    assert (E3' : nth_error (flat 0 gi2) q = Some y) by (apply Sp2; auto; now rewrite Ek).
    assert (E4' : nth_error H2 q = Some v) by (rewrite EX2, nth_error_app1; auto; apply nth_error_Some; congruence).
    do 4 (split; [assumption|]). pose proof (kget_at _ _ _ _ _ VS LL E1' E2' Ly) as Kg. rewrite Ek in Kg.
    destruct v as [kk [vv ww]]. cbn [fst snd] in *. intros D. apply (F3 vv ww Kg D). }
  destruct (firstn (room cur (p_room w)) L) as [|x L0 _] eqn:EL using rev_ind.
  - (* nothing left *)
    assert (L = []) as EL0 by (destruct L; auto; destruct (room cur (p_room w)); [lia|discriminate]).
    vm_compute in Hr. injection Hr as <-. injection F as <- <-.
    exists s2, t2, gj2, K2. do 3 (split; [auto|]). split; [lia|]. intros k S1 S2.
    destruct (Step k S1 S2) as (T1 & T2 & T3 & T4). split; [auto|]. intros q y v E1 E2 Ly Ek D.
    destruct (T4 q y v E1 E2 Ly Ek) as (P1 & P2 & _ & _ & P5). destruct D as [D|[D|D]]; auto. exfalso.
    assert (I : In y L).
    { unfold L. apply filter_In. split; auto. rewrite <- (firstn_skipn from G) in P1.
      assert (length (firstn from G) <= from)%nat by (rewrite firstn_length; lia).
      rewrite nth_error_app2 in P1 by lia. eapply nth_error_In; eauto. }
    rewrite EL0 in I. exact I.
  - assert (EL2 : L = L0 ++ x :: skipn (room cur (p_room w)) L).
    { rewrite <- (firstn_skipn (room cur (p_room w)) L) at 1. rewrite EL, <- app_assoc. reflexivity. }
    destruct (filter_split _ _ _ _ _ EL2) as (A0 & B0 & EB & _ & EA0).
    assert (Lx : live x = true).
    { assert (In x L) as I by (rewrite EL2; apply in_app_iff; right; now left). apply filter_In in I. tauto. }
    assert (Hfrom : (from <= length G)%nat).
    { destruct (Nat.leb_spec from (length G)); auto. rewrite skipn_all2 in EB by lia. destruct A0; discriminate. }
    assert (EG : G = firstn from G ++ (A0 ++ [x]) ++ B0).
    { rewrite <- (firstn_skipn from G) at 1. rewrite EB, <- app_assoc. reflexivity. }
    assert (LF : length (firstn from G) = from) by (rewrite firstn_length; lia).
    destruct (part_rows _ _ _ _ _ EG VS LL) as [P1 P2]. rewrite LF in P1, P2.
    set (Hp := firstn (length (A0 ++ [x])) (skipn from H1)) in *. set (rows := livem (A0 ++ [x]) Hp) in *.
    assert (RM : Forall2 rowm (L0 ++ [x]) rows).
    { replace (L0 ++ [x]) with (filter live (A0 ++ [x])) by (rewrite filter_app, EA0; cbn [filter]; now rewrite Lx).
      assert (WG : Forall loc_wf G) by apply U1. assert (VG := fi_ver _ _ _ _ (ui_f _ _ _ _ U1)). fold G in VG.
      pose proof VG as VG2. rewrite EG in VG2. apply Forall2_app_inv_l in VG2. destruct VG2 as (Ha & H23 & Fa & F23 & EH).
      apply Forall2_app_inv_l in F23. destruct F23 as (H2' & H3 & F2 & F3 & ->).
      assert (Hp = H2') as EH2.
      { unfold Hp. rewrite EH, skipn_exact by (rewrite <- (forall2_length _ _ _ Fa); exact LF).
        apply firstn_exact. symmetry. eapply forall2_length; eauto. }
      eapply rows_user.
      - rewrite EG in WG. apply Forall_app in WG. destruct WG as [_ WG]. apply Forall_app in WG. apply WG.
      - rewrite EH2. exact F2.
      - unfold small in *. rewrite Forall_forall in *. intros r Hr0. apply Sm1. now apply P1. }
    rewrite send_snoc in Hr. pose proof (rows_text _ _ RM) as RT. unfold srow in *. rewrite RT in Hr.
    replace (nlen (L0 ++ [x])) with (nlen rows) in Hr by (rewrite !nlen_length; now rewrite (forall2_length _ _ _ RM)).
    rewrite hiredis_rows in Hr. injection Hr as <-. rewrite keys_rows in F. cbn [text_of] in F.
    assert (Hx : nth_error G (from + length A0) = Some x).
    { rewrite EG. rewrite nth_error_app2 by lia. rewrite LF. replace (from + length A0 - from)%nat with (length A0) by lia.
      rewrite <- app_assoc. rewrite nth_error_app2, Nat.sub_diag by lia. reflexivity. }
    assert (C' : cursor_at (Some (cursor_of x)) (S (from + length A0)) (flat 0 gi2)).
    { eapply cursor_grows; [|exact Gr2]. cbn [cursor_at]. eauto. }
    destruct (IH (Some (cursor_of x)) (map fst rows) c s2 gi2 H2 d t2 gj2 K2 _ src dst U2 Sm2 V2 Sn2 Fz Tk Q1' Q2' Rm2 ltac:(lia) ltac:(lia) C' F)
      as (s' & t' & gj' & K' & E1 & E2 & V' & N' & Done).
    exists s', t', gj', K'. do 4 (split; [assumption|]). intros k S1 S2.
    destruct (Step k S1 S2) as (T1 & T2 & T3 & T4). apply Forall_app in S1, S2. destruct (Done k (proj2 S1) (proj2 S2)) as (D1 & D2).
    split.
    + intros Kn Nk. rewrite D1; [auto|congruence|]. eapply not_in_keys; [exact P1|congruence].
    + intros q y v Ey Ev Ly Ek D. destruct (T4 q y v Ey Ev Ly Ek) as (Y1 & Y2 & Y3 & Y4 & Y5).
      apply (D2 q y v Y3 Y4 Ly Ek). destruct D as [D|[D|D]]; [right; left; auto|right; left; auto|].
      pose proof (P2 q y v Y1 Y2 Ly) as Pq. rewrite app_length in Pq. cbn [length] in Pq.
      destruct (Nat.leb_spec from q); [|lia]. cbn [andb] in Pq.
      destruct (Nat.ltb_spec q (from + (length A0 + 1))) as [J|J]; [|right; right; lia].
      left. rewrite Ek in Pq. assert (I : In v (filter (byid k) rows)) by (rewrite Pq; now left).
      apply filter_In in I. destruct I as [I1 I2]. unfold byid in I2. destruct (bseqb_spec (fst v) k) as [<-|]; [|discriminate].
      now apply in_map.
Qed.

(* ---- what clients see ---- *)
Lemma get_map g n c s gi H k : g_ok g -> UInv n s gi H -> files_lt s ->
  get_of g k (c, s) = enc_reply (kv_read c k get_reply (livem (flat 0 gi) H)).
Proof.
  intros Hg U FL. unfold get_of. cbn [fst snd].
  destruct (req_ok g n s gi H (mkPerm false false) 0 (QGet k) c U Hg I FL) as (R & _). exact R.
Qed.

Lemma asks_spares k es : left_alone k es -> spares k es.
Proof. intros A. apply Forall_forall. intros e I. apply not_asked. now apply A. Qed.

Lemma sync_copies gs gt ns nt ps pt c0 es o c s d0 fs o2 d t ws src dst :
  reached gs ns c0 es o c s -> reached gt nt d0 fs o2 d t -> n_lock c <> 2 ->
  p_writable pt = true -> n_lock d = 0 -> n_worm d = false -> n_maxsize d = 0 ->
  Forall is_request (at_source ws) -> Forall is_request (at_target ws) -> Forall (fun w => 1 <= p_room w)%nat ws ->
  nlen (dk_i (dk s)) + nlen (at_source ws) + copies ws < 2 ^ 32 -> nlen (dk_i (dk t)) + nlen (at_target ws) + copies ws < 2 ^ 32 ->
  db_sync gs gt ps pt ws (c, s) (d, t) = Some (src, dst) ->
  forall k, 0 < blen k -> blen k <= 255 -> left_alone k (at_source ws) -> left_alone k (at_target ws) ->
  (get_of gs k (c, s) <> hardsend "$-1" -> get_of gt k dst = get_of gs k (c, s)) /\
  (get_of gs k (c, s) = hardsend "$-1" -> get_of gt k dst = get_of gt k (d, t)).
Proof.
  intros R1 R2 Lc Pw T2 T3 T4 Q1 Q2 Rm B1 B2 F k K1 K2 A1 A2.
  destruct (reached_inv _ _ _ _ _ _ _ R1) as (_ & _ & gi & H & U & E & FL).
  destruct (reached_inv _ _ _ _ _ _ _ R2) as (_ & _ & gj & K & V & E' & FL').
  assert (Hgs : g_ok gs) by apply R1. assert (Hgt : g_ok gt) by apply R2.
  assert (Sm : small (livem (flat 0 gi) H)) by (rewrite E; apply small_kv_of; apply R1).
  assert (Sn : small (livem (flat 0 gj) K)) by (rewrite E'; apply small_kv_of; apply R2).
  assert (Fz : is_frozen c = false) by (apply N.eqb_neq; exact Lc).
  rewrite (nlen_files _ _ _ _ U) in B1. rewrite (nlen_files _ _ _ _ V) in B2. change (2 ^ 32) with 4294967296 in *.
  destruct (sync_ok gs gt ns nt ps pt Hgs Hgt ws None [] c s gi H d t gj K O src dst U Sm V Sn Fz) as
    (s' & t' & gj' & K' & -> & -> & V' & N' & Done); auto; [repeat split; assumption|reflexivity|].
  destruct (Done k (asks_spares _ _ A1) (asks_spares _ _ A2)) as (D1 & D2).
  rewrite (get_map gs ns c s gi H k Hgs U FL), (get_map gt nt d t gj K k Hgt V FL').
  rewrite (get_map gt nt d t' gj' K' k Hgt V') by (unfold files_lt; rewrite (nlen_files _ _ _ _ V'); exact N').
  unfold kv_read. destruct (N.eqb_spec (blen k) 0); [lia|]. destruct (N.ltb_spec 255 (blen k)); [lia|]. rewrite T2.
  change (0 =? 2) with false. replace (n_lock c =? 2) with false by lia. cbn iota.
  destruct (kget k (livem (flat 0 gi) H)) as [[v w]|] eqn:Kg; cbn [get_reply].
  - split; [intros _|intros X; exfalso; revert X].
    + destruct (kget_nth _ _ _ _ (ver_same _ _ _ (fi_ver _ _ _ _ (ui_f _ _ _ _ U))) Kg) as (q & y & Y1 & Y2 & Y3 & Y4).
      pose proof (D2 q y (k, (v, w)) Y1 Y2 Y3 Y4 ltac:(right; right; lia)) as D. cbn [fst snd] in D. unfold val in D.
      destruct (kget k (livem (flat 0 gj') K')) as [[v' w']|]; [|discriminate]. cbn [option_map fst] in D. injection D as ->. reflexivity.
    + intros X. pose proof (nil_not_bulk v) as Y. change (enc_reply RNil) with (hardsend "$-1") in Y. change (enc_reply (RBulk v)) with (bulk v) in X. rewrite X, bseqb_refl in Y. discriminate.
  - split; [intros X; exfalso; now apply X|]. intros _. rewrite D1; auto.
Qed.

(* ---- the copy ends ---- *)
Lemma fetch_total gs gt ns nt ps pt : g_ok gs -> g_ok gt -> forall keys ts c s gi H d t gj K,
  UInv ns s gi H -> small (livem (flat 0 gi) H) -> nlen gi < 4294967296 -> UInv nt t gj K -> small (livem (flat 0 gj) K) ->
  is_frozen c = false -> flat_map t_src ts = [] -> quiet (flat_map t_dst ts) -> (length keys <= length ts)%nat ->
  nlen gj + nlen (flat_map t_dst ts) + nlen ts < 4294967296 ->
  exists t' gj' K', fetchsync gs gt ps pt keys ts (c, s) (d, t) = Some ((c, s), (d, t')) /\ UInv nt t' gj' K' /\
    small (livem (flat 0 gj') K') /\ nlen gj' <= nlen gj + nlen (flat_map t_dst ts) + nlen ts.
Proof.
  intros Hgs Hgt. induction keys as [|k0 keys IH]; intros ts c s gi H d t gj K U Sm Bi V Sn Fz Q1 Q2 Lk B2.
  - exists t, gj, K. split; [reflexivity|]. split; [exact V|]. split; [exact Sn|]. lia.
  - cbn [fetchsync length] in *. destruct ts as [|tn ts]; [cbn [length] in Lk; lia|]. cbn [flat_map nlen length] in *. rewrite nlen_app in *.
    apply app_eq_nil in Q1. destruct Q1 as [Q1 Q1']. rewrite Q1. apply Forall_app in Q2. destruct Q2 as [Q2 Q2']. unfold served. cbn [run_events run_event].
    assert (RG : run_req gs ps (t_now tn) (QGet k0) c s = (enc_reply (fst (kv_step ps (t_now tn) c (QGet k0) (livem (flat 0 gi) H))), s)).
    { assert (FL : files_lt s) by (unfold files_lt; rewrite (nlen_files _ _ _ _ U); lia).
      destruct (req_ok gs ns s gi H ps (t_now tn) (QGet k0) c U Hgs I FL) as (Rq & _). cbn [run_req fst] in *. now rewrite <- Rq. }
    rewrite RG. cbn [app].
    pose proof (got ns c s gi H ps (t_now tn) k0 _ U Sm Fz eq_refl) as G.
    assert (exists i, hiredis (enc_reply (fst (kv_step ps (t_now tn) c (QGet k0) (livem (flat 0 gi) H)))) = Some i /\ blen (text_of i) <= 8388608) as (i & Ei & Li).
    { destruct (kget k0 (livem (flat 0 gi) H)) as [[v w]|]; [|exact G]. destruct G as [G1 G2]. exists (PString v). split; assumption. }
    rewrite Ei. set (sete := EReq pt (t_now tn) (QSet k0 (text_of i) None)) in *.
    assert (Q3 : quiet (t_dst tn ++ [sete])) by (apply Forall_app; split; [exact Q2|]; constructor; [|constructor]; cbn; auto).
    destruct (run_quiet gt nt (t_dst tn ++ [sete]) Hgt Q3 d t gj K V Sn) as (t1 & gj1 & K1 & R2 & V1 & Sn1 & L2 & _ & _ & _ & Kr2).
    { rewrite nlen_app. cbn [nlen]. lia. }
    rewrite R2. rewrite nlen_app in L2. cbn [nlen] in L2.
    destruct (IH ts c s gi H d t1 gj1 K1 U Sm Bi V1 Sn1 Fz Q1' Q2' ltac:(lia) ltac:(lia)) as (t' & gj' & K' & F & V' & Sn' & N').
    exists t', gj', K'. split; [exact F|]. split; [exact V'|]. split; [exact Sn'|]. lia.
Qed.

Lemma livem_length G H : Forall2 same_id G H -> length (livem G H) = length (filter live G).
Proof. intros F. induction F as [|x v G H _ F IH]; [reflexivity|]. cbn [livem filter]. destruct (live x); cbn [length]; auto. Qed.

Lemma sync_total gs gt ns nt ps pt : g_ok gs -> g_ok gt -> forall ws cur keys c s gi H d t gj K from,
  UInv ns s gi H -> small (livem (flat 0 gi) H) -> nlen gi < 4294967296 -> UInv nt t gj K -> small (livem (flat 0 gj) K) ->
  is_frozen c = false -> at_source ws = [] -> quiet (at_target ws) ->
  Forall (fun w => 1 <= p_room w /\ length (livem (flat 0 gi) H) <= length (p_turns w))%nat ws ->
  (length keys <= length (livem (flat 0 gi) H))%nat ->
  nlen gj + nlen (at_target ws) + copies ws < 4294967296 -> cursor_at cur from (flat 0 gi) ->
  (length (filter live (skipn from (flat 0 gi))) < length ws)%nat ->
  exists src dst, synchronize gs gt ps pt ws cur keys (c, s) (d, t) = Some (src, dst).
Proof.
  intros Hgs Hgt. induction ws as [|w ws IH]; intros cur keys c s gi H d t gj K from U Sm Bi V Sn Fz Q1 Q2 Rm Lk B2 C Lw; [cbn [length] in Lw; lia|].
  cbn [synchronize length] in *. unfold at_source, at_target, copies in *. cbn [flat_map] in *. repeat rewrite nlen_app in B2.
  apply app_eq_nil in Q1. destruct Q1 as [Q1 Q1']. apply app_eq_nil in Q1. destruct Q1 as [Q1 Q1t].
  apply Forall_app in Q2. destruct Q2 as [Q2 Q2']. inversion Rm as [|? ? [Rm1 Rt1] Rm2]; subst. rewrite Q1. unfold served. cbn [run_events fst snd].
  assert (FL : files_lt s) by (unfold files_lt; rewrite (nlen_files _ _ _ _ U); lia).
  rewrite (call_ok _ _ _ _ c (str "SCAN") (p_room w) cur from U FL Fz C).
  set (G := flat 0 gi) in *. set (L := filter live (skipn from G)) in *.
  assert (VS : Forall2 same_id G H) by (eapply ver_same; apply U).
  assert (LL : live_last G) by apply U.
  assert (Hroom : (1 <= room cur (p_room w))%nat) by (destruct cur; cbn [room]; lia).
  destruct (fetch_total gs gt ns nt ps pt Hgs Hgt keys (p_turns w) c s gi H d t gj K U Sm Bi V Sn Fz Q1t Q2 ltac:(lia) ltac:(lia))
    as (t2 & gj2 & K2 & Fe & V2 & Sn2 & N2). rewrite Fe.
  destruct (firstn (room cur (p_room w)) L) as [|x L0 _] eqn:EL using rev_ind.
  - change (hiredis (command_scan_send_scanlist [])) with (Some (PError (str "No more data"))). cbn iota. eauto.
  - assert (EL2 : L = L0 ++ x :: skipn (room cur (p_room w)) L).
    { rewrite <- (firstn_skipn (room cur (p_room w)) L) at 1. rewrite EL, <- app_assoc. reflexivity. }
    destruct (filter_split _ _ _ _ _ EL2) as (A0 & B0 & EB & EB0 & EA0).
    assert (Lx : live x = true).
    { assert (In x L) as I by (rewrite EL2; apply in_app_iff; right; now left). apply filter_In in I. tauto. }
    assert (Hfrom : (from <= length G)%nat).
    { destruct (Nat.leb_spec from (length G)); auto. rewrite skipn_all2 in EB by lia. destruct A0; discriminate. }
    assert (EG : G = firstn from G ++ (A0 ++ [x]) ++ B0).
    { rewrite <- (firstn_skipn from G) at 1. rewrite EB, <- app_assoc. reflexivity. }
    assert (LF : length (firstn from G) = from) by (rewrite firstn_length; lia).
    destruct (part_rows _ _ _ _ _ EG VS LL) as [P1 _]. rewrite LF in P1.
    set (Hp := firstn (length (A0 ++ [x])) (skipn from H)) in *. set (rows := livem (A0 ++ [x]) Hp) in *.
    assert (RM : Forall2 rowm (L0 ++ [x]) rows).
    { replace (L0 ++ [x]) with (filter live (A0 ++ [x])) by (rewrite filter_app, EA0; cbn [filter]; now rewrite Lx).
      assert (WG : Forall loc_wf G) by apply U. assert (VG := fi_ver _ _ _ _ (ui_f _ _ _ _ U)). fold G in VG.
      pose proof VG as VG2. rewrite EG in VG2. apply Forall2_app_inv_l in VG2. destruct VG2 as (Ha & H23 & Fa & F23 & EH).
      apply Forall2_app_inv_l in F23. destruct F23 as (H2' & H3 & F2 & F3 & ->).
      assert (Hp = H2') as EH2.
      { unfold Hp. rewrite EH, skipn_exact by (rewrite <- (forall2_length _ _ _ Fa); exact LF).
        apply firstn_exact. symmetry. eapply forall2_length; eauto. }
      eapply rows_user.
      - rewrite EG in WG. apply Forall_app in WG. destruct WG as [_ WG]. apply Forall_app in WG. apply WG.
      - rewrite EH2. exact F2.
      - unfold small in *. rewrite Forall_forall in *. intros r Hr0. apply Sm. now apply P1. }
    rewrite send_snoc. pose proof (rows_text _ _ RM) as RT. unfold srow in *. rewrite RT.
    replace (nlen (L0 ++ [x])) with (nlen rows) by (rewrite !nlen_length; now rewrite (forall2_length _ _ _ RM)).
    rewrite hiredis_rows, keys_rows. cbn [text_of].
    assert (Hx : nth_error G (from + length A0) = Some x).
    { rewrite EG. rewrite nth_error_app2 by lia. rewrite LF. replace (from + length A0 - from)%nat with (length A0) by lia.
      rewrite <- app_assoc. rewrite nth_error_app2, Nat.sub_diag by lia. reflexivity. }
    apply (IH (Some (cursor_of x)) (map fst rows) c s gi H d t2 gj2 K2 (S (from + length A0)) U Sm Bi V2 Sn2 Fz Q1' Q2' Rm2); [|lia| |].
    + rewrite map_length, <- (forall2_length _ _ _ RM), livem_length by exact VS.
      fold G. assert (LG : length (filter live G) = (length (filter live (firstn from G)) + length L)%nat).
      { rewrite <- (firstn_skipn from G) at 1. rewrite filter_app, app_length. reflexivity. }
      rewrite LG, EL2, !app_length. cbn [length]. lia.
    + cbn [cursor_at]. eauto.
    + fold G. assert (skipn (S (from + length A0)) G = B0) as ->.
      { rewrite EG, app_assoc. apply skipn_exact. rewrite !app_length, LF. cbn [length]. lia. }
      rewrite EB0. rewrite EL2, app_length in Lw. cbn [length] in Lw. lia.
Qed.

Lemma sync_ends gs gt ns nt ps pt c0 es o c s d0 fs o2 d t ws :
  reached gs ns c0 es o c s -> reached gt nt d0 fs o2 d t -> n_lock c <> 2 ->
  at_source ws = [] -> Forall is_request (at_target ws) -> kcount (kv_of c0 es) < nlen ws ->
  Forall (fun w => (1 <= p_room w)%nat /\ kcount (kv_of c0 es) <= nlen (p_turns w)) ws ->
  nlen (dk_i (dk t)) + nlen (at_target ws) + copies ws < 2 ^ 32 ->
  exists src dst, db_sync gs gt ps pt ws (c, s) (d, t) = Some (src, dst).
Proof.
  intros R1 R2 Lc Q1 Q2 Lw Rm B2.
  destruct (reached_inv _ _ _ _ _ _ _ R1) as (_ & _ & gi & H & U & E & FL).
  destruct (reached_inv _ _ _ _ _ _ _ R2) as (_ & _ & gj & K & V & E' & FL').
  assert (Hgs : g_ok gs) by apply R1. assert (Hgt : g_ok gt) by apply R2.
  assert (Sm : small (livem (flat 0 gi) H)) by (rewrite E; apply small_kv_of; apply R1).
  assert (Sn : small (livem (flat 0 gj) K)) by (rewrite E'; apply small_kv_of; apply R2).
  assert (Fz : is_frozen c = false) by (apply N.eqb_neq; exact Lc).
  rewrite (nlen_files _ _ _ _ V) in B2. change (2 ^ 32) with 4294967296 in *.
  unfold files_lt in FL. rewrite (nlen_files _ _ _ _ U) in FL. unfold kcount in *. rewrite <- E in *. rewrite !nlen_length in Lw.
  apply (sync_total gs gt ns nt ps pt Hgs Hgt ws None [] c s gi H d t gj K O); auto.
  - eapply Forall_impl; [|exact Rm]. cbn beta. intros w [W1 W2]. rewrite !nlen_length in W2. lia.
  - cbn [length]. lia.
  - reflexivity.
  - cbn [skipn]. rewrite <- (livem_length _ H) by (eapply ver_same; apply U). lia.
Qed.
