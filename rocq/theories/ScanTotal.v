(* Proofs: the walks of the index files end, from every place. *)
From Coq Require Import Strings.String Strings.Byte List NArith ZArith Bool Lia ZifyBool ZifyN ZifyNat.
From Verif Require Import Bytes BytesFacts Layout LayoutFacts Store Text Commands Ghost UserInv Scan ScanFacts.
Import ListNotations.
Open Scope N_scope.
Local Notation length := List.length.

Lemma read_head_in f off it : read_head f off = Some it -> off + 34 <= blen f.
Proof.
  unfold read_head. destruct (N.eqb_spec (blen (fread f off 34)) 34) as [E|]; [|discriminate]. intros _.
  pose proof (fread_blen f off 34). lia.
Qed.

(* the bytes of files, and two for each file *)
Fixpoint weight (l : list bytes) : N := match l with [] => 0 | f :: t => blen f + 2 + weight t end.
Definition after (d : disk) (i : N) : N := weight (skipn (N.to_nat i) (dk_i d)).
Definition before (d : disk) (i : N) : N := weight (firstn (N.to_nat i) (dk_i d)).

Lemma weight_app a b : weight (a ++ b) = weight a + weight b.
Proof. induction a as [|f a IH]; cbn [weight app]; [reflexivity|]. rewrite IH. lia. Qed.

Lemma after_file d i f : ifile d i = Some f -> after d i = blen f + 2 + after d (i + 1).
Proof.
  unfold ifile, after. intros E. apply nget_split in E. destruct E as (a & b & -> & E). rewrite nlen_length in E.
  replace (N.to_nat i) with (length a + 0)%nat by lia. rewrite skipn_app, skipn_all2 by lia.
  replace (length a + 0 - length a)%nat with 0%nat by lia. cbn [skipn app weight].
  replace (N.to_nat (i + 1)) with (length a + 1)%nat by lia. rewrite skipn_app, skipn_all2 by lia.
  replace (length a + 1 - length a)%nat with 1%nat by lia. reflexivity.
Qed.

Lemma before_file d i f : ifile d i = Some f -> before d (i + 1) = before d i + blen f + 2.
Proof.
  unfold ifile, before. intros E. apply nget_split in E. destruct E as (a & b & -> & E). rewrite nlen_length in E.
  replace (N.to_nat i) with (length a + 0)%nat by lia. rewrite firstn_app_2. cbn [firstn]. rewrite app_nil_r.
  replace (N.to_nat (i + 1)) with (length a + 1)%nat by lia. rewrite firstn_app_2. cbn [firstn]. rewrite weight_app. cbn [weight]. lia.
Qed.

Lemma weight_length l : weight l = N.of_nat (length (List.concat l) + 2 * length l).
Proof. induction l as [|f l IH]; cbn [weight List.concat length]; [reflexivity|]. rewrite IH, app_length, blen_length. lia. Qed.

Lemma split_weight d i : before d i + after d i = weight (dk_i d).
Proof. unfold before, after. rewrite <- weight_app, firstn_skipn. reflexivity. Qed.

Lemma fuel_weight d : N.of_nat (scan_fuel d) = weight (dk_i d) + 2.
Proof. rewrite weight_length. unfold scan_fuel. lia. Qed.

Definition pos (s : scan) : N := if sc_tgt s =? 0 then sc_orig s else sc_tgt s.
Definition extra (s : scan) : N := if sc_tgt s =? 0 then 0 else 1.

(* what the fixed part read at off says is used only if it is there *)
Lemma entry_ends f s src : let r := read_entry f s src in sc_st r = SSuccess \/ sc_st r = SUnexpected.
Proof. unfold read_entry. destruct (_ =? _); cbn; auto. Qed.

Lemma no_file fuel real d s : ifile d (sc_fid s) = None -> 0 < N.of_nat fuel -> scan_loop fuel real d s <> None.
Proof. intros E H. destruct fuel; [lia|]. cbn [scan_loop]. rewrite E. discriminate. Qed.

Lemma next_ends d : nlen (dk_i d) < 4294967296 -> forall fuel s f, ifile d (sc_fid s) = Some f ->
  after d (sc_fid s + 1) + (blen f - pos s) + extra s + 1 <= N.of_nat fuel ->
  scan_loop fuel index_next_header_real d s <> None.
Proof.
  intros Sm. induction fuel as [|fuel IH]; intros s f E Hf; [lia|]. cbn [scan_loop]. rewrite E.
  assert (Lt : sc_fid s < nlen (dk_i d)) by (eapply nget_lt; exact E).
  (* the part after the target is known *)
  assert (Go : forall s1, sc_fid s1 = sc_fid s -> sc_tgt s1 <> 0 -> after d (sc_fid s + 1) + (blen f - sc_tgt s1) + 1 <= N.of_nat fuel ->
    let r := match read_head f (sc_tgt s1) with
             | None => index_scan_error (set_tgt 29 s1) SEof
             | Some src => if is_deleted (it_flags src) then index_scan_error (set_both (sc_tgt s1) 0 s1) SDeleted else read_entry f s1 src
             end in
    match sc_st r with
    | SSuccess | SUnexpected | SNoMore => Some r
    | SDeleted => scan_loop fuel index_next_header_real d r
    | SEof => scan_loop fuel index_next_header_real d (set_fid (u32 (sc_fid r + 1)) r)
    | SPrevious => scan_loop fuel index_next_header_real d (set_fid (u32 (sc_fid r + 4294967295)) r)
    end <> None).
  { intros s1 F1 T1 L1. cbv zeta. destruct (read_head f (sc_tgt s1)) as [src|] eqn:R.
    - destruct (is_deleted (it_flags src)).
      + cbn [index_scan_error set_both sc_st]. apply (IH _ f); unfold pos, extra; cbn [index_scan_error set_both sc_fid sc_tgt sc_orig N.eqb]; rewrite F1; [exact E|].
        lia.
      + destruct (entry_ends f s1 src) as [X|X]; rewrite X; discriminate.
    - cbn [index_scan_error set_tgt set_fid sc_st sc_fid]. rewrite F1. unfold u32. rewrite N.mod_small by lia.
      destruct (ifile d (sc_fid s + 1)) as [f2|] eqn:E2.
      + apply (IH _ f2); unfold pos, extra; cbn [index_scan_error set_tgt set_fid sc_fid sc_tgt sc_orig N.eqb]; [exact E2|].
        rewrite (after_file _ _ _ E2) in L1. lia.
      + apply no_file; [exact E2|lia]. }
  unfold index_next_header_real. cbv zeta. unfold pos, extra in Hf. destruct (N.eqb_spec (sc_tgt s) 0) as [T|T].
  - destruct (read_head f (sc_orig s)) as [src|] eqn:R; [|discriminate].
    pose proof (read_head_in _ _ _ R).
    apply (Go (set_tgt (sc_orig s + 34 + it_idlen src) s)); cbn [set_tgt sc_fid sc_tgt]; [reflexivity|lia|lia].
  - apply (Go s); [reflexivity|exact T|lia].
Qed.

Lemma next_total d fid off : nlen (dk_i d) < 4294967296 -> index_next_header d fid off <> None.
Proof.
  intros Sm. unfold index_next_header. destruct (ifile d fid) as [f|] eqn:E.
  - apply (next_ends d Sm _ _ f); unfold pos, extra; cbn [sc_fid sc_tgt sc_orig N.eqb]; [exact E|].
    rewrite fuel_weight. pose proof (split_weight d fid) as W. rewrite (after_file _ _ _ E) in W. lia.
  - apply no_file; [exact E|rewrite fuel_weight; lia].
Qed.

Lemma first_ends d : nlen (dk_i d) < 4294967296 -> forall fuel s f, ifile d (sc_fid s) = Some f ->
  after d (sc_fid s + 1) + (blen f - sc_tgt s) + 2 <= N.of_nat fuel ->
  scan_loop fuel index_first_header_real d s <> None.
Proof.
  intros Sm. induction fuel as [|fuel IH]; intros s f E Hf; [lia|]. cbn [scan_loop]. rewrite E.
  assert (Lt : sc_fid s < nlen (dk_i d)) by (eapply nget_lt; exact E).
  unfold index_first_header_real. destruct (read_head f (sc_tgt s)) as [src|] eqn:R.
  - pose proof (read_head_in _ _ _ R). destruct (is_deleted (it_flags src)).
    + cbn [index_scan_error set_tgt sc_st]. apply (IH _ f); cbn [sc_fid sc_tgt index_scan_error set_tgt]; [exact E|lia].
    + destruct (entry_ends f s src) as [X|X]; rewrite X; discriminate.
  - cbn [index_scan_error set_tgt set_fid sc_st sc_fid]. unfold u32. rewrite N.mod_small by lia.
    destruct (ifile d (sc_fid s + 1)) as [f2|] eqn:E2.
    + apply (IH _ f2); cbn [index_scan_error set_tgt set_fid sc_fid sc_tgt]; [exact E2|]. rewrite (after_file _ _ _ E2) in Hf. 
      destruct (N.le_gt_cases 29 (blen f2)); lia.
    + apply no_file; [exact E2|lia].
Qed.

Lemma first_total d : nlen (dk_i d) < 4294967296 -> index_first_header d <> None.
Proof.
  intros Sm. unfold index_first_header. destruct (ifile d 0) as [f|] eqn:E.
  - apply (first_ends d Sm _ _ f); cbn [sc_fid sc_tgt]; [exact E|].
    rewrite fuel_weight. pose proof (split_weight d 0) as W. rewrite (after_file _ _ _ E) in W. lia.
  - apply no_file; [exact E|rewrite fuel_weight; lia].
Qed.

(* backwards: a record at the start of a file does not point into the header of its file *)
Definition starts (d : disk) : Prop :=
  forall i f it, ifile d i = Some f -> read_head f 29 = Some it -> it_prev it = 0 \/ 29 <= it_prev it.
Definition rank (p : N) : N := if p =? 29 then 1 else p + 2.

Lemma rank_le p : 1 <= rank p /\ rank p <= p + 2.
Proof. unfold rank. destruct (N.eqb_spec p 29); lia. Qed.

Lemma previous_ends d : nlen (dk_i d) < 4294967296 -> starts d -> forall fuel s f, ifile d (sc_fid s) = Some f ->
  1 <= N.of_nat fuel -> (pos s + 34 <= blen f -> before d (sc_fid s) + rank (pos s) + extra s + 1 <= N.of_nat fuel) ->
  scan_loop fuel index_previous_header_real d s <> None.
Proof.
  intros Sm St. induction fuel as [|fuel IH]; intros s f E H1 Hf; [lia|]. cbn [scan_loop]. rewrite E.
  assert (Lt : sc_fid s < nlen (dk_i d)) by (eapply nget_lt; exact E).
  assert (Go : forall s1, sc_fid s1 = sc_fid s -> (sc_tgt s1 <> 0 -> sc_tgt s1 + 34 <= blen f -> before d (sc_fid s) + rank (sc_tgt s1) + 1 <= N.of_nat fuel) ->
    let r := if sc_tgt s1 =? 0 then index_scan_error s1 SNoMore
             else match read_head f (sc_tgt s1) with
             | None => index_scan_error s1 SUnexpected
             | Some src => if is_deleted (it_flags src) then index_scan_error (set_both (sc_tgt s1) 0 s1) SDeleted else read_entry f s1 src
             end in
    match sc_st r with
    | SSuccess | SUnexpected | SNoMore => Some r
    | SDeleted => scan_loop fuel index_previous_header_real d r
    | SEof => scan_loop fuel index_previous_header_real d (set_fid (u32 (sc_fid r + 1)) r)
    | SPrevious => scan_loop fuel index_previous_header_real d (set_fid (u32 (sc_fid r + 4294967295)) r)
    end <> None).
  { intros s1 F1 L1. cbv zeta. destruct (N.eqb_spec (sc_tgt s1) 0) as [T1|T1]; [discriminate|].
    destruct (read_head f (sc_tgt s1)) as [src|] eqn:R; [|discriminate]. specialize (L1 T1 (read_head_in _ _ _ R)).
    destruct (is_deleted (it_flags src)).
    - cbn [index_scan_error set_both sc_st]. pose proof (rank_le (sc_tgt s1)).
      apply (IH _ f); unfold pos, extra; cbn [index_scan_error set_both sc_fid sc_tgt sc_orig N.eqb]; rewrite ?F1; [exact E|lia|lia].
    - destruct (entry_ends f s1 src) as [X|X]; rewrite X; discriminate. }
  unfold index_previous_header_real. cbv zeta. unfold pos, extra in Hf. destruct (N.eqb_spec (sc_tgt s) 0) as [T|T].
  - destruct (read_head f (sc_orig s)) as [src|] eqn:R; [|discriminate].
    pose proof (read_head_in _ _ _ R) as Ro. specialize (Hf Ro). pose proof (rank_le (sc_orig s)) as Rk.
    destruct (N.leb_spec (sc_orig s) (it_prev src)) as [L|L].
    + cbn [index_scan_error set_tgt set_fid sc_st sc_fid].
      destruct (ifile d (u32 (sc_fid s + 4294967295))) as [f2|] eqn:E2.
      * apply (IH _ f2); cbn [set_fid sc_fid sc_tgt sc_orig index_scan_error set_tgt]; [exact E2|lia|]. intros Rd.
        assert (Nz : sc_fid s <> 0).
        { intros Z. rewrite Z in E2. apply nget_lt in E2. unfold u32 in E2. change ((0 + 4294967295) mod 4294967296) with 4294967295 in E2. lia. }
        assert (U : u32 (sc_fid s + 4294967295) = sc_fid s - 1).
        { unfold u32. replace (sc_fid s + 4294967295) with (sc_fid s - 1 + 1 * 4294967296) by lia. rewrite N.mod_add by lia. apply N.mod_small. lia. }
        rewrite U in E2 |- *. pose proof (before_file _ _ _ E2) as B. replace (sc_fid s - 1 + 1) with (sc_fid s) in B by lia.
        unfold pos, extra in *. cbn [set_fid sc_fid sc_tgt sc_orig index_scan_error set_tgt] in *.
        destruct (N.eqb_spec (it_prev src) 0); [pose proof (rank_le (sc_orig s))|pose proof (rank_le (it_prev src))]; lia.
      * apply no_file; [exact E2|lia].
    + apply (Go (set_tgt (if it_prev src =? 1 then 29 else it_prev src) s)); cbn [set_tgt sc_fid sc_tgt]; [reflexivity|]. intros Nz Rd.
      assert (Y : rank (if it_prev src =? 1 then 29 else it_prev src) < rank (sc_orig s)); [|lia].
      destruct (N.eq_dec (sc_orig s) 29) as [O|O].
      * rewrite O in R, L. destruct (St _ _ _ E R) as [P|P]; [rewrite P in Nz; cbn in Nz; congruence|lia].
      * unfold rank at 2. replace (sc_orig s =? 29) with false by lia.
        destruct (N.eqb_spec (it_prev src) 1); [cbn; lia|]. pose proof (rank_le (it_prev src)). lia.
  - specialize (Go s). cbv zeta in Go. replace (sc_tgt s =? 0) with false in Go by lia.
    apply Go; [reflexivity|]. intros _ Rd. specialize (Hf Rd). lia.
Qed.

Lemma previous_total d fid off : nlen (dk_i d) < 4294967296 -> starts d -> index_previous_header d fid off <> None.
Proof.
  intros Sm St. unfold index_previous_header. destruct (ifile d fid) as [f|] eqn:E.
  - apply (previous_ends d Sm St _ _ f); unfold pos, extra; cbn [sc_fid sc_tgt sc_orig N.eqb]; [exact E|rewrite fuel_weight; lia|].
    intros Rd. rewrite fuel_weight. pose proof (split_weight d fid) as W. rewrite (after_file _ _ _ E) in W.
    pose proof (rank_le off). lia.
  - apply no_file; [exact E|rewrite fuel_weight; lia].
Qed.

(* the place index_last_header reads *)
Definition lpos (f : bytes) (s : scan) : N :=
  if sc_tgt s =? 1 then if blen f <? 38 then blen f else blen f - 38 else sc_tgt s.

Lemma last_ends d : nlen (dk_i d) < 4294967296 -> forall fuel s f, ifile d (sc_fid s) = Some f ->
  1 <= N.of_nat fuel -> (lpos f s + 34 <= blen f -> before d (sc_fid s) + lpos f s + 2 <= N.of_nat fuel) ->
  scan_loop fuel index_last_header_real d s <> None.
Proof.
  intros Sm. induction fuel as [|fuel IH]; intros s f E H1 Hf; [lia|]. cbn [scan_loop]. rewrite E.
  assert (Lt : sc_fid s < nlen (dk_i d)) by (eapply nget_lt; exact E).
  unfold index_last_header_real. destruct (N.eqb_spec (sc_tgt s) 0) as [T|T]; [discriminate|]. cbv zeta.
  set (s1 := if sc_tgt s =? 1 then _ else s).
  assert (T1 : sc_tgt s1 = lpos f s) by (unfold s1, lpos; destruct (sc_tgt s =? 1); reflexivity).
  assert (F1 : sc_fid s1 = sc_fid s) by (unfold s1; destruct (sc_tgt s =? 1); reflexivity).
  rewrite T1. destruct (read_head f (lpos f s)) as [src|] eqn:R; [|discriminate]. pose proof (read_head_in _ _ _ R) as Rd. specialize (Hf Rd).
  destruct (is_deleted (it_flags src)); [|destruct (entry_ends f s1 src) as [X|X]; rewrite X; discriminate].
  cbn [index_scan_error set_tgt set_fid sc_st sc_fid]. rewrite F1.
  destruct (N.leb_spec (lpos f s) (it_prev src)) as [L|L]; [|destruct (N.eqb_spec (it_prev src) 1) as [O|O]]; cbn [orb].
  1, 2: destruct (ifile d (u32 (sc_fid s + 4294967295))) as [f2|] eqn:E2; [|apply no_file; [cbn [index_scan_error set_tgt set_fid sc_fid]; rewrite ?F1; exact E2|lia]].
  1, 2: assert (Nz : sc_fid s <> 0) by (intros Z; rewrite Z in E2; apply nget_lt in E2; unfold u32 in E2;
          change ((0 + 4294967295) mod 4294967296) with 4294967295 in E2; lia).
  1, 2: assert (U : u32 (sc_fid s + 4294967295) = sc_fid s - 1)
          by (unfold u32; replace (sc_fid s + 4294967295) with (sc_fid s - 1 + 1 * 4294967296) by lia; rewrite N.mod_add by lia; apply N.mod_small; lia).
  1, 2: apply (IH _ f2); cbn [index_scan_error set_tgt set_fid sc_fid]; rewrite ?F1; [exact E2|lia|]; intros Rd2;
        rewrite U in E2, Rd2 |- *; pose proof (before_file _ _ _ E2) as B; replace (sc_fid s - 1 + 1) with (sc_fid s) in B by lia; lia.
  apply (IH _ f); cbn [index_scan_error set_tgt sc_fid]; rewrite ?F1; [exact E|lia|]. intros _. unfold lpos at 1. cbn [index_scan_error set_tgt sc_tgt].
  replace (it_prev src =? 1) with false by lia. lia.
Qed.

Lemma last_total d x : nlen (dk_i d) < 4294967296 -> index_last_header d x <> None.
Proof.
  intros Sm. unfold index_last_header. destruct (ifile d (x_indexid x)) as [f|] eqn:E.
  - apply (last_ends d Sm _ _ f); cbn [sc_fid]; [exact E|rewrite fuel_weight; lia|]. intros Rd.
    rewrite fuel_weight. pose proof (split_weight d (x_indexid x)) as W. rewrite (after_file _ _ _ E) in W. lia.
  - apply no_file; [exact E|rewrite fuel_weight; lia].
Qed.

Lemma walk_total next : (forall f o, next f o <> None) -> forall n fid off, scan_walk n next fid off <> None.
Proof.
  intros H. induction n as [|n IH]; intros fid off; cbn [scan_walk]; [discriminate|].
  specialize (H fid off). destruct (next fid off) as [s|]; [|congruence]. destruct (row_of s) as [[[f o] it]|]; [|discriminate].
  specialize (IH f o). destruct (scan_walk n next f o); [discriminate|congruence].
Qed.

Lemma body_total n first next argv c s : first <> None -> (forall f o, next f o <> None) -> scan_body n first next argv c s <> None.
Proof.
  intros H1 H2. unfold scan_body. destruct (is_frozen c); [discriminate|]. destruct (argc argv =? 1).
  - destruct first as [sc|]; [|congruence]. destruct (row_of sc) as [[[f o] it]|]; [|discriminate].
    pose proof (walk_total next H2 n f o) as W. destruct (scan_walk n next f o); [discriminate|congruence].
  - destruct (scan_initial_get (dk s) (arg 1 argv)) as [[f o]|]; [|discriminate].
    pose proof (walk_total next H2 n f o) as W. destruct (scan_walk n next f o); [discriminate|congruence].
Qed.

(* the files the server writes *)
Lemma last_off_ge G : Forall (fun x => 29 <= l_off x) G -> forall p, p = 0 \/ 29 <= p -> last_off p G = 0 \/ 29 <= last_off p G.
Proof. induction 1 as [|x G Hx HG IH]; intros p Hp; cbn [last_off]; [exact Hp|]. apply IH. right. exact Hx. Qed.

Lemma flat_ge f gi : Forall (fun x => 29 <= l_off x) (flat f gi).
Proof. apply Forall_forall. intros x Hx. apply in_flat in Hx. destruct Hx as (g1 & l1 & l2 & g2 & _ & _ & ->). lia. Qed.

Lemma starts_ok m d gi : IOk m d gi -> chain 0 (flat 0 gi) -> starts d.
Proof.
  intros I Ch i f it E R. assert (L : i < nlen gi).
  { destruct (N.lt_ge_cases i (nlen gi)) as [L|L]; [exact L|]. rewrite (ifile_out m d gi i I L) in E. discriminate. }
  destruct (nget i gi) as [l|] eqn:G; [|apply nget_None in G; lia]. apply nget_split in G. destruct G as (g1 & g2 & G & <-).
  rewrite (ifile_at m d gi g1 l g2 I G) in E. injection E as <-. destruct l as [|it0 l].
  - apply read_head_in in R. rewrite blen_enc_if in R. cbn [isz] in R. lia.
  - assert (W : item_wf it0) by (eapply (wf_at m d gi g1 [] it0 l g2); eauto).
    change 29 with (29 + isz []) in R. change (it0 :: l) with ([] ++ it0 :: l) in R. rewrite read_head_ok in R by exact W.
    injection R as <-. cbn [head_of it_prev]. change (it0 :: l) with ([] ++ it0 :: l) in G. rewrite G, flat_split in Ch.
    cbn [place] in Ch. rewrite app_nil_r in Ch. apply chain_app in Ch. destruct Ch as [_ [Ch _]]. cbn [l_it snd] in Ch. rewrite Ch.
    apply last_off_ge; [apply flat_ge|auto].
Qed.

Lemma small_ok m d gi : IOk m d gi -> nlen (dk_i d) < 4294967296.
Proof. intros I. rewrite (io_files _ _ _ I), nlen_enc_ifs. apply (io_small _ _ _ I). Qed.

Lemma scan_total m gi n argv c s : IOk m (dk s) gi -> command_scan n argv c s <> None.
Proof.
  intros I. pose proof (small_ok _ _ _ I). apply body_total; [now apply first_total|]. intros. now apply next_total.
Qed.

Lemma rscan_total m gi n argv c s : IOk m (dk s) gi -> chain 0 (flat 0 gi) -> command_rscan n argv c s <> None.
Proof.
  intros I Ch. pose proof (small_ok _ _ _ I). apply body_total; [now apply last_total|].
  intros. apply previous_total; [assumption|]. eapply starts_ok; eauto.
Qed.
