(* SCAN and RSCAN sessions against SpecScan.v *)
From Coq Require Import Strings.String Strings.Byte List NArith ZArith Bool Lia ZifyBool ZifyN ZifyNat.
From Verif Require Import Bytes BytesFacts Layout LayoutFacts Store Text TextFacts Commands SpecKV Ghost UserInv Scan SpecScan ScanFacts.
Import ListNotations.
Open Scope N_scope.
Ltac Zify.zify_post_hook ::= Z.div_mod_to_equations.
Local Notation length := List.length.

(* the walk of the records L, in this order *)
Record Wlk (d : disk) (first : option scan) (next : N -> N -> option scan) (L : list loc) : Prop := {
  wk_first : lands first L;
  wk_next : forall L1 x L2, L = L1 ++ x :: L2 -> lands (next (l_f x) (l_off x)) L2;
  wk_cur : forall x, In x L ->
    scan_initial_get d (enc_bkey (index_item_serialize (l_it x) (l_off x) (l_f x))) = Some (l_f x, l_off x)
}.

Lemma walk_ok d first next L : Wlk d first next L -> forall n L1 x L2, L = L1 ++ x :: L2 ->
  scan_walk n next (l_f x) (l_off x) = Some (firstn n L2).
Proof.
  intros W. induction n as [|n IH]; intros L1 x L2 E; cbn [scan_walk firstn]; auto.
  destruct (wk_next _ _ _ _ W _ _ _ E) as (s & -> & Hs). destruct L2 as [|y L2].
  - destruct Hs as [_ ->]. reflexivity.
  - rewrite Hs. assert (E2 : L = (L1 ++ [x]) ++ y :: L2) by (rewrite E, <- app_assoc; reflexivity).
    pose proof (IH _ _ _ E2) as Q. destruct y as [[f o] it]. unfold l_f, l_off in Q. cbn [fst snd] in Q.
    unfold srow in *. rewrite Q. reflexivity.
Qed.

(* a record and its row *)
Definition rowm (x : loc) (v : ver) : Prop :=
  item_wf (l_it x) /\ l_id x = fst v /\ it_len (l_it x) = blen (fst (snd v)) /\ it_ts (l_it x) = snd (snd v) /\
  it_len (l_it x) < 2147483648.

Lemma dec_signed_eq n : dec_signed n = print_int32 n.
Proof. unfold dec_signed, print_int32. change (2 ^ 31) with 2147483648. change (2 ^ 32) with 4294967296. reflexivity. Qed.

Lemma dec_signed_pos n : n < 2147483648 -> dec_signed n = dec n.
Proof. intros H. unfold dec_signed. now replace (n <? 2147483648) with true by lia. Qed.

Lemma row_text x v : rowm x v -> scan_row_send x = scan_row v.
Proof.
  intros ((W & _) & H1 & H2 & H3 & H4). destruct x as [[f o] it], v as [k [v ts]].
  unfold l_id, l_it in *. cbn [fst snd] in *. unfold scan_row_send, scan_row. cbn [snd].
  rewrite W, H1, H2, H3 in *. rewrite nfirst_all by (rewrite blen_nlen; lia).
  unfold bulk. rewrite <- !app_assoc. rewrite dec_signed_pos, dec_signed_eq by auto. reflexivity.
Qed.

Lemma rows_text L R : Forall2 rowm L R -> flat_map scan_row_send L = flat_map scan_row R.
Proof. intros F. induction F as [|x v L R Hx F IH]; cbn [flat_map]; auto. now rewrite (row_text _ _ Hx), IH. Qed.

Definition cursor_of (x : loc) : bytes := enc_bkey (index_item_serialize (l_it x) (l_off x) (l_f x)).

Lemma send_snoc L x : command_scan_send_scanlist (L ++ [x]) =
  arrayhdr 2 ++ bulk (cursor_of x) ++ arrayhdr (nlen (L ++ [x])) ++ flat_map scan_row_send (L ++ [x]).
Proof.
  unfold command_scan_send_scanlist. rewrite rev_app_distr. cbn [rev app]. destruct x as [[f o] it].
  unfold cursor_of, l_it, l_off, l_f. cbn [fst snd]. unfold bulk. rewrite blen_enc_bkey. unfold arrayhdr.
  rewrite <- !app_assoc. reflexivity.
Qed.

Lemma firstn_exact {A} (a b : list A) n : length a = n -> firstn n (a ++ b) = a.
Proof. intros <-. now rewrite firstn_app, Nat.sub_diag, firstn_all, firstn_O, app_nil_r. Qed.
Lemma skipn_exact {A} (a b : list A) n : length a = n -> skipn n (a ++ b) = b.
Proof. intros <-. now rewrite skipn_app, Nat.sub_diag, skipn_all. Qed.

Lemma next_cursor_send L x : next_cursor (command_scan_send_scanlist (L ++ [x])) = Some (cursor_of x).
Proof.
  rewrite send_snoc. unfold next_cursor, bulk. rewrite (blen_enc_bkey _ : blen (cursor_of x) = 17).
  unfold arrayhdr. change (dec 2) with (str "2"). change (dec 17) with (str "17"). rewrite <- !app_assoc.
  match goal with |- context [firstn 9 ?l] => set (r := l) end.
  assert (E : r = (str "*2" ++ CRLF ++ str "$17" ++ CRLF) ++ cursor_of x ++ CRLF ++ str "*" ++ dec (nlen (L ++ [x])) ++ CRLF ++
     flat_map scan_row_send (L ++ [x])) by reflexivity.
  clearbody r. subst r. set (p := str "*2" ++ CRLF ++ str "$17" ++ CRLF).
  assert (Lp : length p = 9%nat) by reflexivity.
  rewrite (firstn_exact p), (skipn_exact p), bseqb_refl by auto.
  rewrite (firstn_exact (cursor_of x)); [reflexivity|].
  pose proof (blen_enc_bkey (index_item_serialize (l_it x) (l_off x) (l_f x))) as Q.
  rewrite blen_length in Q. unfold cursor_of. lia.
Qed.

Lemma scan_reply_send L x R : Forall2 rowm (L ++ [x]) R -> scan_reply R (command_scan_send_scanlist (L ++ [x])).
Proof.
  intros F. rewrite send_snoc. pose proof (forall2_length _ _ _ F) as HL.
  destruct R as [|r R]; [rewrite app_length in HL; cbn [length] in HL; lia|].
  cbn [scan_reply]. exists (cursor_of x). split; [apply blen_enc_bkey|].
  pose proof (rows_text _ _ F) as Q. unfold srow in *. rewrite Q. replace (nlen (L ++ [x])) with (nlen (r :: R)); [reflexivity|].
  rewrite !nlen_length. congruence.
Qed.

Lemma forall2_firstn {A B} (P : A -> B -> Prop) n a b : Forall2 P a b -> Forall2 P (firstn n a) (firstn n b).
Proof. intros F. revert n; induction F; intros [|n]; cbn [firstn]; constructor; auto. Qed.
Lemma forall2_skipn {A B} (P : A -> B -> Prop) n a b : Forall2 P a b -> Forall2 P (skipn n a) (skipn n b).
Proof. intros F. revert n; induction F; intros [|n]; cbn [skipn]; auto. Qed.

(* a session that starts from a cursor on x *)
Lemma follow_from d first next L cmd c s : Wlk d first next L -> dk s = d -> is_frozen c = false ->
  forall slices L1 x L2 R2, L = L1 ++ x :: L2 -> Forall2 rowm L2 R2 ->
  exists rs, follow (fun n argv => scan_body n first next argv c s) cmd (Some (cursor_of x)) slices = Some rs /\
    Forall2 scan_reply (chunks false slices R2) rs.
Proof.
  intros W Ed Hc. induction slices as [|n slices IH]; intros L1 x L2 R2 E F; cbn [follow chunks].
  - exists []. split; [reflexivity|constructor].
  - unfold scan_body at 1. rewrite Hc. change (argc [cmd; cursor_of x] =? 1) with false. cbn iota.
    change (arg 1 [cmd; cursor_of x]) with (cursor_of x). rewrite Ed. unfold cursor_of at 1.
    rewrite (wk_cur _ _ _ _ W x) by (rewrite E; apply in_app_iff; right; now left).
    rewrite (walk_ok _ _ _ _ W n _ _ _ E). cbn [option_map].
    destruct (firstn n R2) as [|r R] eqn:ER.
    + assert (E0 : firstn n L2 = []).
      { apply length_zero_iff_nil. rewrite (forall2_length _ _ _ (forall2_firstn _ n _ _ F)), ER. reflexivity. }
      rewrite E0. cbn [command_scan_send_scanlist rev]. change (next_cursor (hardsend "-No more data")) with (@None bytes).
      exists [hardsend "-No more data"]. split; [reflexivity|]. constructor; [reflexivity|constructor].
    + pose proof (forall2_firstn _ n _ _ F) as F1. rewrite ER in F1.
      destruct (firstn n L2) as [|y0 Y0 _] eqn:EL using rev_ind; [inversion F1|].
      rewrite next_cursor_send.
      assert (E2 : L = (L1 ++ x :: Y0) ++ y0 :: skipn n L2).
      { rewrite E. rewrite <- (firstn_skipn n L2) at 1. rewrite EL, <- !app_assoc. reflexivity. }
      destruct (IH _ _ _ _ E2 (forall2_skipn _ n _ _ F)) as (rs & Q1 & Q2). rewrite Q1. cbn [option_map].
      eexists. split; [reflexivity|]. constructor; auto. apply scan_reply_send. exact F1.
Qed.

Lemma follow_start d first next L R cmd c s : Wlk d first next L -> dk s = d -> is_frozen c = false -> Forall2 rowm L R ->
  forall slices, exists rs, follow (fun n argv => scan_body n first next argv c s) cmd None slices = Some rs /\
    Forall2 scan_reply (chunks true slices R) rs.
Proof.
  intros W Ed Hc F [|n slices]; cbn [follow chunks].
  - exists []. split; [reflexivity|constructor].
  - unfold scan_body at 1. rewrite Hc. change (argc [cmd] =? 1) with true. cbn iota.
    destruct (wk_first _ _ _ _ W) as (s0 & -> & Hs). destruct L as [|x L].
    + destruct Hs as [Hs1 Hs2]. rewrite Hs2. unfold scan_failure. rewrite Hs1. inversion F; subst. cbn [firstn].
      change (next_cursor (hardsend "-No more data")) with (@None bytes).
      exists [hardsend "-No more data"]. split; [reflexivity|]. constructor; [reflexivity|constructor].
    + rewrite Hs. destruct x as [[f o] it].
      assert (Q := walk_ok _ _ _ _ W n [] (f, o, it) L eq_refl). unfold l_f, l_off in Q. cbn [fst snd] in Q.
      rewrite Q. cbn [option_map]. set (x := (f, o, it) : loc) in *. clear Q.
      change ((f, o, it) :: firstn n L) with (x :: firstn n L).
      inversion F as [|? r ? R' Hr F']; subst R.
      change (firstn (S n) (r :: R')) with (r :: firstn n R'). change (skipn (S n) (r :: R')) with (skipn n R').
      change (x :: firstn n L) with (firstn (S n) (x :: L)).
      destruct (firstn (S n) (x :: L)) as [|y0 Y0 _] eqn:EL using rev_ind; [discriminate|].
      rewrite next_cursor_send.
      assert (E2 : x :: L = Y0 ++ y0 :: skipn n L).
      { change (skipn n L) with (skipn (S n) (x :: L)). rewrite <- (firstn_skipn (S n) (x :: L)) at 1.
        rewrite EL, <- app_assoc. reflexivity. }
      destruct (follow_from _ _ _ _ cmd c s W Ed Hc slices _ _ _ _ E2 (forall2_skipn _ n _ _ F')) as (rs & Q1 & Q2).
      rewrite Q1. cbn [option_map]. eexists. split; [reflexivity|]. constructor; auto. apply scan_reply_send.
      rewrite <- EL. cbn [firstn]. constructor; auto. now apply forall2_firstn.
Qed.

(* ---- well-formed files give such walks ---- *)
Lemma filter_split {A} (p : A -> bool) G : forall L1 x L2, filter p G = L1 ++ x :: L2 ->
  exists A0 B, G = A0 ++ x :: B /\ filter p B = L2 /\ filter p A0 = L1.
Proof.
  induction G as [|a G IH]; intros L1 x L2 E; cbn [filter] in E; [destruct L1; discriminate|].
  destruct (p a) eqn:P.
  - destruct L1 as [|b L1]; cbn [app] in E; injection E as -> E.
    + exists [], G. auto.
    + destruct (IH _ _ _ E) as (A0 & B & -> & H1 & H2). exists (b :: A0), B. cbn [app filter]. rewrite P, H2. auto.
  - destruct (IH _ _ _ E) as (A0 & B & -> & H1 & H2). exists (a :: A0), B. cbn [app filter]. rewrite P. auto.
Qed.

Lemma dec_item_get m d gi x : IOk m d gi -> In x (flat 0 gi) ->
  index_item_get_disk d (l_f x) (l_off x) (it_idlen (l_it x)) = Some (l_it x).
Proof.
  intros I Hx. pose proof (io_wf _ _ _ I) as W. rewrite Forall_forall in W. destruct (W x Hx) as [W1 _].
  apply in_flat in Hx. destruct Hx as (g1 & l1 & l2 & g2 & E & Hf & Ho). change (0 + nlen g1) with (nlen g1) in Hf.
  unfold index_item_get_disk. rewrite Hf, Ho, (ifile_at _ _ _ _ _ _ I E).
  assert (W2 := W1). destruct W2 as (W2 & _). rewrite fread_item by (unfold itsz; lia).
  rewrite blen_enc_item, W2, N.eqb_refl. now rewrite dec_enc_item.
Qed.

Lemma fid_lt m d gi x : IOk m d gi -> In x (flat 0 gi) -> l_f x < 4294967296.
Proof. intros I Hx. pose proof (fid_small _ _ _ _ I Hx). pose proof (io_small _ _ _ I). lia. Qed.

Lemma cursor_ok m d gi x : IOk m d gi -> In x (flat 0 gi) -> scan_initial_get d (cursor_of x) = Some (l_f x, l_off x).
Proof.
  intros I Hx. pose proof (io_wf _ _ _ I) as W. rewrite Forall_forall in W. destruct (W x Hx) as [W1 W2].
  pose proof (fid_lt _ _ _ _ I Hx) as Hf. assert (W3 := W1). destruct W3 as (_ & Wa & _ & Wb & _ & _ & _ & _ & Wc & _).
  unfold scan_initial_get, cursor_of. rewrite blen_enc_bkey, N.eqb_refl. cbn [negb].
  unfold index_item_serialize. rewrite u32_small by auto.
  rewrite dec_enc_bkey by (cbn [bk_idlen bk_fileid bk_length bk_idxoff bk_crc]; auto).
  unfold index_entry_deserialize. cbn [bk_idlen bk_fileid bk_length bk_idxoff bk_crc].
  rewrite (dec_item_get _ _ _ _ I Hx), !N.eqb_refl. reflexivity.
Qed.

Lemma wlk_scan m d gi : IOk m d gi -> gi <> [] ->
  Wlk d (index_first_header d) (index_next_header d) (filter live (flat 0 gi)).
Proof.
  intros I Hne. constructor.
  - now apply (first_ok m).
  - intros L1 x L2 E. apply filter_split in E. destruct E as (A & B & E & <- & _). now apply (next_ok m d gi A).
  - intros x Hx. apply filter_In in Hx. now apply (cursor_ok m d gi).
Qed.

Lemma filter_rev {A} (p : A -> bool) G : filter p (rev G) = rev (filter p G).
Proof.
  induction G as [|a G IH]; cbn [rev filter]; auto. rewrite filter_app, IH. cbn [filter].
  destruct (p a); cbn [rev]; auto. now rewrite app_nil_r.
Qed.

Lemma wlk_rscan m d gi x : IOk m d gi -> noempty gi \/ gi = [[]] -> chain 0 (flat 0 gi) ->
  x_indexid x + 1 = nlen gi -> x_prev x = last_off 0 (flat 0 gi) ->
  Wlk d (index_last_header d x) (index_previous_header d) (rev (filter live (flat 0 gi))).
Proof.
  intros I NE Ch H1 H2. rewrite <- filter_rev. constructor.
  - now apply (last_ok m).
  - intros L1 y L2 E. apply filter_split in E. destruct E as (A & B & E & <- & _).
    assert (E2 : flat 0 gi = rev B ++ y :: rev A).
    { rewrite <- (rev_involutive (flat 0 gi)), E, rev_app_distr. cbn [rev]. rewrite <- app_assoc. reflexivity. }
    destruct NE as [NE | ->]; [|destruct (rev B); discriminate].
    rewrite <- (rev_involutive B). now apply (previous_ok m d gi (rev B) y (rev A)).
  - intros y Hy. rewrite filter_rev in Hy. apply in_rev in Hy. apply filter_In in Hy. now apply (cursor_ok m d gi).
Qed.

(* ---- the chunks of a walk ---- *)
Lemma chunks_prefix : forall slices b rows, exists rest, rows = concat (chunks b slices rows) ++ rest.
Proof.
  induction slices as [|n slices IH]; intros b rows; cbn [chunks].
  - exists rows. reflexivity.
  - set (k := if b then S n else n). destruct (firstn k rows) as [|r c] eqn:E.
    + exists rows. reflexivity.
    + destruct (IH false (skipn k rows)) as (rest & Hr). exists rest. cbn [concat]. rewrite <- app_assoc, <- Hr, <- E.
      symmetry. apply firstn_skipn.
Qed.

Lemma chunks_complete : forall slices b rows, Forall (fun n => 1 <= n)%nat slices -> (length rows < length slices)%nat ->
  concat (chunks b slices rows) = rows /\ exists cs, chunks b slices rows = cs ++ [[]].
Proof.
  induction slices as [|n slices IH]; intros b rows P HL; [cbn [length] in HL; lia|].
  inversion P as [|? ? P1 P2]; subst. cbn [chunks]. set (k := if b then S n else n).
  assert (Hk : (1 <= k)%nat) by (unfold k; destruct b; lia).
  destruct (firstn k rows) as [|r c] eqn:E.
  - assert (rows = []) as -> by (destruct rows; auto; destruct k; [lia|discriminate]).
    split; [reflexivity|]. exists []. reflexivity.
  - destruct (IH false (skipn k rows) P2) as [H1 (cs & H2)].
    + pose proof (firstn_length k rows) as X. rewrite E in X. cbn [length] in *. rewrite skipn_length. lia.
    + cbn [concat]. rewrite H1, <- E. split; [apply firstn_skipn|]. exists ((firstn k rows) :: cs). rewrite H2. reflexivity.
Qed.

(* the length of any list of rows: no reply is left unread *)
Lemma follow_length call cmd : forall slices cur rs, follow call cmd cur slices = Some rs -> (length rs <= length slices)%nat.
Proof.
  induction slices as [|n slices IH]; intros cur rs E; cbn [follow] in E.
  - injection E as <-. auto.
  - destruct (call n _) as [r|]; [|discriminate]. destruct (next_cursor r) as [k|].
    + destruct (follow call cmd (Some k) slices) as [rs'|] eqn:E2; [|discriminate]. cbn [option_map] in E. injection E as <-.
      cbn [length]. specialize (IH _ _ E2). lia.
    + injection E as <-. cbn [length]. lia.
Qed.
