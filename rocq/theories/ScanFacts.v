(* Facts about Scan.v: what the walks meet in well-formed index files. *)
From Coq Require Import Strings.String Strings.Byte List NArith ZArith Bool Lia ZifyBool ZifyN ZifyNat.
From Verif Require Import Bytes BytesFacts Layout LayoutFacts Store Text Commands Ghost UserInv Scan.
Import ListNotations.
Open Scope N_scope.
Ltac Zify.zify_post_hook ::= Z.div_mod_to_equations.
Local Notation length := List.length.

Record IOk (m : N) (d : disk) (gi : list (list item)) : Prop := {
  io_files : dk_i d = enc_ifs m 0 gi;
  io_small : nlen gi < 4294967296;
  io_wf : Forall (fun x => item_wf (l_it x) /\ l_off x < 4294967296) (flat 0 gi)
}.

(* ---- reading one record ---- *)
Definition head_of (it : item) : item :=
  mkItem (it_idlen it) (it_off it) (it_len it) (it_prev it) (it_flags it) (it_dataid it) (it_ts it)
    (it_crc it) (it_pid it) (it_poff it) [].

Lemma fread_part a b c n : n <= blen b -> fread (a ++ b ++ c) (blen a) n = nfirst n b.
Proof.
  intros H. unfold fread. rewrite nskip_app_exact' by reflexivity.
  rewrite !nfirst_firstn, firstn_app. rewrite blen_length in H.
  replace (N.to_nat n - length b)%nat with O by lia. now rewrite firstn_O, app_nil_r.
Qed.

Lemma enc_item_split it : exists h, enc_item it = h ++ it_id it /\ blen h = 34.
Proof.
  unfold enc_item. eexists. split.
  - rewrite !app_assoc. reflexivity.
  - rewrite !blen_app, !blen_le. reflexivity.
Qed.

Lemma file_shape m f l1 it l2 : exists a c, enc_if m f (l1 ++ it :: l2) = a ++ enc_item it ++ c /\ blen a = 29 + isz l1.
Proof.
  exists (enc_if m f l1), (enc_items l2). split; [|apply blen_enc_if].
  unfold enc_if. now rewrite enc_items_app, enc_items_cons, app_assoc.
Qed.

Lemma dec_head it h : item_wf it -> enc_item it = h ++ it_id it -> dec_item h = head_of it.
Proof.
  intros W E. assert (E2 : h = enc_item (head_of it)).
  { assert (X : enc_item it = enc_item (head_of it) ++ it_id it).
    { unfold enc_item, head_of. cbn [it_idlen it_off it_len it_prev it_flags it_dataid it_ts it_crc it_pid it_poff it_id].
      rewrite <- !app_assoc. reflexivity. }
    rewrite E in X. now apply app_inv_tail in X. }
  rewrite E2, <- (app_nil_r (enc_item _)), dec_enc_item_norm. cbn zeta.
  assert (X : item_norm (head_of it) = head_of it).
  { pose proof (item_norm_wf it W) as Y. unfold item_norm, head_of in *.
    cbn [it_idlen it_off it_len it_prev it_flags it_dataid it_ts it_crc it_pid it_poff it_id] in *.
    destruct it as [a0 a1 a2 a3 a4 a5 a6 a7 a8 a9 a10].
    cbn [it_idlen it_off it_len it_prev it_flags it_dataid it_ts it_crc it_pid it_poff it_id] in *.
    injection Y as -> -> -> -> -> -> -> -> -> ->. reflexivity. }
  rewrite X. now rewrite app_nil_r.
Qed.

Lemma read_head_ok m f l1 it l2 : item_wf it ->
  read_head (enc_if m f (l1 ++ it :: l2)) (29 + isz l1) = Some (head_of it).
Proof.
  intros W. destruct (file_shape m f l1 it l2) as (a & c & -> & <-).
  destruct (enc_item_split it) as (h & E & Hh). unfold read_head.
  rewrite fread_part by (rewrite E, blen_app; lia).
  replace (nfirst 34 (enc_item it)) with h by (rewrite E; symmetry; apply nfirst_app_exact'; auto).
  rewrite Hh, N.eqb_refl. f_equal. now apply dec_head.
Qed.

Lemma read_head_eof f off : blen f <= off -> read_head f off = None.
Proof. intros H. unfold read_head. now rewrite fread_eof. Qed.

Lemma read_id_ok m f l1 it l2 :
  fread (enc_if m f (l1 ++ it :: l2)) (29 + isz l1 + 34) (blen (it_id it)) = it_id it.
Proof.
  destruct (file_shape m f l1 it l2) as (a & c & -> & <-).
  destruct (enc_item_split it) as (h & E & Hh). rewrite E, <- app_assoc, app_assoc, <- Hh, <- blen_app.
  now apply fread_app.
Qed.

Lemma read_entry_ok m f l1 it l2 s : item_wf it -> sc_tgt s = 29 + isz l1 ->
  read_entry (enc_if m f (l1 ++ it :: l2)) s (head_of it) =
  mkScan (sc_fid s) (sc_orig s) (sc_tgt s) (Some it) SSuccess.
Proof.
  intros W T. unfold read_entry. cbn [head_of it_idlen it_off it_len it_prev it_flags it_dataid it_ts it_crc it_pid it_poff].
  rewrite T. destruct W as (W & _). rewrite W, read_id_ok, N.eqb_refl. f_equal. f_equal.
  rewrite <- W. now destruct it.
Qed.

Lemma ifile_at m d gi g1 l g2 : IOk m d gi -> gi = g1 ++ l :: g2 -> ifile d (nlen g1) = Some (enc_if m (nlen g1) l).
Proof. intros I ->. unfold ifile. rewrite (io_files _ _ _ I), nget_enc_ifs. reflexivity. Qed.

Lemma ifile_out m d gi f : IOk m d gi -> nlen gi <= f -> ifile d f = None.
Proof. intros I H. unfold ifile. rewrite (io_files _ _ _ I). apply nget_None. now rewrite nlen_enc_ifs. Qed.

(* ---- where a walk lands ---- *)
Definition lands (r : option scan) (l : list loc) : Prop :=
  exists s, r = Some s /\
  match l with [] => sc_st s = SNoMore /\ row_of s = None | y :: _ => row_of s = Some y end.

Lemma is_deleted_live f o it : is_deleted (it_flags it) = negb (live (f, o, it)).
Proof. unfold live. cbn [l_it snd]. now rewrite negb_involutive. Qed.

Definition step_like (real : bytes -> scan -> scan) : Prop :=
  real = index_next_header_real \/ real = index_first_header_real.

(* one pass with the target set *)
Lemma pass_rec real m f l1 it l2 s : step_like real -> item_wf it -> sc_tgt s = 29 + isz l1 ->
  let s' := real (enc_if m f (l1 ++ it :: l2)) s in
  if is_deleted (it_flags it)
  then sc_st s' = SDeleted /\ sc_fid s' = sc_fid s /\
       (sc_tgt s' = 29 + isz l1 + itsz it \/ real = index_next_header_real /\ sc_tgt s' = 0 /\ sc_orig s' = 29 + isz l1)
  else s' = mkScan (sc_fid s) (sc_orig s) (sc_tgt s) (Some it) SSuccess.
Proof.
  intros R W T. cbn zeta. assert (W1 := W). destruct W1 as (W1 & _). destruct R as [-> | ->].
  - unfold index_next_header_real. cbn zeta. rewrite T. replace (29 + isz l1 =? 0) with false by lia.
    rewrite read_head_ok by auto. cbn [head_of it_flags].
    destruct (is_deleted (it_flags it)) eqn:D.
    + cbn [index_scan_error set_both sc_st sc_fid sc_tgt sc_orig]. repeat split; auto.
    + rewrite <- T. now apply read_entry_ok.
  - unfold index_first_header_real. rewrite T, read_head_ok by auto. cbn [head_of it_flags it_idlen].
    destruct (is_deleted (it_flags it)) eqn:D.
    + cbn [index_scan_error set_tgt sc_st sc_fid sc_tgt sc_orig]. repeat split; auto. left. unfold itsz. lia.
    + rewrite <- T. now apply read_entry_ok.
Qed.

Lemma pass_eof real m f l s : step_like real -> sc_tgt s = 29 + isz l ->
  let s' := real (enc_if m f l) s in sc_st s' = SEof /\ sc_fid s' = sc_fid s /\ sc_tgt s' = 29.
Proof.
  intros R T. cbn zeta. assert (E : read_head (enc_if m f l) (29 + isz l) = None)
    by (apply read_head_eof; rewrite blen_enc_if; lia).
  destruct R as [-> | ->].
  - unfold index_next_header_real. cbn zeta. rewrite T. replace (29 + isz l =? 0) with false by lia. rewrite E. repeat split.
  - unfold index_first_header_real. rewrite T, E. repeat split.
Qed.

(* target 0 stands for the record after the original one *)
Lemma next_zero m d gi g1 l1 it l2 g2 fuel s : IOk m d gi -> gi = g1 ++ (l1 ++ it :: l2) :: g2 -> item_wf it ->
  sc_fid s = nlen g1 -> sc_orig s = 29 + isz l1 -> sc_tgt s = 0 ->
  scan_loop (S fuel) index_next_header_real d s =
  scan_loop (S fuel) index_next_header_real d (set_tgt (29 + isz l1 + itsz it) s).
Proof.
  intros I E W Hf Ho Ht. cbn [scan_loop]. cbn [set_tgt sc_fid]. rewrite Hf, (ifile_at _ _ _ _ _ _ I E).
  replace (index_next_header_real (enc_if m (nlen g1) (l1 ++ it :: l2)) s)
    with (index_next_header_real (enc_if m (nlen g1) (l1 ++ it :: l2)) (set_tgt (29 + isz l1 + itsz it) s)); [reflexivity|].
  unfold index_next_header_real. rewrite Ht, Ho. cbn [set_tgt sc_tgt]. rewrite N.eqb_refl.
  replace (29 + isz l1 + itsz it =? 0) with false by lia. rewrite read_head_ok by auto. cbn zeta.
  cbn [head_of it_idlen]. destruct W as (W & _). rewrite W.
  replace (29 + isz l1 + 34 + blen (it_id it)) with (29 + isz l1 + itsz it) by (unfold itsz; lia). reflexivity.
Qed.

Lemma wf_at m d gi g1 l1 it l2 g2 : IOk m d gi -> gi = g1 ++ (l1 ++ it :: l2) :: g2 -> item_wf it.
Proof.
  intros I ->. pose proof (io_wf _ _ _ I) as W. rewrite flat_split in W. apply Forall_app in W. destruct W as [_ W].
  apply Forall_inv in W. apply W.
Qed.

Lemma nlen_of {A} (l : list A) : N.to_nat (nlen l) = length l.
Proof. rewrite nlen_length. lia. Qed.

Lemma length_place f off l : length (place f off l) = length l.
Proof. revert off; induction l; intros; cbn [place length]; auto. Qed.

(* from a given offset to the end of the files *)
Lemma scan_from real m d gi : step_like real -> IOk m d gi ->
  forall g2 l2 g1 l1 s fuel, gi = g1 ++ (l1 ++ l2) :: g2 ->
  sc_fid s = nlen g1 -> sc_tgt s = 29 + isz l1 ->
  (length l2 + length (flat (nlen g1 + 1) g2) + length g2 + 2 <= fuel)%nat ->
  lands (scan_loop fuel real d s) (filter live (place (nlen g1) (29 + isz l1) l2 ++ flat (nlen g1 + 1) g2)).
Proof.
  intros R I. induction g2 as [|l g2 IHg].
  - induction l2 as [|it l2 IHl]; intros g1 l1 s fuel E Hf Ht Hfuel.
    + destruct fuel as [|[|fuel]]; [cbn in Hfuel; lia|cbn in Hfuel; lia|]. rewrite app_nil_r in E.
      cbn [scan_loop]. rewrite Hf, (ifile_at _ _ _ _ _ _ I E).
      destruct (pass_eof real m (nlen g1) l1 s R Ht) as (P1 & P2 & P3). rewrite P1, P2. cbn [set_fid sc_fid].
      rewrite Hf. assert (L : nlen gi = nlen g1 + 1) by (rewrite E, nlen_app; cbn [nlen]; lia).
      pose proof (io_small _ _ _ I) as Sm. rewrite (ifile_out m d gi) by (auto; unfold u32; lia).
      eexists. split; [reflexivity|]. cbn. auto.
    + destruct fuel as [|fuel]; [cbn in Hfuel; lia|]. assert (W := wf_at _ _ _ _ _ _ _ _ I E).
      assert (E' : gi = g1 ++ ((l1 ++ [it]) ++ l2) :: []) by (rewrite E, <- app_assoc; reflexivity).
      pose proof (pass_rec real m (nlen g1) l1 it l2 s R W Ht) as P. cbn zeta in P.
      cbn [scan_loop]. rewrite Hf, (ifile_at _ _ _ _ _ _ I E). cbn [place app filter].
      rewrite (is_deleted_live (nlen g1) (29 + isz l1) it) in P.
      destruct (live (nlen g1, 29 + isz l1, it)) eqn:L; cbn [negb] in P.
      * rewrite P. cbn [sc_st]. eexists. split; [reflexivity|]. unfold row_of. cbn [sc_st sc_hdr sc_fid sc_tgt].
        now rewrite Hf, Ht.
      * destruct P as (P1 & P2 & P3). rewrite P1. set (s' := real _ s) in *.
        assert (Isz : 29 + isz (l1 ++ [it]) = 29 + isz l1 + itsz it) by (rewrite isz_app; cbn [isz]; lia).
        destruct P3 as [P3|(-> & P3 & P4)].
        -- rewrite <- Isz in *. apply IHl; auto; try congruence. cbn [length flat] in *. lia.
        -- destruct fuel as [|fuel]; [cbn in Hfuel; lia|].
           rewrite (next_zero m d gi g1 l1 it l2 [] fuel s' I E W); auto; [|congruence].
           rewrite <- Isz. apply IHl; auto; cbn [set_tgt sc_fid sc_tgt]; try congruence. cbn [length flat] in *. lia.
  - induction l2 as [|it l2 IHl]; intros g1 l1 s fuel E Hf Ht Hfuel.
    + destruct fuel as [|fuel]; [cbn in Hfuel; lia|]. rewrite app_nil_r in E.
      cbn [scan_loop]. rewrite Hf, (ifile_at _ _ _ _ _ _ I E).
      destruct (pass_eof real m (nlen g1) l1 s R Ht) as (P1 & P2 & P3). rewrite P1, P2.
      assert (L : nlen gi = nlen g1 + 1 + 1 + nlen g2) by (rewrite E, nlen_app; cbn [nlen]; lia).
      pose proof (io_small _ _ _ I) as Sm.
      assert (U : u32 (sc_fid s + 1) = nlen (g1 ++ [l1])) by (rewrite nlen_app; cbn [nlen]; unfold u32; lia).
      rewrite U. cbn [place app flat].
      assert (N1 : nlen (g1 ++ [l1]) = nlen g1 + 1) by (rewrite nlen_app; cbn [nlen]; lia).
      rewrite <- N1. change 29 with (29 + isz []) at 1.
      assert (E' : gi = (g1 ++ [l1]) ++ ([] ++ l) :: g2) by (rewrite E, <- app_assoc; reflexivity).
      apply (IHg l (g1 ++ [l1]) [] _ fuel E'); cbn [set_fid sc_fid sc_tgt isz]; auto.
      rewrite N1. cbn [length flat] in Hfuel. rewrite app_length, length_place in Hfuel. lia.
    + destruct fuel as [|fuel]; [cbn in Hfuel; lia|]. assert (W := wf_at _ _ _ _ _ _ _ _ I E).
      assert (E' : gi = g1 ++ ((l1 ++ [it]) ++ l2) :: l :: g2) by (rewrite E, <- app_assoc; reflexivity).
      pose proof (pass_rec real m (nlen g1) l1 it l2 s R W Ht) as P. cbn zeta in P.
      cbn [scan_loop]. rewrite Hf, (ifile_at _ _ _ _ _ _ I E). cbn [place app filter].
      rewrite (is_deleted_live (nlen g1) (29 + isz l1) it) in P.
      destruct (live (nlen g1, 29 + isz l1, it)) eqn:L; cbn [negb] in P.
      * rewrite P. cbn [sc_st]. eexists. split; [reflexivity|]. unfold row_of. cbn [sc_st sc_hdr sc_fid sc_tgt].
        now rewrite Hf, Ht.
      * destruct P as (P1 & P2 & P3). rewrite P1. set (s' := real _ s) in *.
        assert (Isz : 29 + isz (l1 ++ [it]) = 29 + isz l1 + itsz it) by (rewrite isz_app; cbn [isz]; lia).
        destruct P3 as [P3|(-> & P3 & P4)].
        -- rewrite <- Isz in *. apply IHl; auto; try congruence. cbn [length] in *. lia.
        -- destruct fuel as [|fuel]; [cbn in Hfuel; lia|].
           rewrite (next_zero m d gi g1 l1 it l2 (l :: g2) fuel s' I E W); auto; [|congruence].
           rewrite <- Isz. apply IHl; auto; cbn [set_tgt sc_fid sc_tgt]; try congruence. cbn [length] in *. lia.
Qed.

(* ---- fuel ---- *)
Lemma length_enc_items l : (length l <= length (enc_items l))%nat.
Proof.
  induction l as [|it l IH]; [auto|]. rewrite enc_items_cons, app_length.
  pose proof (blen_enc_item it) as X. rewrite blen_length in X. cbn [length]. lia.
Qed.

Lemma length_flat m gi : forall f, (length (flat f gi) <= length (List.concat (enc_ifs m f gi)))%nat.
Proof.
  induction gi as [|l gi IH]; intros f; cbn [flat enc_ifs List.concat]; [auto|].
  rewrite !app_length, length_place. specialize (IH (f + 1)). unfold enc_if. rewrite app_length.
  pose proof (length_enc_items l). lia.
Qed.

Lemma length_enc_ifs m gi : forall f, length (enc_ifs m f gi) = length gi.
Proof. induction gi; intros; cbn [enc_ifs length]; auto. Qed.

Lemma fuel_enough m d gi : IOk m d gi -> (length (flat 0 gi) + 2 * length gi + 2 <= scan_fuel d)%nat.
Proof.
  intros I. unfold scan_fuel. rewrite (io_files _ _ _ I), length_enc_ifs. pose proof (length_flat m gi 0). lia.
Qed.

(* ---- SCAN ---- *)
Lemma first_ok m d gi : IOk m d gi -> gi <> [] -> lands (index_first_header d) (filter live (flat 0 gi)).
Proof.
  intros I Hne. destruct gi as [|l gi]; [congruence|]. unfold index_first_header. cbn [flat].
  pose proof (fuel_enough _ _ _ I) as F. cbn [flat length] in F. rewrite app_length, length_place in F.
  change (place 0 29 l) with (place (nlen (@nil (list item))) (29 + isz []) l). change (0 + 1) with (nlen (@nil (list item)) + 1) in *.
  apply (scan_from _ m d (l :: gi)); auto; [now right|lia].
Qed.

Lemma flat_after gi x A B : flat 0 gi = A ++ x :: B ->
  exists g1 l1 l2 g2, gi = g1 ++ (l1 ++ l_it x :: l2) :: g2 /\ l_f x = nlen g1 /\ l_off x = 29 + isz l1 /\
    B = place (nlen g1) (29 + isz (l1 ++ [l_it x])) l2 ++ flat (nlen g1 + 1) g2 /\
    A = flat 0 g1 ++ place (nlen g1) 29 l1.
Proof.
  enough (G : forall gi f x A B, flat f gi = A ++ x :: B ->
    exists g1 l1 l2 g2, gi = g1 ++ (l1 ++ l_it x :: l2) :: g2 /\ l_f x = f + nlen g1 /\ l_off x = 29 + isz l1 /\
    B = place (f + nlen g1) (29 + isz (l1 ++ [l_it x])) l2 ++ flat (f + nlen g1 + 1) g2 /\
    A = flat f g1 ++ place (f + nlen g1) 29 l1) by (exact (G gi 0 x A B)).
  clear. induction gi as [|l gi IH]; intros f x A B E; cbn [flat] in E; [destruct A; discriminate|].
  assert (P : forall l off A B, place f off l ++ flat (f + 1) gi = A ++ x :: B ->
     (exists l1 l2, l = l1 ++ l_it x :: l2 /\ l_f x = f /\ l_off x = off + isz l1 /\ A = place f off l1 /\
        B = place f (off + isz (l1 ++ [l_it x])) l2 ++ flat (f + 1) gi) \/
     (exists A', A = place f off l ++ A' /\ flat (f + 1) gi = A' ++ x :: B)).
  { clear. induction l as [|it l IH]; intros off A B E; cbn [place app] in E.
    - right. exists A. auto.
    - destruct A as [|a A]; cbn [app] in E.
      + injection E as <- <-. left. exists [], l. cbn [app isz l_it l_f l_off fst snd place].
        repeat split; auto; [lia|]. now rewrite N.add_0_r.
      + injection E as <- E. destruct (IH _ _ _ E) as [(l1 & l2 & -> & H1 & H2 & -> & ->)|(A' & -> & H)].
        * left. exists (it :: l1), l2. cbn [app isz place]. repeat split; auto; [lia|]. now rewrite N.add_assoc.
        * right. exists A'. auto. }
  destruct (P _ _ _ _ E) as [(l1 & l2 & -> & H1 & H2 & -> & ->)|(A' & -> & H)].
  - exists [], l1, l2, gi. cbn [app nlen flat]. rewrite N.add_0_r. auto.
  - destruct (IH _ _ _ _ H) as (g1 & l1 & l2 & g2 & -> & H1 & H2 & -> & ->).
    exists (l :: g1), l1, l2, g2. cbn [app nlen flat].
    replace (f + N.succ (nlen g1)) with (f + 1 + nlen g1) by lia. rewrite <- app_assoc. auto.
Qed.

Lemma next_ok m d gi A x B : IOk m d gi -> flat 0 gi = A ++ x :: B ->
  lands (index_next_header d (l_f x) (l_off x)) (filter live B).
Proof.
  intros I E. destruct (flat_after _ _ _ _ E) as (g1 & l1 & l2 & g2 & Eg & Hf & Ho & HB & HA).
  assert (W := wf_at _ _ _ _ _ _ _ _ I Eg). unfold index_next_header.
  pose proof (fuel_enough _ _ _ I) as F. rewrite E, HA, HB in F. rewrite Eg in F.
  rewrite !app_length in F. cbn [length] in F. rewrite app_length, !length_place in F.
  destruct (scan_fuel d) as [|fuel]; [lia|].
  rewrite (next_zero m d gi g1 l1 (l_it x) l2 g2 fuel _ I Eg W) by auto. rewrite HB.
  assert (Isz : 29 + isz (l1 ++ [l_it x]) = 29 + isz l1 + itsz (l_it x)) by (rewrite isz_app; cbn [isz]; lia).
  rewrite Isz. rewrite <- Isz. apply (scan_from _ m d gi); auto; [now left|rewrite Eg, <- app_assoc; reflexivity|lia].
Qed.

(* ---- RSCAN ---- *)
Definition noempty (gi : list (list item)) : Prop := Forall (fun l => l <> []) gi.

Lemma off_29 gi x : In x (flat 0 gi) -> 29 <= l_off x.
Proof. intros H. apply in_flat in H. destruct H as (g1 & l1 & l2 & g2 & _ & _ & ->). lia. Qed.

Lemma adjacent gi A y x B : noempty gi -> flat 0 gi = A ++ y :: x :: B ->
  (l_f x = l_f y /\ l_off y < l_off x) \/ (l_f x = l_f y + 1 /\ l_off x = 29).
Proof.
  intros NE E. destruct (flat_after _ _ _ _ E) as (g1 & l1 & l2 & g2 & Eg & Hf & Ho & HB & _).
  destruct l2 as [|it l2]; cbn [place app] in HB.
  - destruct g2 as [|l g2]; [discriminate|]. rewrite Eg in NE. apply Forall_app in NE. destruct NE as [_ NE].
    apply Forall_inv_tail in NE. apply Forall_inv in NE. destruct l as [|it l]; [congruence|].
    cbn [flat place app] in HB. injection HB as -> _. right. cbn [l_f l_off fst snd]. rewrite Hf. auto.
  - assert (Hx : x = (nlen g1, 29 + isz (l1 ++ [l_it y]), it)) by congruence. left. rewrite Hf, Ho, Hx.
    unfold l_f, l_off. cbn [fst snd]. rewrite isz_app. cbn [isz]. unfold itsz. split; [auto|lia].
Qed.

Lemma first_file gi x B : noempty gi -> flat 0 gi = x :: B -> l_f x = 0 /\ l_off x = 29.
Proof.
  intros NE E. destruct gi as [|[|it l] gi]; cbn [flat place app] in E; [discriminate| |].
  - apply Forall_inv in NE. congruence.
  - injection E as <- _. auto.
Qed.

Lemma record_at m d gi x : IOk m d gi -> In x (flat 0 gi) ->
  exists f, ifile d (l_f x) = Some f /\ read_head f (l_off x) = Some (head_of (l_it x)) /\
    forall s, sc_tgt s = l_off x ->
      read_entry f s (head_of (l_it x)) = mkScan (sc_fid s) (sc_orig s) (sc_tgt s) (Some (l_it x)) SSuccess.
Proof.
  intros I Hx. apply in_flat in Hx. destruct Hx as (g1 & l1 & l2 & g2 & E & Hf & Ho).
  assert (W := wf_at _ _ _ _ _ _ _ _ I E). change (0 + nlen g1) with (nlen g1) in Hf.
  exists (enc_if m (nlen g1) (l1 ++ l_it x :: l2)). rewrite Hf, Ho.
  split; [eapply ifile_at; eauto|]. split; [now apply read_head_ok|].
  intros s Hs. now apply read_entry_ok.
Qed.

Lemma fid_small m d gi x : IOk m d gi -> In x (flat 0 gi) -> l_f x < nlen gi.
Proof.
  intros I Hx. apply in_flat in Hx. destruct Hx as (g1 & l1 & l2 & g2 & -> & -> & _).
  rewrite nlen_app. cbn [nlen]. lia.
Qed.

Lemma prev_from m d gi : IOk m d gi -> noempty gi -> chain 0 (flat 0 gi) ->
  forall A x B s fuel, flat 0 gi = A ++ x :: B ->
  sc_fid s = l_f x -> sc_orig s = l_off x -> sc_tgt s = 0 ->
  (2 * length A + 1 <= fuel)%nat ->
  lands (scan_loop fuel index_previous_header_real d s) (filter live (rev A)).
Proof.
  intros I NE Ch. induction A as [|y A IH] using rev_ind; intros x B s fuel E Hf Ho Ht Hfuel.
  - destruct fuel as [|fuel]; [cbn in Hfuel; lia|]. cbn [app] in E.
    destruct (first_file _ _ _ NE E) as [F1 F2].
    destruct (record_at m d gi x I) as (f & R1 & R2 & R3); [rewrite E; now left|].
    assert (P : it_prev (l_it x) = 0) by (rewrite E in Ch; apply Ch).
    cbn [scan_loop]. rewrite Hf, R1. unfold index_previous_header_real. cbn zeta.
    rewrite Ht, Ho, N.eqb_refl, R2. cbn [head_of it_prev]. rewrite P, F2.
    change (29 <=? 0) with false. change (0 =? 1) with false. cbn [set_tgt sc_tgt]. rewrite N.eqb_refl.
    cbn [index_scan_error sc_st rev filter]. eexists. split; [reflexivity|]. cbn. auto.
  - rewrite app_length in Hfuel. cbn [length] in Hfuel. destruct fuel as [|[|fuel]]; [lia|lia|].
    assert (Hy : In y (flat 0 gi)) by (rewrite E, <- app_assoc; apply in_app_iff; right; now left).
    assert (Hx : In x (flat 0 gi)) by (rewrite E; apply in_app_iff; right; now left).
    assert (E2 : flat 0 gi = A ++ y :: x :: B) by (rewrite E, <- app_assoc; reflexivity).
    pose proof (off_29 _ _ Hy) as Y29. pose proof (off_29 _ _ Hx) as X29.
    destruct (record_at m d gi x I Hx) as (f & R1 & R2 & R3).
    destruct (record_at m d gi y I Hy) as (fy & Q1 & Q2 & Q3).
    assert (P : it_prev (l_it x) = l_off y).
    { rewrite E in Ch. apply chain_app in Ch. destruct Ch as [_ Ch]. cbn [chain] in Ch. destruct Ch as [Ch _].
      rewrite Ch, last_off_app. reflexivity. }
    (* a pass with the target on y *)
    assert (K : forall s fuel, sc_fid s = l_f y -> sc_tgt s = l_off y -> (2 * length A + 1 <= fuel)%nat ->
      lands (match sc_st (index_previous_header_real fy s) with
             | SSuccess | SUnexpected | SNoMore => Some (index_previous_header_real fy s)
             | SDeleted => scan_loop fuel index_previous_header_real d (index_previous_header_real fy s)
             | SEof => scan_loop fuel index_previous_header_real d
                         (set_fid (u32 (sc_fid (index_previous_header_real fy s) + 1)) (index_previous_header_real fy s))
             | SPrevious => scan_loop fuel index_previous_header_real d
                         (set_fid (u32 (sc_fid (index_previous_header_real fy s) + 4294967295)) (index_previous_header_real fy s))
             end) (filter live (rev (A ++ [y])))).
    { intros s1 fuel1 S1 S2 S3. rewrite rev_app_distr. cbn [rev app filter].
      assert (X : index_previous_header_real fy s1 =
        if live y then mkScan (sc_fid s1) (sc_orig s1) (sc_tgt s1) (Some (l_it y)) SSuccess
        else index_scan_error (set_both (sc_tgt s1) 0 s1) SDeleted).
      { unfold index_previous_header_real. cbn zeta. rewrite S2. replace (l_off y =? 0) with false by lia.
        rewrite Q2. cbn [head_of it_flags]. unfold live. destruct (is_deleted (it_flags (l_it y))); cbn [negb]; [reflexivity|].
        rewrite Q3 by auto. now rewrite S2. }
      rewrite X. destruct (live y).
      - cbn [sc_st]. eexists. split; [reflexivity|]. unfold row_of. cbn [sc_st sc_hdr sc_fid sc_tgt].
        rewrite S1, S2. now destruct y as [[? ?] ?].
      - cbn [index_scan_error set_both sc_st]. apply (IH y (x :: B)); auto. }
    cbn [scan_loop]. rewrite Hf, R1.
    destruct (adjacent _ _ _ _ _ NE E2) as [[J1 J2]|[J1 J2]].
    + assert (Eq : f = fy) by congruence. subst fy.
      assert (X : index_previous_header_real f s = index_previous_header_real f (set_tgt (l_off y) s)).
      { unfold index_previous_header_real. cbn zeta. cbn [set_tgt sc_tgt sc_orig sc_fid sc_hdr sc_st]. rewrite Ht, N.eqb_refl, Ho, R2.
        cbn [head_of it_prev]. rewrite P. replace (l_off x <=? l_off y) with false by lia.
        replace (l_off y =? 1) with false by lia. cbn [set_tgt sc_tgt].
        replace (l_off y =? 0) with false by lia. reflexivity. }
      rewrite X. apply (K (set_tgt (l_off y) s) (S fuel)); cbn [set_tgt sc_fid sc_tgt]; [congruence|reflexivity|lia].
    + assert (X : index_previous_header_real f s = index_scan_error (set_tgt (l_off y) s) SPrevious).
      { unfold index_previous_header_real. cbn zeta. rewrite Ht, N.eqb_refl, Ho, R2. cbn [head_of it_prev]. rewrite P.
        now replace (l_off x <=? l_off y) with true by lia. }
      rewrite X. cbn [index_scan_error set_tgt sc_st set_fid sc_fid sc_orig sc_tgt sc_hdr].
      pose proof (fid_small _ _ _ _ I Hx) as FS. pose proof (io_small _ _ _ I) as Sm.
      rewrite Hf. replace (u32 (l_f x + 4294967295)) with (l_f y) by (unfold u32; lia).
      cbn [scan_loop sc_fid]. rewrite Q1.
      apply (K (mkScan (l_f y) (sc_orig s) (l_off y) None SPrevious) fuel); [reflexivity|reflexivity|lia].
Qed.

Lemma length_enc_items2 l : (2 * length l <= length (enc_items l))%nat.
Proof.
  induction l as [|it l IH]; [auto|]. rewrite enc_items_cons, app_length.
  pose proof (blen_enc_item it) as X. rewrite blen_length in X. cbn [length]. lia.
Qed.

Lemma length_flat2 m gi : forall f, (2 * length (flat f gi) <= length (List.concat (enc_ifs m f gi)))%nat.
Proof.
  induction gi as [|l gi IH]; intros f; cbn [flat enc_ifs List.concat]; [auto|].
  rewrite !app_length, length_place. specialize (IH (f + 1)). unfold enc_if. rewrite app_length.
  pose proof (length_enc_items2 l). lia.
Qed.

Lemma fuel_enough2 m d gi : IOk m d gi -> (2 * length (flat 0 gi) + 2 * length gi + 2 <= scan_fuel d)%nat.
Proof.
  intros I. unfold scan_fuel. rewrite (io_files _ _ _ I), length_enc_ifs. pose proof (length_flat2 m gi 0). lia.
Qed.

Lemma previous_ok m d gi A x B : IOk m d gi -> noempty gi -> chain 0 (flat 0 gi) -> flat 0 gi = A ++ x :: B ->
  lands (index_previous_header d (l_f x) (l_off x)) (filter live (rev A)).
Proof.
  intros I NE Ch E. unfold index_previous_header. apply (prev_from m d gi I NE Ch A x B); auto.
  pose proof (fuel_enough2 _ _ _ I) as F. rewrite E, app_length in F. cbn [length] in F. lia.
Qed.

Lemma last_from m d gi : IOk m d gi -> noempty gi -> chain 0 (flat 0 gi) ->
  forall A y B s fuel, flat 0 gi = A ++ y :: B ->
  sc_fid s = l_f y -> sc_tgt s = l_off y -> (length A + 2 <= fuel)%nat ->
  lands (scan_loop fuel index_last_header_real d s) (filter live (rev (A ++ [y]))).
Proof.
  intros I NE Ch. induction A as [|z A IH] using rev_ind; intros y B s fuel E Hf Ht Hfuel.
  - destruct fuel as [|[|fuel]]; [cbn in Hfuel; lia|cbn in Hfuel; lia|]. cbn [app] in E.
    destruct (first_file _ _ _ NE E) as [F1 F2].
    destruct (record_at m d gi y I) as (f & R1 & R2 & R3); [rewrite E; now left|].
    assert (P : it_prev (l_it y) = 0) by (rewrite E in Ch; apply Ch).
    cbn [app rev filter]. cbn [scan_loop]. rewrite Hf, R1.
    assert (X : index_last_header_real f s =
        if live y then mkScan (sc_fid s) (sc_orig s) (sc_tgt s) (Some (l_it y)) SSuccess
        else index_scan_error (set_tgt 0 s) SDeleted).
    { unfold index_last_header_real. cbn zeta. rewrite Ht, F2. change (29 =? 0) with false. change (29 =? 1) with false. cbn iota.
      rewrite Ht, R2. cbn [head_of it_flags it_prev]. unfold live. destruct (is_deleted (it_flags (l_it y))); cbn [negb].
      - rewrite P, F2. reflexivity.
      - rewrite R3 by auto. now rewrite Ht, F2. }
    rewrite X. destruct (live y).
    + cbn [sc_st]. eexists. split; [reflexivity|]. unfold row_of. cbn [sc_st sc_hdr sc_fid sc_tgt].
      rewrite Hf, Ht. now destruct y as [[? ?] ?].
    + cbn [index_scan_error set_tgt sc_st sc_fid]. rewrite Hf, R1. unfold index_last_header_real.
      cbn [sc_tgt]. rewrite N.eqb_refl. cbn [index_scan_error sc_st]. eexists. split; [reflexivity|]. cbn. auto.
  - rewrite app_length in Hfuel. cbn [length] in Hfuel. destruct fuel as [|fuel]; [lia|].
    assert (Hz : In z (flat 0 gi)) by (rewrite E, <- app_assoc; apply in_app_iff; right; now left).
    assert (Hy : In y (flat 0 gi)) by (rewrite E; apply in_app_iff; right; now left).
    assert (E2 : flat 0 gi = A ++ z :: y :: B) by (rewrite E, <- app_assoc; reflexivity).
    pose proof (off_29 _ _ Hz) as Z29. pose proof (off_29 _ _ Hy) as Y29.
    destruct (record_at m d gi y I Hy) as (f & R1 & R2 & R3).
    assert (P : it_prev (l_it y) = l_off z).
    { rewrite E in Ch. apply chain_app in Ch. destruct Ch as [_ Ch]. cbn [chain] in Ch. destruct Ch as [Ch _].
      rewrite Ch, last_off_app. reflexivity. }
    rewrite (rev_app_distr _ [y]). cbn [rev app filter]. cbn [scan_loop]. rewrite Hf, R1.
    assert (X : index_last_header_real f s =
        if live y then mkScan (sc_fid s) (sc_orig s) (sc_tgt s) (Some (l_it y)) SSuccess
        else index_scan_error (set_tgt (l_off z) s) (if l_off y <=? l_off z then SPrevious else SDeleted)).
    { unfold index_last_header_real. cbn zeta. rewrite Ht. replace (l_off y =? 0) with false by lia.
      replace (l_off y =? 1) with false by lia. rewrite Ht, R2. cbn [head_of it_flags it_prev]. unfold live.
      destruct (is_deleted (it_flags (l_it y))); cbn [negb].
      - rewrite P. replace (l_off z =? 1) with false by lia. now rewrite orb_false_r.
      - rewrite R3 by auto. now rewrite Ht. }
    rewrite X. destruct (live y).
    + cbn [sc_st]. eexists. split; [reflexivity|]. unfold row_of. cbn [sc_st sc_hdr sc_fid sc_tgt].
      rewrite Hf, Ht. now destruct y as [[? ?] ?].
    + destruct (adjacent _ _ _ _ _ NE E2) as [[J1 J2]|[J1 J2]].
      * replace (l_off y <=? l_off z) with false by lia. cbn [index_scan_error set_tgt sc_st].
        apply (IH z (y :: B)); auto; cbn [index_scan_error set_tgt sc_fid sc_tgt]; [congruence|lia].
      * replace (l_off y <=? l_off z) with true by lia. cbn [index_scan_error set_tgt sc_st].
        pose proof (fid_small _ _ _ _ I Hy) as FS. pose proof (io_small _ _ _ I) as Sm.
        apply (IH z (y :: B)); auto; cbn [index_scan_error set_tgt set_fid sc_fid sc_tgt]; [|lia].
        rewrite Hf. unfold u32. lia.
Qed.

Lemma last_ok m d gi x : IOk m d gi -> noempty gi \/ gi = [[]] -> chain 0 (flat 0 gi) ->
  x_indexid x + 1 = nlen gi -> x_prev x = last_off 0 (flat 0 gi) ->
  lands (index_last_header d x) (filter live (rev (flat 0 gi))).
Proof.
  intros I NE Ch Hid Hp. unfold index_last_header. pose proof (fuel_enough2 _ _ _ I) as F.
  destruct NE as [NE | ->].
  - destruct gi as [|l0 g0 _] using rev_ind; [cbn [nlen] in Hid; lia|].
    assert (Hl : l0 <> []) by (apply Forall_app in NE; destruct NE as [_ NE]; now apply Forall_inv in NE).
    destruct l0 as [|y l0 _] using rev_ind; [congruence|].
    assert (E : flat 0 (g0 ++ [l0 ++ [y]]) =
      (flat 0 g0 ++ place (nlen g0) 29 l0) ++ [(nlen g0, 29 + isz l0, y)]).
    { rewrite flat_app. cbn [flat]. rewrite app_nil_r, place_app, app_assoc. reflexivity. }
    rewrite E in Hp |- *. rewrite last_off_app in Hp. cbn [last_off l_off fst snd] in Hp.
    rewrite nlen_app in Hid. cbn [nlen] in Hid.
    apply (last_from m d _ I NE Ch) with (B := []); auto; cbn [sc_fid sc_tgt l_f l_off fst snd]; [lia|].
    rewrite E, app_length in F. cbn [length] in F. lia.
  - cbn [flat place app last_off rev filter] in *. rewrite Hp. cbn [nlen] in Hid.
    assert (Hx : x_indexid x = 0) by lia. rewrite Hx.
    destruct (scan_fuel d) as [|fuel]; [lia|]. cbn [scan_loop sc_fid].
    pose proof (ifile_at m d [[]] [] [] [] I eq_refl) as Q. cbn [nlen] in Q. rewrite Q. unfold index_last_header_real. cbn [sc_tgt]. rewrite N.eqb_refl.
    cbn [index_scan_error sc_st]. eexists. split; [reflexivity|]. cbn. auto.
Qed.
