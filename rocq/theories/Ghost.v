(* Index files seen as lists of records: encoding, locations, and the effect of
   appending to or overwriting a record. *)
From Coq Require Import List NArith ZArith Bool Strings.Byte Lia ZifyBool ZifyN ZifyNat.
From Verif Require Import Bytes BytesFacts Crc32 Layout LayoutFacts Store.
Import ListNotations.
Open Scope N_scope.
Ltac Zify.zify_post_hook ::= Z.div_mod_to_equations.

(* a record with its file and its offset in that file *)
Notation loc := (N * N * item)%type.
Definition l_f (x : loc) : N := fst (fst x).
Definition l_off (x : loc) : N := snd (fst x).
Definition l_it (x : loc) : item := snd x.
Definition l_id (x : loc) : bytes := it_id (snd x).

Definition itsz (it : item) : N := 34 + blen (it_id it).
Fixpoint isz (l : list item) : N := match l with [] => 0 | it :: r => itsz it + isz r end.

Fixpoint place (f off : N) (l : list item) : list loc :=
  match l with [] => [] | it :: r => (f, off, it) :: place f (off + itsz it) r end.

Fixpoint flat (f : N) (gi : list (list item)) : list loc :=
  match gi with [] => [] | l :: r => place f 29 l ++ flat (f + 1) r end.

Definition enc_items (l : list item) : bytes := concat (map enc_item l).
Definition enc_if (mode f : N) (l : list item) : bytes := index_header f mode ++ enc_items l.

Fixpoint enc_ifs (mode f : N) (gi : list (list item)) : list bytes :=
  match gi with [] => [] | l :: r => enc_if mode f l :: enc_ifs mode (f + 1) r end.

Lemma blen_index_header f mode : blen (index_header f mode) = 29.
Proof. apply blen_enc_ihdr. reflexivity. Qed.

Lemma isz_app a b : isz (a ++ b) = isz a + isz b.
Proof. induction a; cbn [app isz]; lia. Qed.

Lemma blen_enc_items l : blen (enc_items l) = isz l.
Proof.
  induction l as [|it l IH]; cbn [isz]; auto.
  change (enc_items (it :: l)) with (enc_item it ++ enc_items l).
  rewrite blen_app, blen_enc_item, IH. reflexivity.
Qed.

Lemma enc_items_app a b : enc_items (a ++ b) = enc_items a ++ enc_items b.
Proof. unfold enc_items. now rewrite map_app, concat_app. Qed.

Lemma enc_items_cons a b : enc_items (a :: b) = enc_item a ++ enc_items b.
Proof. reflexivity. Qed.

Lemma blen_enc_if mode f l : blen (enc_if mode f l) = 29 + isz l.
Proof. unfold enc_if. now rewrite blen_app, blen_index_header, blen_enc_items. Qed.

Lemma place_app f off a b : place f off (a ++ b) = place f off a ++ place f (off + isz a) b.
Proof.
  revert off; induction a as [|it a IH]; intros; cbn [app place isz].
  - now rewrite N.add_0_r.
  - now rewrite IH, N.add_assoc.
Qed.

Lemma flat_app f a b : flat f (a ++ b) = flat f a ++ flat (f + nlen a) b.
Proof.
  revert f; induction a as [|l a IH]; intros; cbn [app flat nlen].
  - now rewrite N.add_0_r.
  - rewrite IH, app_assoc. replace (f + 1 + nlen a) with (f + N.succ (nlen a)) by lia. reflexivity.
Qed.

Lemma enc_ifs_app mode f a b : enc_ifs mode f (a ++ b) = enc_ifs mode f a ++ enc_ifs mode (f + nlen a) b.
Proof.
  revert f; induction a as [|l a IH]; intros; cbn [app enc_ifs nlen].
  - now rewrite N.add_0_r.
  - rewrite IH. replace (f + 1 + nlen a) with (f + N.succ (nlen a)) by lia. reflexivity.
Qed.

Lemma nlen_enc_ifs mode f gi : nlen (enc_ifs mode f gi) = nlen gi.
Proof. revert f; induction gi; intros; cbn [enc_ifs nlen]; auto. now rewrite IHgi. Qed.

Lemma nget_enc_ifs mode f g1 l g2 :
  nget (nlen g1) (enc_ifs mode f (g1 ++ l :: g2)) = Some (enc_if mode (f + nlen g1) l).
Proof.
  rewrite enc_ifs_app. cbn [enc_ifs]. rewrite <- (nlen_enc_ifs mode f g1) at 1. apply nget_app_r.
Qed.

Lemma nset_enc_ifs mode f g1 l g2 l' :
  nset (nlen g1) (enc_if mode (f + nlen g1) l') (enc_ifs mode f (g1 ++ l :: g2))
  = enc_ifs mode f (g1 ++ l' :: g2).
Proof.
  rewrite !enc_ifs_app. cbn [enc_ifs]. rewrite <- (nlen_enc_ifs mode f g1) at 1. apply nset_app_r.
Qed.

(* append a record to a file *)
Lemma wrfile_append mode g1 l g2 it :
  wrfile (nlen g1) (29 + isz l) (enc_item it) (enc_ifs mode 0 (g1 ++ l :: g2))
  = enc_ifs mode 0 (g1 ++ (l ++ [it]) :: g2).
Proof.
  unfold wrfile. rewrite nget_enc_ifs.
  rewrite <- (blen_enc_if mode (0 + nlen g1) l), fwrite_end.
  replace (enc_if mode (0 + nlen g1) l ++ enc_item it) with (enc_if mode (0 + nlen g1) (l ++ [it])).
  - apply nset_enc_ifs.
  - unfold enc_if. rewrite enc_items_app, <- app_assoc. f_equal. f_equal.
    unfold enc_items. cbn [map concat]. now rewrite app_nil_r.
Qed.

(* overwrite a record by one of the same size *)
Lemma wrfile_over mode g1 l1 it l2 g2 it' : blen (it_id it) = blen (it_id it') ->
  wrfile (nlen g1) (29 + isz l1) (enc_item it') (enc_ifs mode 0 (g1 ++ (l1 ++ it :: l2) :: g2))
  = enc_ifs mode 0 (g1 ++ (l1 ++ it' :: l2) :: g2).
Proof.
  intros Hl. unfold wrfile. rewrite nget_enc_ifs.
  rewrite <- (blen_enc_if mode (0 + nlen g1) l1).
  replace (enc_if mode (0 + nlen g1) (l1 ++ it :: l2))
    with (enc_if mode (0 + nlen g1) l1 ++ enc_item it ++ enc_items l2).
  2:{ unfold enc_if. rewrite enc_items_app, enc_items_cons, <- app_assoc. reflexivity. }
  rewrite fwrite_app by (rewrite !blen_enc_item; lia).
  replace (enc_if mode (0 + nlen g1) l1 ++ enc_item it' ++ enc_items l2)
    with (enc_if mode (0 + nlen g1) (l1 ++ it' :: l2)).
  - apply nset_enc_ifs.
  - unfold enc_if. rewrite enc_items_app, enc_items_cons, <- app_assoc. reflexivity.
Qed.

(* read a record *)
Lemma fread_item mode f l1 it l2 n : n = itsz it ->
  fread (enc_if mode f (l1 ++ it :: l2)) (29 + isz l1) n = enc_item it.
Proof.
  intros ->. rewrite <- (blen_enc_if mode f l1). unfold enc_if.
  rewrite enc_items_app, enc_items_cons, app_assoc.
  apply fread_app. now rewrite blen_enc_item.
Qed.

(* a located record, from the list of locations *)
Lemma in_place f off l x : In x (place f off l) ->
  exists l1 l2, l = l1 ++ l_it x :: l2 /\ l_f x = f /\ l_off x = off + isz l1.
Proof.
  revert off; induction l as [|it l IH]; cbn [place]; intros off H; [contradiction|].
  destruct H as [<-|H].
  - exists [], l. cbn [app isz l_it l_f l_off fst snd]. repeat split; auto. lia.
  - apply IH in H. destruct H as (l1 & l2 & -> & Hf & Ho).
    exists (it :: l1), l2. cbn [app isz]. repeat split; auto. lia.
Qed.

Lemma in_flat f gi x : In x (flat f gi) ->
  exists g1 l1 l2 g2, gi = g1 ++ (l1 ++ l_it x :: l2) :: g2 /\ l_f x = f + nlen g1 /\ l_off x = 29 + isz l1.
Proof.
  revert f; induction gi as [|l gi IH]; cbn [flat]; intros f H; [contradiction|].
  apply in_app_or in H. destruct H as [H|H].
  - apply in_place in H. destruct H as (l1 & l2 & -> & Hf & Ho).
    exists [], l1, l2, gi. cbn [app nlen]. repeat split; auto. lia.
  - apply IH in H. destruct H as (g1 & l1 & l2 & g2 & -> & Hf & Ho).
    exists (l :: g1), l1, l2, g2. cbn [app nlen]. repeat split; auto. lia.
Qed.

Lemma flat_split f g1 l1 it l2 g2 :
  flat f (g1 ++ (l1 ++ it :: l2) :: g2)
  = (flat f g1 ++ place (f + nlen g1) 29 l1)
    ++ (f + nlen g1, 29 + isz l1, it)
    :: (place (f + nlen g1) (29 + isz l1 + itsz it) l2 ++ flat (f + nlen g1 + 1) g2).
Proof.
  rewrite flat_app. cbn [flat]. rewrite place_app. cbn [place]. rewrite <- !app_assoc. reflexivity.
Qed.

Lemma flat_snoc f g l it :
  flat f (g ++ [l ++ [it]]) = flat f (g ++ [l]) ++ [(f + nlen g, 29 + isz l, it)].
Proof.
  rewrite !flat_app. cbn [flat]. rewrite place_app. cbn [place]. now rewrite !app_nil_r, app_assoc.
Qed.

Lemma flat_jump f g : flat f (g ++ [[]]) = flat f g.
Proof. rewrite flat_app. cbn [flat place app]. now rewrite app_nil_r. Qed.

(* locations are distinct *)
Lemma place_off_ge f off l x : In x (place f off l) -> off <= l_off x.
Proof. intros H. apply in_place in H. destruct H as (l1 & l2 & _ & _ & ->). lia. Qed.

Lemma flat_f_ge f gi x : In x (flat f gi) -> f <= l_f x.
Proof. intros H. apply in_flat in H. destruct H as (g1 & ? & ? & ? & _ & -> & _). lia. Qed.

Lemma nodup_place f off l : NoDup (map fst (place f off l)).
Proof.
  revert off; induction l as [|it l IH]; intros; cbn [place map]; constructor; auto.
  intros H. apply in_map_iff in H. destruct H as (x & Hx & Hi).
  apply place_off_ge in Hi. unfold l_off in Hi. rewrite Hx in Hi. cbn [fst snd] in Hi.
  unfold itsz in Hi. lia.
Qed.

Lemma NoDup_app_disj {A} (a b : list A) : NoDup a -> NoDup b -> (forall x, In x a -> In x b -> False) -> NoDup (a ++ b).
Proof.
  induction a as [|x a IH]; cbn [app]; intros Ha Hb Hd; auto.
  inversion Ha; subst. constructor.
  - rewrite in_app_iff. intros [H|H]; auto. apply (Hd x); auto. now left.
  - apply IH; auto. intros y H H'. apply (Hd y); auto. now right.
Qed.

Lemma nodup_flat f gi : NoDup (map fst (flat f gi)).
Proof.
  revert f; induction gi as [|l gi IH]; intros; cbn [flat map]; [constructor|].
  rewrite map_app. apply NoDup_app_disj; auto using nodup_place.
  intros p H1 H2. apply in_map_iff in H1, H2.
  destruct H1 as (x & Hx & H1), H2 as (y & Hy & H2).
  apply in_place in H1. destruct H1 as (? & ? & _ & Hf & _).
  apply flat_f_ge in H2. unfold l_f in *. rewrite Hx in Hf. rewrite Hy in H2. lia.
Qed.
