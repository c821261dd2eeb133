(* PROOFS about the list of hooks. *)
From Coq Require Import Strings.String Strings.Byte List NArith ZArith Bool Permutation Lia ZifyBool ZifyN ZifyNat.
From Verif Require Import Bytes BytesFacts Layout Text SpecKV SpecAuth AuthFacts Hooks SpecHooks.
Import ListNotations.
Open Scope N_scope.
Ltac Zify.zify_post_hook ::= Z.div_mod_to_equations.
Local Notation length := List.length.

(* ----- replies ----- *)

Lemma enc_arr l : enc_reply (RArr l) = str "*" ++ dec (nlen l) ++ CRLF ++ concat (map enc_reply l).
Proof.
  cbn [enc_reply]. do 3 f_equal. induction l as [|r l IH]; [reflexivity|]. cbn [map concat]. f_equal. exact IH.
Qed.

Lemma nlen_map {A B} (f : A -> B) l : nlen (map f l) = nlen l.
Proof. rewrite !nlen_length, map_length. reflexivity. Qed.
Lemma nlen_cons {A} (x : A) l : nlen (x :: l) = nlen l + 1.
Proof. rewrite !nlen_length. cbn [length]. lia. Qed.
Lemma nlen_perm {A} (l l' : list A) : Permutation l l' -> nlen l = nlen l'.
Proof. intro P. rewrite !nlen_length, (Permutation_length P). reflexivity. Qed.

(* ----- status words ----- *)

Lemma land127 n : N.land n 127 = n mod 128.
Proof. change 127 with (N.ones 7). apply N.land_ones. Qed.
Lemma land255 n : N.land n 255 = n mod 256.
Proof. change 255 with (N.ones 8). apply N.land_ones. Qed.

Lemma code_word e : possible e -> WEXITSTATUS (word e) = shown_code (word e).
Proof.
  unfold WEXITSTATUS, shown_code. rewrite land255. destruct e as [c|s core]; cbn [possible word]; intro P.
  - rewrite N.div_mul by lia. replace ((c * 256) mod 128) with 0 by lia. cbn. apply N.mod_small. exact P.
  - destruct core.
    + replace ((s + 128) mod 128 =? 0) with false by lia. lia.
    + replace ((s + 0) mod 128 =? 0) with false by lia. lia.
Qed.
Lemma word_ended e : possible e -> WIFEXITED (word e) || WIFSIGNALED (word e) = true.
Proof.
  unfold WIFEXITED, WIFSIGNALED. rewrite land127. destruct e as [c|s core]; cbn [possible word]; intro P.
  - replace ((c * 256) mod 128) with 0 by lia. reflexivity.
  - destruct core; lia.
Qed.

(* ----- slots ----- *)

Fixpoint somes (l : list (option hook)) : list hook :=
  match l with [] => [] | None :: t => somes t | Some h :: t => h :: somes t end.
Definition live (h : hook) : bool := negb (h_pid h =? 0) && (h_finished h =? 0).
Fixpoint gapless (l : list (option hook)) : Prop :=
  match l with
  | [] => True
  | None :: t => forall h, In h (somes t) -> live h = false
  | Some _ :: t => gapless t
  end.
Definition row_of (h : hook) : row :=
  mkRow (nth 1 (h_argv h) []) (skipn 3 (h_argv h)) (h_pid h) (h_created h) (h_finished h) (h_status h).
Definition shaped (h : hook) : Prop :=
  h_argc h = nlen (h_argv h) + 1 /\ 3 <= nlen (h_argv h) <= 7.

Lemma row_live h : running (row_of h) = live h. Proof. reflexivity. Qed.

Lemma somes_app a b : somes (a ++ b) = somes a ++ somes b.
Proof. induction a as [|[h|] a IH]; cbn; [reflexivity|f_equal; exact IH|exact IH]. Qed.
Lemma somes_none n : somes (repeat None n) = [].
Proof. induction n as [|n IH]; [reflexivity|exact IH]. Qed.
Lemma none_gapless l : (forall h, In h (somes l) -> live h = false) -> gapless l.
Proof.
  induction l as [|[h|] l IH]; cbn; intro H; [exact I|apply IH; intros x Hx; apply H; right; exact Hx|exact H].
Qed.

Lemma fill_ok h : forall l l', fill h l = Some l' -> gapless l -> Permutation (somes l') (h :: somes l) /\ gapless l'.
Proof.
  induction l as [|[x|] l IH]; cbn [fill]; intros l' E G.
  - discriminate.
  - destruct (fill h l) as [t|]; [|discriminate]. injection E as <-. cbn in G. destruct (IH t eq_refl G) as [P G'].
    cbn. split; [rewrite P; apply perm_swap|exact G'].
  - injection E as <-. cbn in *. split; [reflexivity|apply none_gapless; exact G].
Qed.
Lemma fill_full h : forall l, fill h l = None -> forall t, gapless (l ++ t) <-> gapless t.
Proof.
  induction l as [|[x|] l IH]; cbn [fill]; intros E t.
  - reflexivity.
  - destruct (fill h l); [discriminate|]. cbn. apply IH. reflexivity.
  - discriminate.
Qed.

Lemma append_ok h s : gapless (hs_slots s) ->
  let s' := hooks_append_hook h s in
  Permutation (somes (hs_slots s')) (h :: somes (hs_slots s)) /\ gapless (hs_slots s') /\
  hs_active s' = hs_active s + 1 /\ hs_wait s' = hs_wait s.
Proof.
  intros G. unfold hooks_append_hook. destruct (fill h (hs_slots s)) as [l|] eqn:F; cbn.
  - destruct (fill_ok h _ _ F G) as [P G']. auto.
  - rewrite somes_app. cbn. rewrite somes_none. split; [rewrite Permutation_app_comm; reflexivity|].
    split; [|auto]. apply (fill_full h _ F). cbn. apply none_gapless. rewrite somes_none. intros ? [].
Qed.

Lemma cleanup_ok now : forall l l' n, expired_cleanup now l = (l', n) ->
  somes l' = filter (fun h => negb (expired now h)) (somes l) /\ nlen (somes l') + n = nlen (somes l).
Proof.
  induction l as [|[h|] l IH]; cbn [expired_cleanup]; intros l' n E.
  - injection E as <- <-. split; reflexivity.
  - destruct (expired_cleanup now l) as [t m]. destruct (IH t m eq_refl) as [A B].
    cbn [somes filter]. destruct (expired now h); injection E as <- <-; cbn [somes negb]; rewrite ?nlen_cons; (split; [congruence|lia]).
  - destruct (expired_cleanup now l) as [t m]. injection E as <- <-. cbn [somes]. apply IH. reflexivity.
Qed.

Definition done (now st : N) (h : hook) : hook :=
  mkHook (h_pid h) (h_argc h) (h_argv h) (h_created h) now (WEXITSTATUS st).

Lemma mark_ok pid st now : now <> 0 -> forall l, gapless l -> pid <> 0 ->
  In pid (map h_pid (filter live (somes l))) -> NoDup (map h_pid (filter live (somes l))) ->
  exists l', mark pid st now l = Some l' /\ gapless l' /\
    somes l' = map (fun h => if live h && (h_pid h =? pid) then done now st h else h) (somes l).
Proof.
  intros Hn. induction l as [|[h|] l IH]; intros G Hp Hin Hd.
  - destruct Hin.
  - cbn [mark somes map]. cbn [gapless] in G. cbn [somes filter] in Hin, Hd.
    assert ((h_pid h =? pid) && (h_finished h =? 0) = live h && (h_pid h =? pid)) as -> by (unfold live; lia).
    destruct (live h) eqn:L; cbn [andb].
    + cbn [map] in Hin, Hd. apply NoDup_cons_iff in Hd. destruct (h_pid h =? pid) eqn:E.
      * eexists. split; [reflexivity|]. cbn. split; [exact G|]. f_equal.
        rewrite <- (map_id (somes l)) at 1. apply map_ext_in. intros x Hx.
        destruct (live x) eqn:Lx; [|reflexivity]. destruct (h_pid x =? pid) eqn:Ex; [|reflexivity].
        exfalso. apply (proj1 Hd). apply in_map_iff. exists x. split; [lia|]. apply filter_In. auto.
      * destruct Hin as [Hin|Hin]; [lia|].
        destruct (IH G Hp Hin (proj2 Hd)) as (t & M & G' & S).
        rewrite M. eexists. split; [reflexivity|]. cbn. split; [exact G'|]. f_equal. exact S.
    + destruct (IH G Hp Hin Hd) as (t & M & G' & S).
      rewrite M. eexists. split; [reflexivity|]. cbn. split; [exact G'|]. f_equal. exact S.
  - exfalso. cbn [gapless] in G. cbn [somes] in Hin. apply in_map_iff in Hin. destruct Hin as (x & _ & Hx).
    apply filter_In in Hx. destruct Hx as [Hx L]. rewrite (G x Hx) in L. discriminate.
Qed.

(* ----- one hook shown ----- *)

Lemma show_args_all l : show_args (length l) l = Some (concat (map enc_reply (map RBulk l))).
Proof.
  induction l as [|a l IH]; [reflexivity|]. cbn [length show_args]. rewrite IH. cbn [map concat].
  cbn [enc_reply]. rewrite <- !app_assoc. reflexivity.
Qed.

Lemma show_shaped h : shaped h -> show_hook h = Some (enc_reply (row_reply (row_of h))).
Proof.
  intros [A [B C]]. unfold show_hook, row_reply, row_of.
  destruct (h_argv h) as [|a [|b [|c rest]]] eqn:E; rewrite !nlen_length in *; cbn [length] in *; try lia.
  cbn [skipn nth w_type w_args w_pid w_start w_end w_code].
  replace (N.to_nat (h_argc h - 1) - 3)%nat with (length rest) by lia. rewrite show_args_all.
  rewrite enc_arr. cbn [map concat]. rewrite enc_arr. cbn [enc_reply].
  replace (sub64 (h_argc h) 4) with (nlen (map RBulk rest)).
  2:{ rewrite nlen_map, nlen_length. unfold sub64. rewrite A. lia. }
  change (nlen [RBulk b; RArr (map RBulk rest); RInt (h_pid h); RInt (h_created h); RInt (h_finished h); RInt (h_status h)]) with 6.
  change (dec 6) with (str "6"). change (str "*6") with (str "*" ++ str "6").
  rewrite <- !app_assoc. cbn [app]. rewrite app_nil_r. reflexivity.
Qed.

Lemma show_slots_ok : forall l, Forall shaped (somes l) ->
  show_slots l = Some (concat (map enc_reply (map row_reply (map row_of (somes l))))).
Proof.
  induction l as [|[h|] l IH]; cbn [somes show_slots]; intros F; [reflexivity| |apply IH; exact F].
  apply Forall_cons_iff in F. destruct F as [S F]. rewrite (show_shaped h S), (IH F). reflexivity.
Qed.

(* ----- arguments ----- *)

Lemma append_all : forall args h, h_argc h - 1 = nlen (h_argv h) + nlen args ->
  fold_left hook_append args h = mkHook (h_pid h) (h_argc h) (h_argv h ++ map cstr args) (h_created h) (h_finished h) (h_status h).
Proof.
  induction args as [|a args IH]; intros h E; cbn [fold_left map].
  - rewrite app_nil_r. destruct h; reflexivity.
  - rewrite nlen_cons in E. unfold hook_append at 2. replace (nlen (h_argv h) =? h_argc h - 1) with false by lia.
    rewrite IH; cbn.
    + rewrite <- app_assoc. reflexivity.
    + rewrite nlen_app. change (nlen [cstr a]) with 1. lia.
Qed.
Lemma make_ok program name args :
  hook_make program name args = mkHook 0 (nlen args + 3) (cstr program :: cstr name :: map cstr args) 0 0 0.
Proof.
  unfold hook_make, hook_new. rewrite append_all; cbn [h_argc h_argv]; [reflexivity|].
  change (nlen [cstr program; cstr name]) with 2. lia.
Qed.

(* ----- the invariant ----- *)

Record held (s : hooks) (rows : list row) (kids : list N) : Prop := mkHeld {
  hd_rows : Permutation (map row_of (somes (hs_slots s))) rows;
  hd_active : hs_active s = nlen rows;
  hd_wait : hs_wait s = nlen kids;
  hd_kids : Permutation (map h_pid (filter live (somes (hs_slots s)))) kids;
  hd_nodup : NoDup kids;
  hd_nz : ~ In 0 kids;
  hd_few : nlen kids <= 2 ^ 22;
  hd_gap : gapless (hs_slots s);
  hd_shape : Forall shaped (somes (hs_slots s)) }.

Lemma held_start : held hook_initialize [] [].
Proof.
  constructor; cbn; try reflexivity; try constructor; try (intros ? []); try lia; try (intros []).
Qed.

Lemma filter_perm {A} (f : A -> bool) l l' : Permutation l l' -> Permutation (filter f l) (filter f l').
Proof.
  induction 1 as [|x l l' P IH|x y l|l l' l'' P1 IH1 P2 IH2]; cbn.
  - reflexivity.
  - destruct (f x); [constructor; exact IH|exact IH].
  - destruct (f x), (f y); try reflexivity. constructor.
  - rewrite IH1. exact IH2.
Qed.
Lemma existsb_perm {A} (f : A -> bool) l l' : Permutation l l' -> existsb f l = existsb f l'.
Proof.
  induction 1 as [|x l l' P IH|x y l|l l' l'' P1 IH1 P2 IH2]; cbn; [reflexivity|rewrite IH; reflexivity| |congruence].
  destruct (f x), (f y); reflexivity.
Qed.

Lemma held_add h s rows kids n : held s rows kids -> shaped h -> n = nlen kids ->
  (live h = true -> ~ In (h_pid h) kids /\ nlen kids < 2 ^ 22) ->
  let kids' := if live h then h_pid h :: kids else kids in
  held (hooks_append_hook h (mkHooks (hs_slots s) (hs_active s) (nlen kids'))) (rows ++ [row_of h]) kids'.
Proof.
  intros [A B C D E F I G H] Sh -> Fr kids'.
  pose proof (append_ok h (mkHooks (hs_slots s) (hs_active s) (nlen kids')) G) as (P & G' & Ac & W). cbn [hs_slots hs_active hs_wait] in *.
  constructor.
  - rewrite P. cbn [map]. rewrite A. rewrite Permutation_app_comm. reflexivity.
  - rewrite Ac, B, nlen_app. reflexivity.
  - exact W.
  - rewrite (Permutation_map h_pid (filter_perm live _ _ P)). cbn [filter]. subst kids'. destruct (live h); cbn [map]; rewrite D; reflexivity.
  - subst kids'. destruct (live h) eqn:L; [|exact E]. constructor; [apply (Fr eq_refl)|exact E].
  - subst kids'. destruct (live h) eqn:L; [|exact F]. intros [Z|Z]; [|exact (F Z)].
    unfold live in L. rewrite Z in L. discriminate.
  - subst kids'. destruct (live h) eqn:L; [|exact I]. rewrite nlen_cons. destruct (Fr eq_refl). lia.
  - exact G'.
  - rewrite P. constructor; [exact Sh|exact H].
Qed.

Lemma made_shape program name args pid now fin st : args <> [] /\ nlen args <= 5 ->
  shaped (mkHook pid (nlen args + 3) (cstr program :: cstr name :: map cstr args) now fin st).
Proof.
  intros [N N5]. unfold shaped. cbn [h_argc h_argv]. rewrite !nlen_cons, nlen_map.
  destruct args as [|a args]; [congruence|]. rewrite nlen_cons in *. lia.
Qed.
Lemma made_row program name args pid now fin st : args <> [] ->
  row_of (mkHook pid (nlen args + 3) (cstr program :: cstr name :: map cstr args) now fin st)
  = mkRow (text name) (map text (tl args)) pid now fin st.
Proof.
  intros N. destruct args as [|a args]; [congruence|]. unfold row_of. cbn. rewrite text_cstr. f_equal.
  apply map_ext. intro. apply text_cstr.
Qed.

Lemma collect_ok now : now <> 0 -> forall ended s rows kids kids',
  held s rows kids -> Permutation kids (map fst ended ++ kids') ->
  Forall (fun x => exists e, possible e /\ snd x = word e) ended ->
  exists s', collect ended now s = Some s' /\ held s' (fold_left (finish now) ended rows) kids'.
Proof.
  intros Hn. induction ended as [|[pid st] ended IH]; intros s rows kids kids' Hh P F.
  - exists s. split; [reflexivity|]. cbn in *. destruct Hh as [A B C D E FF I G H].
    constructor; auto.
    + rewrite C. apply nlen_perm. exact P.
    + rewrite D. exact P.
    + rewrite <- P. exact E.
    + intro Z. apply FF. rewrite P. exact Z.
    + rewrite <- (nlen_perm _ _ P). exact I.
  - apply Forall_cons_iff in F. destruct F as [(e & Pe & We) F]. cbn [snd] in We. subst st.
    cbn [map fst app] in P. cbn [collect fold_left].
    rewrite (word_ended e Pe). destruct Hh as [A B C D E FF I G H].
    assert (Hin : In pid kids) by (rewrite P; left; reflexivity).
    assert (Hz : pid <> 0) by (intros ->; exact (FF Hin)).
    destruct (mark_ok pid (word e) now Hn (hs_slots s) G Hz) as (l & M & G' & S).
    { rewrite D. exact Hin. } { rewrite D. exact E. }
    rewrite M.
    apply IH with (kids := map fst ended ++ kids'); [|reflexivity|exact F].
    assert (E' : NoDup (pid :: map fst ended ++ kids')) by (rewrite <- P; exact E).
    apply NoDup_cons_iff in E'. destruct E' as [E1 E2].
    assert (L : forall h, In h (somes (hs_slots s)) ->
              row_of (if live h && (h_pid h =? pid) then done now (word e) h else h)
              = (if running (row_of h) && (w_pid (row_of h) =? pid)
                 then mkRow (w_type (row_of h)) (w_args (row_of h)) (w_pid (row_of h)) (w_start (row_of h)) now (shown_code (word e)) else row_of h)).
    { intros h _. rewrite row_live. change (w_pid (row_of h)) with (h_pid h). destruct (live h && (h_pid h =? pid)); [|reflexivity].
      unfold done, row_of. cbn. rewrite (code_word e Pe). reflexivity. }
    constructor; cbn [hs_slots hs_active hs_wait].
    + rewrite S. unfold finish. rewrite <- A. rewrite !map_map. cbn [fst snd].
      rewrite (map_ext_in _ _ _ L). reflexivity.
    + unfold finish. rewrite nlen_map. exact B.
    + rewrite C, (nlen_perm _ _ P), nlen_cons. pose proof I as I2. rewrite (nlen_perm _ _ P), nlen_cons in I2.
      assert (2 ^ 22 < 2 ^ 32) by (vm_compute; reflexivity). rewrite <- N.add_assoc. replace (1 + (2 ^ 32 - 1)) with (2 ^ 32) by lia.
      rewrite <- (N.mul_1_l (2 ^ 32)) at 1. rewrite N.mod_add by lia. apply N.mod_small. lia.
    + rewrite S.
      assert (Q : Permutation (map h_pid (filter live (somes (hs_slots s)))) (pid :: map fst ended ++ kids')) by (rewrite D; exact P).
      assert (R : map h_pid (filter live (map (fun h => if live h && (h_pid h =? pid) then done now (word e) h else h) (somes (hs_slots s))))
                  = filter (fun p => negb (p =? pid)) (map h_pid (filter live (somes (hs_slots s))))).
      { generalize (somes (hs_slots s)). intro k. induction k as [|h k IHk]; [reflexivity|]. cbn [map filter].
        destruct (live h) eqn:Lh; cbn [andb].
        - destruct (h_pid h =? pid) eqn:Eh.
          + assert (live (done now (word e) h) = false) as ->.
            { unfold live, done. cbn. replace (now =? 0) with false by lia. apply andb_false_r. }
            cbn [map filter]. rewrite Eh. exact IHk.
          + rewrite Lh. cbn [map filter]. rewrite Eh. cbn [negb]. f_equal. exact IHk.
        - rewrite Lh. exact IHk. }
      rewrite R, (filter_perm _ _ _ Q). cbn [filter]. rewrite N.eqb_refl. cbn [negb].
      assert (forall k : list N, ~ In pid k -> filter (fun p => negb (p =? pid)) k = k) as ->; [|reflexivity|exact E1].
      induction k as [|x k IHk]; intros Nk; [reflexivity|]. cbn [filter].
      replace (x =? pid) with false by (symmetry; apply N.eqb_neq; intros ->; apply Nk; left; reflexivity).
      cbn [negb]. f_equal. apply IHk. intro Z. apply Nk. right. exact Z.
    + exact E2.
    + intro Z. apply FF. rewrite P. right. exact Z.
    + rewrite (nlen_perm _ _ P), nlen_cons in I. lia.
    + exact G'.
    + rewrite S. apply Forall_map. eapply Forall_impl; [|exact H]. intros h Hs. destruct (live h && (h_pid h =? pid)); exact Hs.
Qed.

Lemma no_kids s rows kids : held s rows kids -> existsb running rows = negb (nlen kids =? 0).
Proof.
  intros [A B C D E F I G H]. rewrite <- (existsb_perm running _ _ A), <- (nlen_perm _ _ D), nlen_map. clear.
  induction (somes (hs_slots s)) as [|h k IH]; [reflexivity|]. cbn [map existsb filter]. rewrite row_live.
  destruct (live h); cbn [orb]; [rewrite nlen_cons; lia|]. exact IH.
Qed.

Lemma fits_perm l rows : Permutation l rows -> blen (enc_reply (RArr (map row_reply l))) = blen (enc_reply (RArr (map row_reply rows))).
Proof.
  intro P. rewrite !enc_arr, !nlen_map, (nlen_perm _ _ P), !blen_app. do 3 f_equal.
  induction P as [|x l l' P IH|x y l|l l' l'' P1 IH1 P2 IH2]; cbn [map concat]; rewrite ?blen_app; [reflexivity|lia|lia|congruence].
Qed.

Lemma step_ok program e s rows kids kids' :
  held s rows kids -> os_step e kids kids' -> has_id e -> waited_for e -> (e = HShow -> fits rows) ->
  exists o s', hook_step program e s = Some (o, s') /\ answers e rows o /\ held s' (next_rows e rows) kids'.
Proof.
  intros Hh Os Id Wf Ft. destruct Os.
  - (* started *) cbn [hook_step]. do 2 eexists. split; [reflexivity|]. split; [reflexivity|].
    rewrite make_ok. unfold hook_execute. cbn [h_argc h_argv next_rows].
    replace (pid =? 0) with false by lia. rewrite (hd_wait _ _ _ Hh).
    rewrite <- (made_row program name args pid now 0 0 (proj1 Id)).
    pose proof (held_add (mkHook pid (nlen args + 3) (cstr program :: cstr name :: map cstr args) now 0 0) s rows kids (nlen kids) Hh
      (made_shape program name args pid now 0 0 Id) eq_refl) as A.
    assert (Lv : live (mkHook pid (nlen args + 3) (cstr program :: cstr name :: map cstr args) now 0 0) = true) by (unfold live; cbn; lia).
    rewrite Lv in A. cbn [h_pid] in A. rewrite nlen_cons in A.
    replace ((nlen kids + 1) mod 2 ^ 32) with (nlen kids + 1).
    + apply A. auto.
    + symmetry. apply N.mod_small. assert (2 ^ 22 < 2 ^ 32 - 1) by (vm_compute; reflexivity). lia.
  - (* not started *) cbn [hook_step]. do 2 eexists. split; [reflexivity|]. split; [reflexivity|].
    rewrite make_ok. unfold hook_execute. cbn [h_argc h_argv next_rows N.eqb]. rewrite (hd_wait _ _ _ Hh).
    rewrite <- (made_row program name args 0 now 0 0 (proj1 Id)).
    apply (held_add (mkHook 0 (nlen args + 3) (cstr program :: cstr name :: map cstr args) now 0 0) s rows kids (nlen kids) Hh
      (made_shape program name args 0 now 0 0 Id) eq_refl). intro Z. discriminate Z.
  - (* waited for *) cbn [hook_step]. unfold hook_execute_wait. rewrite make_ok. cbn [h_argc h_argv].
    replace (pid =? 0) with false by lia. do 2 eexists. split; [reflexivity|]. rewrite (code_word e H2).
    split; [reflexivity|]. cbn [next_rows]. rewrite (hd_wait _ _ _ Hh).
    rewrite <- (made_row program name args pid now now' (shown_code (word e)) (proj1 Id)).
    pose proof (held_add (mkHook pid (nlen args + 3) (cstr program :: cstr name :: map cstr args) now now' (shown_code (word e))) s rows kids (nlen kids) Hh
      (made_shape program name args pid now now' (shown_code (word e)) Id) eq_refl) as A.
    assert (Lv : live (mkHook pid (nlen args + 3) (cstr program :: cstr name :: map cstr args) now now' (shown_code (word e))) = false) by (unfold live; cbn; lia).
    rewrite Lv in A. 
    replace (((nlen kids + 1) mod 2 ^ 32 + (2 ^ 32 - 1)) mod 2 ^ 32) with (nlen kids).
    + apply A. discriminate.
    + assert (2 ^ 22 < 2 ^ 32 - 1) by (vm_compute; reflexivity). rewrite (N.mod_small (nlen kids + 1)) by lia.
      rewrite <- N.add_assoc. replace (1 + (2 ^ 32 - 1)) with (1 * 2 ^ 32) by lia. rewrite N.mod_add by lia.
      symmetry. apply N.mod_small. lia.
  - cbn in Wf. congruence.
  - cbn in Wf. congruence.
  - (* idle *) cbn [hook_step next_rows answers]. unfold hooks_cleanup. rewrite (hd_wait _ _ _ Hh), (no_kids _ _ _ Hh).
    destruct (nlen kids =? 0) eqn:Z; cbn [negb].
    + assert (kids = []) as -> by (destruct kids; [reflexivity|rewrite nlen_cons in Z; lia]).
      apply Permutation_nil in H. apply app_eq_nil in H. destruct H as [_ ->].
      destruct Hh as [A B C D E F I G HS].
      assert (NL : forall h, In h (somes (hs_slots s)) -> live h = false).
      { intros h Hi. destruct (live h) eqn:L; [|reflexivity]. exfalso.
        apply Permutation_sym, Permutation_nil, map_eq_nil in D.
        assert (X : In h (filter live (somes (hs_slots s)))) by (apply filter_In; auto). rewrite D in X. exact X. }
      destruct (hs_active s =? 0) eqn:Za.
      * exists ONone, s. split; [reflexivity|]. split; [reflexivity|].
        assert (rows = []) as -> by (destruct rows; [reflexivity|rewrite nlen_cons in B; lia]).
        constructor; auto.
      * destruct (expired_cleanup now (hs_slots s)) as [l n] eqn:Ec. destruct (cleanup_ok now _ _ _ Ec) as [S N].
        do 2 eexists. split; [reflexivity|]. split; [reflexivity|].
        assert (Pr : Permutation (map row_of (somes l)) (filter (fun r => negb (old now r)) rows)).
        { rewrite S, <- (filter_perm _ _ _ A). clear.
          induction (somes (hs_slots s)) as [|h k IH]; [reflexivity|]. cbn [filter map].
          change (old now (row_of h)) with (expired now h). destruct (expired now h); cbn [negb]; [exact IH|].
          cbn [map]. constructor. exact IH. }
        constructor; cbn [hs_slots hs_active hs_wait].
        -- exact Pr.
        -- rewrite B, <- (nlen_perm _ _ Pr), <- (nlen_perm _ _ A), !nlen_map. lia.
        -- reflexivity.
        -- rewrite S. rewrite <- D. clear - NL D.
           assert (X : forall k, (forall h, In h k -> live h = false) -> filter live k = []).
           { induction k as [|h k IH]; intros Hk; [reflexivity|]. cbn. rewrite (Hk h (or_introl eq_refl)). apply IH. intros; apply Hk; right; assumption. }
           rewrite (X (somes (hs_slots s)) NL), X; [reflexivity|]. intros h Hi. apply filter_In in Hi. apply NL, Hi.
        -- constructor.
        -- intros [].
        -- cbn. lia.
        -- apply none_gapless. intros h Hi. rewrite S in Hi. apply filter_In in Hi. apply NL, Hi.
        -- rewrite S. apply Forall_forall. intros h Hi. apply filter_In in Hi. rewrite Forall_forall in HS. apply HS, Hi.
    + destruct (collect_ok now H1 ended s rows kids kids' Hh H H0) as (s' & Cs & Hs'). rewrite Cs.
      do 2 eexists. split; [reflexivity|]. split; [reflexivity|exact Hs'].
  - (* HOOKS *) cbn [hook_step next_rows answers]. specialize (Ft eq_refl). unfold command_hooks.
    rewrite (show_slots_ok _ (hd_shape _ _ _ Hh)).
    pose proof (fits_perm _ _ (hd_rows _ _ _ Hh)) as Fp.
    assert (Te : str "*" ++ dec (hs_active s) ++ CRLF ++ concat (map enc_reply (map row_reply (map row_of (somes (hs_slots s)))))
                 = enc_reply (RArr (map row_reply (map row_of (somes (hs_slots s)))))).
    { rewrite enc_arr, nlen_map, (nlen_perm _ _ (hd_rows _ _ _ Hh)), <- (hd_active _ _ _ Hh). reflexivity. }
    rewrite Te. unfold fits in Ft. rewrite <- Fp, <- (hd_active _ _ _ Hh) in Ft.
    destruct ((hs_active s + 1) * 1024 <? _) eqn:Lt; [exfalso; lia|].
    do 2 eexists. split; [reflexivity|]. split; [|exact Hh].
    eexists. split; [apply (hd_rows _ _ _ Hh)|reflexivity].
Qed.

Theorem hooks_ok program : forall es kids', os_run es [] kids' -> Forall has_id es -> Forall waited_for es -> all_fit es [] ->
  exists outs s rows, hook_run program es hook_initialize = Some (outs, s) /\ hooks_run es [] outs rows.
Proof.
  intros es kids'. pose proof held_start as Hh. revert Hh. generalize hook_initialize as s, (@nil row) as rows, (@nil N) as kids.
  induction es as [|e es IH]; intros s rows kids Hh Os Id Wf Ft.
  - exists [], s, rows. split; reflexivity.
  - inversion Os as [|? ? ? k2 ? S1 S2]; subst. apply Forall_cons_iff in Id, Wf. destruct Id as [I1 I2], Wf as [W1 W2], Ft as [F1 F2].
    destruct (step_ok program e s rows kids k2 Hh S1 I1 W1 F1) as (o & s1 & St & An & H1).
    destruct (IH s1 _ _ H1 S2 I2 W2 F2) as (outs & s2 & rows' & R & Sp).
    exists (o :: outs), s2, rows'. cbn [hook_run]. rewrite St, R. split; [reflexivity|]. split; assumption.
Qed.

(* ----- short arguments fit ----- *)

Lemma dec_digits_pow fuel : forall k n acc, (1 <= k)%nat -> n < 10 ^ N.of_nat k -> (length (dec_digits fuel n acc) <= k + length acc)%nat.
Proof.
  induction fuel as [|fuel IH]; intros k n acc Hk Hn; cbn [dec_digits]; [lia|].
  destruct (n <? 10) eqn:L; [cbn [length]; lia|].
  destruct k as [|[|k]]; [lia|cbn in Hn; lia|].
  specialize (IH (S k) (n / 10) (digit (n mod 10) :: acc)). cbn [length] in IH.
  assert (n / 10 < 10 ^ N.of_nat (S k)).
  { apply N.div_lt_upper_bound; [lia|]. rewrite <- N.pow_succ_r'. replace (N.succ (N.of_nat (S k))) with (N.of_nat (S (S k))) by lia. exact Hn. }
  lia.
Qed.
Lemma dec_20 n : n < 2 ^ 64 -> blen (dec n) <= 20.
Proof.
  intros H. unfold dec. rewrite blen_length.
  pose proof (dec_digits_pow (S (N.size_nat n)) 20 n []) as P. cbn [length] in P.
  assert (n < 10 ^ N.of_nat 20) by (eapply N.lt_trans; [exact H|vm_compute; reflexivity]). lia.
Qed.

Definition row_short (r : row) : Prop :=
  blen (w_type r) <= 20 /\ nlen (w_args r) <= 4 /\ total (w_args r) <= 700 /\
  w_pid r < 2 ^ 64 /\ w_start r < 2 ^ 64 /\ w_end r < 2 ^ 64 /\ w_code r < 2 ^ 64.

Lemma args_size l : total l < 2 ^ 64 -> blen (concat (map enc_reply (map RBulk l))) <= total l + 25 * nlen l.
Proof.
  induction l as [|a l IH]; intros H; [cbn; lia|].
  change (total (a :: l)) with (blen a + total l) in *. cbn [map concat].
  cbn [enc_reply]. rewrite !blen_app, nlen_cons. specialize (IH ltac:(lia)).
  pose proof (dec_20 (blen a) ltac:(lia)). change (blen (str "$")) with 1. change (blen CRLF) with 2. lia.
Qed.
Lemma row_size r : row_short r -> blen (enc_reply (row_reply r)) <= 1000.
Proof.
  intros (A & B & C & D & E & F & G). unfold row_reply. rewrite enc_arr. cbn [map concat]. rewrite enc_arr, nlen_map.
  cbn [enc_reply]. rewrite !blen_app.
  assert (P : 1000 < 2 ^ 64) by (vm_compute; reflexivity).
  pose proof (dec_20 _ D). pose proof (dec_20 _ E). pose proof (dec_20 _ F). pose proof (dec_20 _ G).
  pose proof (dec_20 (blen (w_type r)) ltac:(lia)). pose proof (dec_20 (nlen (w_args r)) ltac:(lia)).
  pose proof (args_size (w_args r) ltac:(lia)).
  change (blen (str "$")) with 1. change (blen (str "*")) with 1. change (blen (str ":")) with 1. change (blen CRLF) with 2. change (blen []) with 0.
  match goal with |- context [dec (nlen [RBulk ?a; ?b; ?c; ?d; ?e; ?f])] => change (blen (dec (nlen [RBulk a; b; c; d; e; f]))) with 1 end.
  lia.
Qed.
Lemma rows_fit rows : nlen rows < 2 ^ 64 -> Forall row_short rows -> fits rows.
Proof.
  intros L F. unfold fits. rewrite enc_arr, nlen_map, !blen_app. pose proof (dec_20 _ L).
  change (blen (str "*")) with 1. change (blen CRLF) with 2.
  assert (blen (concat (map enc_reply (map row_reply rows))) <= 1000 * nlen rows); [|lia].
  clear L H. induction F as [|r rows R F IH]; [cbn; lia|]. cbn [map concat]. rewrite blen_app, nlen_cons.
  pose proof (row_size r R). lia.
Qed.

Lemma text_short a : blen (text a) <= blen a.
Proof. induction a as [|b a IH]; cbn [text]; [lia|]. rewrite !blen_length in *. destruct (beqb b x00); cbn [length]; lia. Qed.
Lemma texts_short l : total (map text l) <= total l.
Proof.
  induction l as [|a l IH]; [cbn; lia|]. cbn [map]. change (total (a :: l)) with (blen a + total l).
  change (total (text a :: map text l)) with (blen (text a) + total (map text l)). pose proof (text_short a). lia.
Qed.
Lemma total_tl l : total (tl l) <= total l.
Proof. destruct l as [|a l]; [cbn; lia|]. cbn [tl]. change (total (a :: l)) with (blen a + total l). lia. Qed.
Lemma nlen_tl {A} (l : list A) : nlen l <= 5 -> nlen (tl l) <= 4.
Proof. destruct l as [|a l]; [cbn; lia|]. cbn [tl]. rewrite nlen_cons. lia. Qed.

Lemma next_short e kids kids' rows : os_step e kids kids' -> has_id e -> waited_for e -> short e -> Forall row_short rows -> Forall row_short (next_rows e rows).
Proof.
  intros Os Id Wf Sh F.
  assert (CB : forall e, possible e -> shown_code (word e) < 2 ^ 64).
  { intros e0 P. rewrite <- code_word by exact P. unfold WEXITSTATUS. rewrite land255.
    assert (256 < 2 ^ 64) by (vm_compute; reflexivity). lia. }
  assert (Z : 0 < 2 ^ 64) by (vm_compute; reflexivity).
  destruct Os; cbn [next_rows short has_id waited_for] in *; try congruence.
  - apply Forall_app. split; [exact F|]. constructor; [|constructor]. destruct Sh as (A & B & C & D), Id as [_ I5].
    unfold row_short; cbn [w_type w_args w_pid w_start w_end w_code]. rewrite nlen_map.
    pose proof (text_short name). pose proof (texts_short (tl args)). pose proof (total_tl args). pose proof (nlen_tl args I5).
    repeat split; try assumption; lia.
  - apply Forall_app. split; [exact F|]. constructor; [|constructor]. destruct Sh as (A & B & C & D), Id as [_ I5].
    unfold row_short; cbn [w_type w_args w_pid w_start w_end w_code]. rewrite nlen_map.
    pose proof (text_short name). pose proof (texts_short (tl args)). pose proof (total_tl args). pose proof (nlen_tl args I5).
    repeat split; try assumption; lia.
  - apply Forall_app. split; [exact F|]. constructor; [|constructor]. destruct Sh as (A & B & C & D & E), Id as [_ I5].
    unfold row_short; cbn [w_type w_args w_pid w_start w_end w_code]. rewrite nlen_map.
    pose proof (text_short name). pose proof (texts_short (tl args)). pose proof (total_tl args). pose proof (nlen_tl args I5).
    repeat split; try assumption; try lia. apply CB. assumption.
  - destruct (existsb running rows).
    + clear H H1. revert rows F. induction H0 as [|[p st] ended (e & Pe & We) _ IH]; intros rows F; [exact F|].
      cbn [fold_left]. apply IH. unfold finish. apply Forall_map. eapply Forall_impl; [|exact F].
      intros r (A & B & C & D & E & G & K). destruct (running r && (w_pid r =? fst (p, st))); [|repeat split; assumption].
      cbn [snd] in *. subst st. unfold row_short. cbn. repeat split; try assumption. apply CB. exact Pe.
    + apply Forall_forall. intros r Hr. apply filter_In in Hr. rewrite Forall_forall in F. apply F, Hr.
Qed.

Lemma next_count e rows : nlen (next_rows e rows) <= nlen rows + 1.
Proof.
  destruct e; cbn [next_rows].
  - rewrite nlen_app. cbn. lia.
  - rewrite nlen_app. cbn. lia.
  - destruct (existsb running rows).
    + revert rows. induction ended as [|x ended IH]; intros rows; cbn [fold_left]; [lia|].
      specialize (IH (finish now rows x)).
      assert (nlen (finish now rows x) = nlen rows) by (unfold finish; apply nlen_map). lia.
    + assert (nlen (filter (fun r => negb (old now r)) rows) <= nlen rows); [|lia].
      induction rows as [|r rows IH]; cbn [filter]; [lia|]. destruct (negb (old now r)); rewrite ?nlen_cons; lia.
  - lia.
Qed.

Theorem short_fit : forall es kids', nlen es < 2 ^ 64 -> os_run es [] kids' -> Forall has_id es -> Forall waited_for es -> Forall short es -> all_fit es [].
Proof.
  assert (G : forall es kids kids' rows, nlen rows + nlen es < 2 ^ 64 -> Forall row_short rows -> os_run es kids kids' ->
            Forall has_id es -> Forall waited_for es -> Forall short es -> all_fit es rows).
  { induction es as [|e es IH]; intros kids kids' rows L F Os Id Wf Sh; [exact I|].
    inversion Os as [|? ? ? k2 ? S1 S2]; subst. apply Forall_cons_iff in Id, Wf, Sh.
    destruct Id as [I1 I2], Wf as [W1 W2], Sh as [H1 H2]. rewrite nlen_cons in L. cbn [all_fit]. split.
    - intros _. apply rows_fit; [lia|exact F].
    - apply (IH k2 kids'); try assumption.
      + pose proof (next_count e rows). lia.
      + eapply next_short; eassumption. }
  intros es kids' L Os Id Wf Sh. apply (G es [] kids' []); try assumption. constructor.
Qed.

(* ----- a checker for the examples ----- *)

Definition ending_of (st : N) : option ending :=
  if (st mod 256 =? 0) && (st / 256 <? 256) then Some (Exited (st / 256))
  else if (st <? 65) && (1 <=? st) then Some (Killed st false) else None.
Fixpoint take_out (p : N) (l : list N) : option (list N) :=
  match l with
  | [] => None
  | x :: t => if x =? p then Some t else option_map (cons x) (take_out p t)
  end.
Fixpoint take_all (ended : list (N * N)) (kids : list N) : option (list N) :=
  match ended with
  | [] => Some kids
  | (p, st) :: t => match ending_of st, take_out p kids with Some _, Some k => take_all t k | _, _ => None end
  end.
Definition fresh (pid : N) (kids : list N) : bool :=
  negb (pid =? 0) && negb (existsb (N.eqb pid) kids) && (nlen kids <? 2 ^ 22).
Definition os_check1 (e : hevent) (kids : list N) : option (list N) :=
  match e with
  | HStart _ _ pid _ => if pid =? 0 then Some kids else if fresh pid kids then Some (pid :: kids) else None
  | HWait _ _ pid _ st now' =>
      if now' =? 0 then None
      else if pid =? 0 then match kids with [] => Some [] | _ => None end
      else if fresh pid kids then match ending_of st with Some _ => Some kids | None => None end else None
  | HIdle ended now => if now =? 0 then None else take_all ended kids
  | HShow => Some kids
  end.
Fixpoint os_check (es : list hevent) (kids : list N) : option (list N) :=
  match es with
  | [] => Some kids
  | e :: t => match os_check1 e kids with Some k => os_check t k | None => None end
  end.

Lemma ending_ok st e : ending_of st = Some e -> possible e /\ st = word e.
Proof.
  unfold ending_of. destruct ((st mod 256 =? 0) && (st / 256 <? 256)) eqn:A.
  - intro E. injection E as <-. cbn. lia.
  - destruct ((st <? 65) && (1 <=? st)) eqn:B; [|discriminate]. intro E. injection E as <-. cbn. lia.
Qed.
Lemma take_out_ok p : forall l k, take_out p l = Some k -> Permutation l (p :: k).
Proof.
  induction l as [|x l IH]; intros k; cbn [take_out]; [discriminate|]. destruct (x =? p) eqn:E.
  - intro H. injection H as <-. assert (x = p) as -> by lia. reflexivity.
  - destruct (take_out p l) as [t|]; cbn [option_map]; [|discriminate]. intro H. injection H as <-.
    rewrite (IH t eq_refl). apply perm_swap.
Qed.
Lemma take_all_ok : forall ended kids k, take_all ended kids = Some k ->
  Permutation kids (map fst ended ++ k) /\ Forall (fun x => exists e, possible e /\ snd x = word e) ended.
Proof.
  induction ended as [|[p st] ended IH]; intros kids k; cbn [take_all].
  - intro H. injection H as <-. split; [reflexivity|constructor].
  - destruct (ending_of st) as [e|] eqn:E; [|discriminate]. destruct (take_out p kids) as [t|] eqn:T; [|discriminate].
    intro H. destruct (IH _ _ H) as [P F]. split.
    + rewrite (take_out_ok _ _ _ T). cbn [map fst app]. constructor. exact P.
    + constructor; [|exact F]. exists e. apply ending_ok in E. cbn. tauto.
Qed.
Lemma fresh_ok pid kids : fresh pid kids = true -> pid <> 0 /\ ~ In pid kids /\ nlen kids < 2 ^ 22.
Proof.
  unfold fresh. intro H. apply andb_prop in H. destruct H as [H C]. apply andb_prop in H. destruct H as [A B].
  split; [lia|]. split; [|lia]. intro I. assert (X : existsb (N.eqb pid) kids = true).
  { apply existsb_exists. exists pid. split; [exact I|apply N.eqb_refl]. } rewrite X in B. discriminate.
Qed.
Lemma os_check_ok : forall es kids k, os_check es kids = Some k -> os_run es kids k.
Proof.
  induction es as [|e es IH]; intros kids k; cbn [os_check].
  - intro H. injection H as <-. constructor.
  - destruct (os_check1 e kids) as [k1|] eqn:E; [|discriminate]. intro H. apply os_cons with (k2 := k1); [|apply IH; exact H].
    destruct e; cbn [os_check1] in E.
    + destruct (pid =? 0) eqn:Z.
      * injection E as <-. assert (pid = 0) as -> by lia. constructor.
      * destruct (fresh pid kids) eqn:F; [|discriminate]. injection E as <-. apply fresh_ok in F. constructor; tauto.
    + destruct (now' =? 0) eqn:Zn; [discriminate|]. destruct (pid =? 0) eqn:Z.
      * destruct kids; [|discriminate]. injection E as <-. assert (pid = 0) as -> by lia. constructor. lia.
      * destruct (fresh pid kids) eqn:F; [|discriminate]. destruct (ending_of st) as [w|] eqn:W; [|discriminate].
        injection E as <-. apply ending_ok in W. destruct W as [P ->]. apply fresh_ok in F. constructor; try tauto. lia.
    + destruct (now =? 0) eqn:Z; [discriminate|]. apply take_all_ok in E. constructor; try tauto. lia.
    + injection E as <-. constructor.
Qed.
