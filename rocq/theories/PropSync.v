(* PROPERTY C59: db-sync copies a namespace to another server. *)
From Coq Require Import Strings.String Strings.Byte List NArith ZArith Bool Lia.
From Verif Require Import Bytes BytesFacts Layout Store Text Commands SpecKV Machine Reach KvFacts SpecScan Scan DbSync SpecSync SyncFacts
  PropKV PropScan.
Import ListNotations.
Open Scope N_scope.
Local Notation length := List.length.

(* When the program says that the database is synchronized, a key that nobody else wrote
   or deleted meanwhile has at the target the value of the source if the source has it,
   and is as it was otherwise.  Others may read and write both servers all the time. *)
Theorem C59_copy : forall gs gt ns nt ps pt c0 es o c s d0 fs o2 d t ws src dst,
  reached gs ns c0 es o c s -> reached gt nt d0 fs o2 d t -> n_lock c <> 2 ->
  p_writable pt = true -> n_lock d = 0 -> n_worm d = false -> n_maxsize d = 0 ->
  Forall is_request (at_source ws) -> Forall is_request (at_target ws) -> Forall (fun w => 1 <= p_room w)%nat ws ->
  nlen (dk_i (dk s)) + nlen (at_source ws) + copies ws < 2 ^ 32 -> nlen (dk_i (dk t)) + nlen (at_target ws) + copies ws < 2 ^ 32 ->
  db_sync gs gt ps pt ws (c, s) (d, t) = Some (src, dst) ->
  forall k, 0 < blen k -> blen k <= 255 -> left_alone k (at_source ws) -> left_alone k (at_target ws) ->
  (get_of gs k (c, s) <> hardsend "$-1" -> get_of gt k dst = get_of gs k (c, s)) /\
  (get_of gs k (c, s) = hardsend "$-1" -> get_of gt k dst = get_of gt k (d, t)).
Proof. exact sync_copies. Qed.
Print Assumptions C59_copy.

(* it says so after as many pages as there are keys, if nobody else writes to the source *)
Theorem C59_ends : forall gs gt ns nt ps pt c0 es o c s d0 fs o2 d t ws,
  reached gs ns c0 es o c s -> reached gt nt d0 fs o2 d t -> n_lock c <> 2 ->
  at_source ws = [] -> Forall is_request (at_target ws) -> kcount (kv_of c0 es) < nlen ws ->
  Forall (fun w => (1 <= p_room w)%nat /\ kcount (kv_of c0 es) <= nlen (p_turns w)) ws ->
  nlen (dk_i (dk t)) + nlen (at_target ws) + copies ws < 2 ^ 32 ->
  exists src dst, db_sync gs gt ps pt ws (c, s) (d, t) = Some (src, dst).
Proof. exact sync_ends. Qed.
Print Assumptions C59_ends.

(* ---- examples ---- *)
Definition open_to : nscfg := mkCfg (str "to") None true false 0 0.
Definition sy_set (k v : string) : event := EReq rw 7 (QSet (str k) (str v) None).
Definition sy_src : list event := [sy_set "a" "one"; sy_set "b" "two"; sy_set "c" "three"; sy_set "a" "uno"].
Definition sy_dst : list event := [sy_set "b" "old"; sy_set "z" "kept"].

(* a namespace after es, with settings c *)
Definition sy_at (c : nscfg) (es : list event) : option (nscfg * est) :=
  match store_open (g_mode ex_g) 5 empty_table empty_disk with
  | Some s0 => option_map snd (run_events ex_g es (c, s0))
  | None => None
  end.

Lemma sy_reached c es st : Forall event_wf es -> nlen es < 1000 -> sy_at c es = Some st ->
  exists o, reached ex_g 5 c es o (fst st) (snd st).
Proof.
  unfold sy_at. intros W L E. destruct (store_open (g_mode ex_g) 5 empty_table empty_disk) as [s0|] eqn:O; [|discriminate].
  assert (C : created ex_g 5 s0) by (exists empty_table; split; [intros h e []|exact O]).
  destruct (reached_total ex_g 5 c es s0 ex_settings W C) as (o & c' & s' & R & E').
  { apply (files_fit_created _ _ _ _ _ ex_settings W C). change (2 ^ 32 - 1) with 4294967295. lia. }
  rewrite E' in E. cbn [option_map snd] in E. injection E as <-. exists o. exact R.
Qed.

(* the copy, and what is then found at the source and at the target *)
Definition sy_copy (d : nscfg) (ws : list pass) (ks : list string) : option (list bytes * list bytes) :=
  match sy_at ex_c sy_src, sy_at d sy_dst with
  | Some src, Some dst =>
      match db_sync ex_g ex_g rw rw ws src dst with
      | Some (src', dst') => Some (map (fun k => get_of ex_g (str k) src') ks, map (fun k => get_of ex_g (str k) dst') ks)
      | None => None
      end
  | _, _ => None
  end.

(* two keys are copied while others write other keys *)
Definition sy_turn : turn := mkTurn [] [] 9.
Definition sy_ws : list pass :=
  [mkPass [] 1 []; mkPass [sy_set "new" "n"] 1 [mkTurn [EReq ro 8 (QGet (str "a"))] [sy_set "y" "why"] 9; sy_turn];
   mkPass [] 1 [sy_turn; sy_turn]; mkPass [] 2 [sy_turn; sy_turn]; mkPass [] 1 [sy_turn; sy_turn]].

Example C59_example :
  sy_copy open_to sy_ws ["a"; "b"; "c"; "z"; "y"; "new"]%string =
  Some ([bulk (str "uno"); bulk (str "two"); bulk (str "three"); hardsend "$-1"; hardsend "$-1"; bulk (str "n")],
        [bulk (str "uno"); bulk (str "two"); bulk (str "three"); bulk (str "kept"); bulk (str "why"); bulk (str "n")]).
Proof. vm_compute. reflexivity. Qed.

(* the hypotheses of the theorems are met *)
Definition sy_calm (e : event) : bool := match e with EReq _ _ (QSet k v None) => (blen v <=? 8388608) | EReq _ _ (QGet _) => true | _ => false end.
Lemma sy_calm_ok es : forallb sy_calm es = true -> Forall is_request es.
Proof.
  intros F. apply Forall_forall. intros e I. rewrite forallb_forall in F. specialize (F e I).
  destruct e as [p now q|c|]; try discriminate. destruct q as [k v [w|]|k w|k|ks|k|k|k|k| |]; try discriminate; cbn in *; auto.
  apply N.leb_le in F. auto.
Qed.

Definition sy_alone (k : bytes) (e : event) : bool :=
  match e with EReq _ _ (QSet k' _ _) | EReq _ _ (QDel k' _) => negb (bseqb k' k) | _ => true end.
Lemma sy_alone_ok k es : forallb (sy_alone k) es = true -> left_alone k es.
Proof.
  intros F e I (p & now & ts & [(v & ->)| ->]); rewrite forallb_forall in F; specialize (F _ I); cbn in F; rewrite bseqb_refl in F; discriminate.
Qed.

Example C59_hypotheses :
  Forall event_wf sy_src /\ Forall event_wf sy_dst /\
  Forall is_request (at_source sy_ws) /\ Forall is_request (at_target sy_ws) /\ Forall (fun w => 1 <= p_room w)%nat sy_ws /\
  copies sy_ws = 8 /\ left_alone (str "a") (at_source sy_ws) /\ left_alone (str "a") (at_target sy_ws) /\
  n_lock ex_c <> 2 /\ n_lock open_to = 0 /\ n_worm open_to = false /\ n_maxsize open_to = 0 /\ p_writable rw = true /\
  at_source (repeat (mkPass [] 1 (repeat sy_turn 4)) 5) = [] /\ kcount (kv_of ex_c sy_src) = 3.
Proof.
  split; [wf|]. split; [wf|]. split; [apply sy_calm_ok; reflexivity|]. split; [apply sy_calm_ok; reflexivity|].
  split; [repeat constructor|]. split; [reflexivity|]. split; [apply sy_alone_ok; reflexivity|]. split; [apply sy_alone_ok; reflexivity|].
  split; [discriminate|]. do 5 (split; [reflexivity|]). vm_compute. reflexivity.
Qed.

(* ---- what is not so ---- *)

(* A key deleted between the page that shows it and the GET comes to the target with an
   empty value, and stays there: neither server ever had it that way. *)
Definition sy_del : list pass :=
  [mkPass [] 1 []; mkPass [EReq rw 8 (QDel (str "b") None)] 1 [sy_turn; sy_turn]; mkPass [] 1 [sy_turn]; mkPass [] 1 [sy_turn]].

Theorem C59_deleted_refuted : exists ws ks, sy_copy open_to ws ks = Some ([hardsend "$-1"], [bulk []]).
Proof. exists sy_del, ["b"%string]. vm_compute. reflexivity. Qed.
Print Assumptions C59_deleted_refuted.

(* The replies of the target are not looked at: with a quota or in WORM mode values are
   refused, and the program says that the database is synchronized. *)
Definition sy_page : list pass := [mkPass [] 4 []; mkPass [] 1 [sy_turn; sy_turn; sy_turn]].

Theorem C59_refusals_refuted : exists ws k1 k2,
  sy_copy (mkCfg (str "to") None true false 8 0) ws [k1] = Some ([bulk (str "uno")], [hardsend "$-1"]) /\
  sy_copy (mkCfg (str "to") None true true 0 0) ws [k2] = Some ([bulk (str "two")], [bulk (str "old")]).
Proof. exists sy_page, "a"%string, "b"%string. split; vm_compute; reflexivity. Qed.
Print Assumptions C59_refusals_refuted.

(* The times of the writes are not copied. *)
Definition time_of (k : bytes) (st : nscfg * est) : bytes := fst (run_req ex_g ro 0 (QKeytime k) (fst st) (snd st)).

Theorem C59_times_refuted : exists ws k,
  match sy_at ex_c sy_src, sy_at open_to sy_dst with
  | Some src, Some dst =>
      match db_sync ex_g ex_g rw rw ws src dst with
      | Some (src', dst') => time_of k src' = intreply 7 /\ time_of k dst' = intreply 9
      | None => False
      end
  | _, _ => False
  end.
Proof. exists sy_page, (str "a"). vm_compute. auto. Qed.
Print Assumptions C59_times_refuted.
