(* PROPERTY C60: db-replicate copies what is written at the source. *)
From Coq Require Import Strings.String Strings.Byte List NArith ZArith Bool Lia.
From Verif Require Import Bytes BytesFacts Layout Store Text Commands SpecKV Machine Reach KvFacts SpecScan Scan DbSync SpecSync SyncFacts
  DbReplicate RepFacts PropKV PropScan PropSync.
Import ListNotations.
Open Scope N_scope.
Local Notation length := List.length.

(* One turn of the loop: the program reads the last keys of the source with RSCAN, waits,
   and copies what comes after the last key of that page.  At the end of the turn the
   target has the value of every key that was in the page and not its last one, and of
   every key whose value changed while the program waited, unless somebody else writes
   the key during the copy.  A key that the source does not have is left as it was. *)
Theorem C60_round : forall gs gt ns nt ps pt c0 es o c s d0 fs o2 d t r cur items keys o3 mid src dst,
  reached gs ns c0 es o c s -> reached gt nt d0 fs o2 d t -> n_lock c <> 2 -> all_used (dk_i (dk s)) ->
  p_writable pt = true -> n_lock d = 0 -> n_worm d = false -> n_maxsize d = 0 ->
  Forall is_request (r_wait r) -> Forall is_request (at_source (r_passes r)) -> Forall is_request (at_target (r_passes r)) ->
  Forall (fun w => 1 <= p_room w)%nat (r_passes r) ->
  nlen (dk_i (dk s)) + nlen (r_wait r) + nlen (at_source (r_passes r)) + copies (r_passes r) < 2 ^ 32 ->
  nlen (dk_i (dk t)) + nlen (at_target (r_passes r)) + copies (r_passes r) < 2 ^ 32 ->
  last_page (r_room r) (c, s) = Some (PArray [cur; PArray items]) -> keys_of_items items = Some keys ->
  served gs (r_wait r) (c, s) = Some (o3, mid) ->
  catch_up gs gt ps pt r (c, s) (d, t) = Copied src dst ->
  forall k, 0 < blen k -> blen k <= 255 -> left_alone k (at_source (r_passes r)) -> left_alone k (at_target (r_passes r)) ->
  (In k (removelast keys) \/ get_of gs k mid <> get_of gs k (c, s) -> get_of gs k mid <> hardsend "$-1" ->
     get_of gt k dst = get_of gs k mid) /\
  (get_of gs k mid = hardsend "$-1" -> get_of gt k dst = get_of gt k (d, t)).
Proof. exact catch_copies. Qed.
Print Assumptions C60_round.

(* the turn ends if nobody else writes to the source during the copy *)
Theorem C60_ends : forall gs gt ns nt ps pt c0 es o c s d0 fs o2 d t r,
  reached gs ns c0 es o c s -> reached gt nt d0 fs o2 d t -> n_lock c <> 2 -> all_used (dk_i (dk s)) -> kv_of c0 es <> [] ->
  Forall is_request (r_wait r) -> at_source (r_passes r) = [] -> Forall is_request (at_target (r_passes r)) ->
  kcount (kv_of c0 (es ++ r_wait r)) < nlen (r_passes r) ->
  Forall (fun w => (1 <= p_room w)%nat /\ kcount (kv_of c0 (es ++ r_wait r)) <= nlen (p_turns w)) (r_passes r) ->
  nlen (dk_i (dk s)) + nlen (r_wait r) < 2 ^ 32 ->
  nlen (dk_i (dk t)) + nlen (at_target (r_passes r)) + copies (r_passes r) < 2 ^ 32 ->
  exists src dst, catch_up gs gt ps pt r (c, s) (d, t) = Copied src dst.
Proof. exact catch_ends. Qed.
Print Assumptions C60_ends.

(* ---- examples ---- *)
(* the run, and what is then found at the source and at the target *)
Definition rp_run (ws : list pass) (rs : list (list event * round)) (ks : list string) : option (list bytes * list bytes) :=
  match sy_at ex_c sy_src, sy_at open_to sy_dst with
  | Some src, Some dst =>
      match db_replicate ex_g ex_g rw rw ws rs src dst with
      | Copied src' dst' => Some (map (fun k => get_of ex_g (str k) src') ks, map (fun k => get_of ex_g (str k) dst') ks)
      | _ => None
      end
  | _, _ => None
  end.

Definition rp_pass : pass := mkPass [] 4 [sy_turn; sy_turn; sy_turn; sy_turn; sy_turn].
Definition rp_first : list pass := [rp_pass; rp_pass].
(* a key is written before the turn and two while the program waits *)
Definition rp_round : round := mkRound 2 [sy_set "d" "four"; sy_set "b" "dos"] [rp_pass; rp_pass].
Definition rp_rounds : list (list event * round) := [([sy_set "e" "five"], rp_round)].

Example C60_example :
  rp_run rp_first rp_rounds ["a"; "b"; "c"; "d"; "e"; "z"]%string =
  Some ([bulk (str "uno"); bulk (str "dos"); bulk (str "three"); bulk (str "four"); bulk (str "five"); hardsend "$-1"],
        [bulk (str "uno"); bulk (str "dos"); bulk (str "three"); bulk (str "four"); bulk (str "five"); bulk (str "kept")]).
Proof. vm_compute. reflexivity. Qed.

(* the hypotheses of the theorems are met *)
Definition rp_es : list event := sy_src ++ [sy_set "e" "five"].
Definition rp_more : round := mkRound 2 (r_wait rp_round) (repeat rp_pass 6).

Example C60_hypotheses :
  Forall event_wf rp_es /\ Forall is_request (r_wait rp_round) /\ at_source (r_passes rp_round) = [] /\ at_target (r_passes rp_round) = [] /\
  Forall (fun w => 1 <= p_room w)%nat (r_passes rp_round) /\
  kcount (kv_of ex_c (rp_es ++ r_wait rp_more)) = 5 /\ nlen (r_passes rp_more) = 6 /\
  Forall (fun w => (1 <= p_room w)%nat /\ 5 <= nlen (p_turns w)) (r_passes rp_more) /\
  at_source (r_passes rp_more) = [] /\ at_target (r_passes rp_more) = [] /\ copies (r_passes rp_more) = 30 /\
  match sy_at ex_c rp_es with
  | Some (c, s) =>
      n_lock c = 0 /\ nlen (dk_i (dk s)) = 1 /\
      option_map (fun p => match p with PArray [_; PArray items] => keys_of_items items | _ => None end) (last_page 2 (c, s)) =
        Some (Some [str "e"; str "a"; str "c"]) /\
      match run_events ex_g (r_wait rp_round) (c, s) with
      | Some (_, mid) => get_of ex_g (str "b") mid = bulk (str "dos") /\ get_of ex_g (str "b") (c, s) = bulk (str "two")
      | None => False
      end
  | None => False
  end.
Proof.
  split; [wf|]. split; [apply sy_calm_ok; reflexivity|]. split; [reflexivity|]. split; [reflexivity|].
  split; [repeat (constructor; [cbn; lia|]); constructor|]. split; [vm_compute; reflexivity|]. split; [reflexivity|].
  split; [repeat (constructor; [split; [cbn; lia|vm_compute; discriminate]|]); constructor|].
  do 3 (split; [reflexivity|]). vm_compute. repeat split.
Qed.

(* ---- what is not so ---- *)

(* A key written between the end of a copy and RSCAN that is the last of the page of RSCAN
   is not copied, in this turn or later: the page had time for one key here. *)
Definition rp_late : list (list event * round) :=
  [([sy_set "late" "lost"], mkRound 0 [sy_set "d" "four"] [rp_pass; rp_pass]);
   ([], mkRound 0 [sy_set "e" "five"] [rp_pass; rp_pass])].

Theorem C60_missed_refuted : exists ws rs,
  rp_run ws rs ["late"; "e"]%string = Some ([bulk (str "lost"); bulk (str "five")], [hardsend "$-1"; bulk (str "five")]).
Proof. exists rp_first, rp_late. vm_compute. reflexivity. Qed.
Print Assumptions C60_missed_refuted.

(* Deletions are not copied. *)
Definition rp_del : list (list event * round) :=
  [([], mkRound 4 [EReq rw 8 (QDel (str "b") None)] [rp_pass; rp_pass]); ([], mkRound 4 [] [rp_pass; rp_pass])].

Theorem C60_deleted_refuted : exists ws rs,
  rp_run ws rs ["b"]%string = Some ([hardsend "$-1"], [bulk (str "two")]).
Proof. exists rp_first, rp_del. vm_compute. reflexivity. Qed.
Print Assumptions C60_deleted_refuted.

(* The program follows a null pointer when the source has no key, as a new server... *)
Theorem C60_empty_refuted : forall gs gt ns ps pt c0 es o c s r dst,
  reached gs ns c0 es o c s -> n_lock c <> 2 -> all_used (dk_i (dk s)) -> kv_of c0 es = [] ->
  catch_up gs gt ps pt r (c, s) dst = Crash.
Proof. exact catch_empty. Qed.
Print Assumptions C60_empty_refuted.

Example C60_ex_empty : match sy_at ex_c [] with
  | Some (c, s) => n_lock c = 0 /\ nlen (dk_i (dk s)) = 1 /\ catch_up ex_g ex_g rw rw rp_round (c, s) (c, s) = Crash
  | None => False
  end.
Proof. vm_compute. repeat split. Qed.

(* ... and when nothing was written since the source began a new file. *)
Theorem C60_jump_refuted : exists es, kv_of ex_c es <> [] /\
  exists o c s, reached ex_g 5 ex_c es o c s /\ forall gt ps pt r dst, catch_up ex_g gt ps pt r (c, s) dst = Crash.
Proof.
  destruct C22_empty_file_refuted as (es & o & c & s & R & _ & Ne & X). exists es. split; [exact Ne|]. exists o, c, s. split; [exact R|].
  intros gt ps pt r dst. unfold catch_up, last_page. cbn [fst snd]. rewrite (X (r_room r)). reflexivity.
Qed.
Print Assumptions C60_jump_refuted.
