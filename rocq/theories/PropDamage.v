(* PROPERTY C55: damage to the files of a namespace, or a crash during NSDEL, stays in
   that namespace. *)
From Coq Require Import Strings.String Strings.Byte List NArith ZArith Bool.
From Verif Require Import Bytes Layout Store Text Commands SpecKV SpecSeq Machine Reach SeqReach SeqFacts Sha1 Dispatch Namespace System Resp Server ServerCrash
  SpecAuth AuthFacts SpecServer IsolFacts NamesFacts SpecDamage DamageFacts PropAuth PropServer.
Import ListNotations.
Open Scope N_scope.

(* A server has run any covered events from its first start, and i is one of its
   namespaces, with the contents x.  A start finds any directories, of which one is that
   of i as the server left it: the others are damaged in any way, missing, half removed
   or new.  If the process survives the start, the name of i is found with its settings.
   After that, whatever the clients do in the other namespaces, the data requests of the
   clients of i are answered by the contents x. *)
Theorem C55_contained : forall g es0 outs0 w0 w i r ord w1,
  server_ok g -> first_boot g = Some w0 -> all_covered g es0 w0 -> run_sevents g es0 w0 = Some (outs0, w) ->
  slot i w = Some r -> (in_sequential r -> settled (est_of w r)) ->
  In (n_name (r_cfg r), r_desc r, r_dk r) ord -> NoDup (names_found ord) -> boot g ord = Some w1 ->
  exists D x j r1, dir_run g es0 w0 outs0 (only_default g) D /\ D (n_name (r_cfg r)) = Some x /\
    slot j w1 = Some r1 /\ r_cfg r1 = unlocked (d_conf x) /\
    (forall k r', slot k w1 = Some r' -> n_name (r_cfg r') = n_name (r_cfg r) -> k = j) /\
    forall es outs w2, all_leave g j es w1 -> run_sevents g es w1 = Some (outs, w2) ->
      exists x', one_run g j es w1 outs (started x) x' /\ exists r2, slot j w2 = Some r2 /\ r_cfg r2 = d_conf x'.
Proof. exact damage_theorem. Qed.
Print Assumptions C55_contained.

(* The private namespace "priv" holds the secret "k", the sequential "b" two values, the
   default one the key "d". *)
Definition ex55_a : list sevent :=
  ex_prefix ++
  [ req 5 ["SELECT"; "priv"; "pw"]; req 5 ["SET"; "k"; "secret"]; req 4 ["NSNEW"; "b"]; req 4 ["NSSET"; "b"; "mode"; "seq"];
    req 4 ["SET"; "d"; "mine"]; req 4 ["SELECT"; "b"]; req 4 ["SET"; ""; "one"]; req 4 ["SET"; ""; "two"] ]%string.
Definition ex55_w : world := match run_sevents ex_g ex55_a ex31_w0 with Some (_, w) => w | None => ex_w end.
Definition entry_at (i : N) (w : world) : stored :=
  match slot i w with Some r => (n_name (r_cfg r), r_desc r, r_dk r) | None => ([], [], empty_disk) end.
(* a file of one list is replaced *)
Definition spoil (s : stored) (desc : bytes) (di dd : list bytes) : stored :=
  (fst (fst s), desc, mkDisk di dd (dk_log (snd s)) (dk_io (snd s))).

(* the data of "priv" is overwritten, a byte of its only index record too, its
   descriptor is cut; a directory "new" appears *)
Definition ex55_ord : list stored :=
  [ entry_at 0 ex55_w;
    spoil (entry_at 1 ex55_w) [x00; x01] [fwrite (nth 0 (dk_i (snd (entry_at 1 ex55_w))) []) 40 [xff; xff]] [str "nothing here"];
    (str "new", [], empty_disk);
    entry_at 2 ex55_w ].
Definition ex55_w1 : world := match boot ex_g ex55_ord with Some w => w | None => ex_w end.
Example C55_ex_hyps :
  all_covered ex_g ex55_a ex31_w0 /\ boot ex_g ex55_ord = Some ex55_w1 /\ NoDup (names_found ex55_ord) /\
  option_map (fun r => (n_name (r_cfg r), x_mode (r_ix r))) (slot 2 ex55_w) = Some (str "b", MODE_SEQ) /\
  option_map (fun r => settled_b (est_of ex55_w r)) (slot 2 ex55_w) = Some true /\
  In (entry_at 2 ex55_w) ex55_ord /\ In (entry_at 0 ex55_w) ex55_ord.
Proof.
  split; [apply all_coveredb_ok; vm_compute; reflexivity|]. split; [vm_compute; reflexivity|].
  split; [repeat (constructor; [vm_compute; intuition discriminate|]); constructor|].
  do 2 (split; [vm_compute; reflexivity|]). split; [right; right; right; left; reflexivity|left; reflexivity].
Qed.

(* the sequential namespace has its values and goes on, among the clients of the others *)
Definition ex55_es : list sevent :=
  [ SConnect 4; SConnect 5; req 4 ["AUTH"; "root"]; req 4 ["NSLIST"]; req 4 ["SELECT"; "b"]; req 5 ["SELECT"; "priv"]; req 5 ["GET"; "k"];
    req 5 ["SET"; "k"; "again"]; SRequest 4 (ex_env 100) [str "GET"; le 8 1]; req 4 ["SET"; ""; "three"]; req 4 ["NSDEL"; "new"];
    req 4 ["DBSIZE"] ]%string.
Example C55_ex_leave : all_leave ex_g 3 ex55_es ex55_w1.
Proof. apply all_leaveb_ok. vm_compute. reflexivity. Qed.
Example C55_ex_run : option_map fst (run_sevents ex_g ex55_es ex55_w1) = Some
  [ []; []; ok 4; [(4, enc_reply (RArr (map (fun n => RBulk (str n)) ["default"; "priv"; "new"; "b"]%string)))]; ok 4; ok 5;
    say 5 "-Internal Error"; [(5, bulk (str "k"))]; [(4, bulk (str "two"))]; [(4, bulk (le 8 2))]; ok 4; [(4, str ":3" ++ CRLF)] ].
Proof. vm_compute. reflexivity. Qed.

(* The server dies inside of NSDEL of k, after any of its files were removed: the next
   start succeeds, and then C55_contained applies to every other namespace. *)
Theorem C55_nsdel_starts : forall g es0 outs0 w0 w k rk o ord,
  server_ok g -> first_boot g = Some w0 -> all_covered g es0 w0 -> run_sevents g es0 w0 = Some (outs0, w) ->
  (forall i r, slot i w = Some r -> in_sequential r -> settled (est_of w r)) ->
  slot k w = Some rk -> delete_left (n_name (r_cfg rk), r_desc rk, r_dk rk) o ->
  (exists desc d l, ord = (str "default", desc, d) :: l) ->
  Forall (fun s => o = Some s \/ exists i r, slot i w = Some r /\ s = (n_name (r_cfg r), r_desc r, r_dk r)) ord ->
  boot g ord <> None.
Proof. exact nsdel_theorem. Qed.
Print Assumptions C55_nsdel_starts.

(* the descriptor of "priv" is the first file removed *)
Definition ex55_left : stored := (str "priv", [], snd (entry_at 1 ex55_w)).
Definition ex55_nodesc : list stored := [ entry_at 0 ex55_w; ex55_left; entry_at 2 ex55_w ].
Example C55_ex_left : delete_left (entry_at 1 ex55_w) (Some ex55_left) /\
  forallb (fun o => match o with Some r => negb (x_mode (r_ix r) =? MODE_SEQ) || settled_b (est_of ex55_w r) | None => true end) (w_slots ex55_w) = true.
Proof.
  split; [|vm_compute; reflexivity].
  replace ex55_left with (str "priv", (if false then snd (fst (entry_at 1 ex55_w)) else []),
    mkDisk (firstn 1 (dk_i (snd (entry_at 1 ex55_w)))) (dk_d (snd (entry_at 1 ex55_w))) (dk_log (snd (entry_at 1 ex55_w))) (dk_io (snd (entry_at 1 ex55_w))))
    by (vm_compute; reflexivity).
  replace (entry_at 1 ex55_w) with (str "priv", snd (fst (entry_at 1 ex55_w)), snd (entry_at 1 ex55_w)) at 1 by (vm_compute; reflexivity).
  exact (left_some (str "priv") (snd (fst (entry_at 1 ex55_w))) (snd (entry_at 1 ex55_w)) false 1).
Qed.
(* both index files of a namespace with two are gone, the data is there *)
Example C55_ex_left_empty : forall name desc d, delete_left (name, desc, d) (Some (name, desc, mkDisk [] (dk_d d) (dk_log d) (dk_io d))).
Proof. intros. exact (left_some name desc d true 0). Qed.

(* What does not hold: a namespace being deleted is not opened to everybody.  The
   namespace had a password and was not public; the crash left its data but not its
   descriptor; a client which never gave a password reads the value. *)
Theorem C55_secret_refuted : exists g es0 outs0 w0 w rk s' ord w1 fd es outs w2,
  first_boot g = Some w0 /\ run_sevents g es0 w0 = Some (outs0, w) /\
  slot 1 w = Some rk /\ n_pass (r_cfg rk) = Some (str "pw") /\ n_public (r_cfg rk) = false /\
  delete_left (n_name (r_cfg rk), r_desc rk, r_dk rk) (Some s') /\ ord = [entry_at 0 w; s'; entry_at 2 w] /\ boot g ord = Some w1 /\
  es = [SConnect fd; req fd ["SELECT"; "priv"]; req fd ["GET"; "k"]]%string /\
  run_sevents g es w1 = Some (outs, w2) /\ nth 2 outs [] = [(fd, bulk (str "secret"))].
Proof.
  exists ex_g, ex55_a, (match run_sevents ex_g ex55_a ex31_w0 with Some (o, _) => o | None => [] end), ex31_w0, ex55_w.
  exists (match slot 1 ex55_w with Some r => r | None => mkNs (fresh_conf []) [] (index_init_lazy 0 0) (mkData 0 0) empty_disk end), ex55_left, ex55_nodesc.
  exists (match boot ex_g ex55_nodesc with Some w => w | None => ex_w end), 7, [SConnect 7; req 7 ["SELECT"; "priv"]; req 7 ["GET"; "k"]]%string.
  set (w1 := match boot ex_g ex55_nodesc with Some w => w | None => ex_w end). set (es := [SConnect 7; _; _]).
  exists (match run_sevents ex_g es w1 with Some (o, _) => o | None => [] end), (match run_sevents ex_g es w1 with Some (_, w) => w | None => ex_w end).
  do 5 (split; [vm_compute; reflexivity|]).
  split.
  { replace (n_name _, r_desc _, r_dk _) with (entry_at 1 ex55_w) by (vm_compute; reflexivity). exact (proj1 C55_ex_left). }
  do 4 (split; [vm_compute; reflexivity|]). vm_compute. reflexivity.
Qed.
Print Assumptions C55_secret_refuted.

(* Nor does the damage of one namespace leave the others available: a torn index header
   in "priv" and the process does not start, though it did with the files of before. *)
Definition ex55_torn : list stored :=
  [ entry_at 0 ex55_w; spoil (entry_at 1 ex55_w) (snd (fst (entry_at 1 ex55_w))) [str "IDX0 torn"] (dk_d (snd (entry_at 1 ex55_w))); entry_at 2 ex55_w ].
Theorem C55_start_refuted : exists g es0 outs0 w0 w ord,
  server_ok g /\ first_boot g = Some w0 /\ all_covered g es0 w0 /\ run_sevents g es0 w0 = Some (outs0, w) /\
  In (entry_at 0 w) ord /\ In (entry_at 2 w) ord /\ names_found ord = names_found (stored_of w) /\
  boot g (stored_of w) <> None /\ boot g ord = None.
Proof.
  exists ex_g, ex55_a, (match run_sevents ex_g ex55_a ex31_w0 with Some (o, _) => o | None => [] end), ex31_w0, ex55_w, ex55_torn.
  split; [exact (proj1 C31_ex_ok)|]. split; [exact (proj2 C31_ex_ok)|]. split; [exact (proj1 C55_ex_hyps)|].
  split; [vm_compute; reflexivity|]. split; [left; reflexivity|]. split; [right; right; left; reflexivity|].
  split; [vm_compute; reflexivity|]. split; [|vm_compute; reflexivity].
  assert (X : match boot ex_g (stored_of ex55_w) with Some _ => true | None => false end = true) by (vm_compute; reflexivity).
  destruct (boot ex_g (stored_of ex55_w)); discriminate.
Qed.
Print Assumptions C55_start_refuted.
