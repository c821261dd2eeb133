(* PROPERTIES C54: the server dies at any moment and is started again. *)
From Coq Require Import Strings.String Strings.Byte List NArith ZArith Bool.
From Verif Require Import Bytes Layout Store Text Commands SpecKV Machine CrashModel Sha1 Dispatch Namespace System Resp Server ServerCrash
  SpecAuth AuthFacts SpecServer NamesFacts SpecSrvCrash SrvCrash PropAuth PropServer.
Import ListNotations.
Open Scope N_scope.

(* From the first start, through any events, restarts and crashes covered (all_kcovered
   in SpecSrvCrash.v): there is one directory of namespaces (kdir_run) which explains
   every reply.  A crash leaves of the request being handled nothing, or its whole
   effect, or - for a request on the data - what C03 and C07 allow; of all others it
   leaves everything, in every namespace, and the settings too.
   Missing for the full statement: the crash points which are not covered. *)
Theorem C54_crash_partial : forall g es outs w0 w,
  server_ok g -> first_boot g = Some w0 -> all_kcovered g es w0 -> run_kevents g es w0 = Some (outs, w) ->
  exists D, kdir_run g es w0 outs (only_default g) D /\
    D (str "default") <> None /\
    (forall n, D n <> None <-> exists i r, slot i w = Some r /\ n_name (r_cfg r) = n) /\
    (forall i r, slot i w = Some r -> exists x, D (n_name (r_cfg r)) = Some x /\ d_conf x = r_cfg r).
Proof. exact crash_theorem. Qed.
Print Assumptions C54_crash_partial.

(* After a covered crash the server starts again. *)
Theorem C54_restarts_partial : forall g es outs w0 w e pt ord,
  server_ok g -> first_boot g = Some w0 -> all_kcovered g es w0 -> run_kevents g es w0 = Some (outs, w) ->
  kcovered g (KCrash e pt ord) w -> exists w1, run_kevent g (KCrash e pt ord) w = Some ([], w1).
Proof. exact crash_restarts. Qed.
Print Assumptions C54_restarts_partial.

(* What a crash may do (crash_event, in the theorem above) spares every namespace but the
   one the request is about: that of the client for a request on the data, the one named
   for NSNEW, NSSET and NSDEL. *)
Theorem C54_others : forall g fd v argv w D D1, crash_event g (SRequest fd v argv) w D D1 -> forall cl i r h c n,
  client_at fd w = Some cl -> c_ns cl = Some i -> slot i w = Some r -> lookup_handler (arg 0 (effective cl argv)) = Some (h, c) ->
  (is_data c = true -> n <> n_name (r_cfg r)) -> (c = CNsset \/ c = CNsnew \/ c = CNsdel -> n <> text (arg 1 (effective cl argv))) -> D1 n = D n.
Proof. exact crash_spares. Qed.
Print Assumptions C54_others.

(* A private namespace with a password and a sequential one; the process dies in the
   middle of a data write, between the data and the index of a sequential record, in
   NSNEW within the name, in NSSET after the header, and in RELOAD and FLUSH within the
   header of the index file. *)
Definition go (e : sevent) : sevent * option point := (e, None).
Definition ex54_l : list (sevent * option point) :=
  map go (ex_prefix ++ [ req 5 ["SELECT"; "priv"; "pw"]; req 5 ["SET"; "k"; "one"]; req 5 ["SET"; "k"; "two"];
      req 4 ["NSNEW"; "b"]; req 4 ["NSSET"; "b"; "mode"; "seq"]; req 4 ["SELECT"; "b"]; req 4 ["SET"; ""; "first"] ]%string) ++
  [ (req 5 ["SET"; "k"; "three"]%string, Some (PRun 1 0 7)) ] ++
  map go [ SConnect 4; SConnect 5; req 5 ["SELECT"; "priv"; "pw"]; req 5 ["GET"; "k"]; req 4 ["AUTH"; "root"]; req 4 ["SELECT"; "b"] ]%string ++
  [ (req 4 ["SET"; ""; "second"]%string, Some (PRun 2 1 0)) ] ++
  map go [ SConnect 4; SConnect 5; req 4 ["AUTH"; "root"]; req 4 ["SELECT"; "b"]; req 4 ["DBSIZE"]; SRequest 4 (ex_env 100) [str "GET"; le 8 0] ]%string ++
  [ (req 4 ["NSNEW"; "c"]%string, Some (PNew 1 1)) ] ++
  map go [ SConnect 4; req 4 ["NSLIST"]; req 4 ["AUTH"; "root"] ]%string ++
  [ (req 4 ["NSSET"; "priv"; "maxsize"; "500"]%string, Some (PRun 1 1 1)) ] ++
  map go [ SConnect 4; req 4 ["AUTH"; "root"]; req 4 ["NSSET"; "c"; "mode"; "seq"]; req 4 ["SELECT"; "priv"; "pw"]; req 4 ["GET"; "k"] ]%string ++
  [ (req 4 ["RELOAD"; "priv"]%string, Some (PRun 1 1 20)) ] ++
  map go [ SConnect 4; req 4 ["SELECT"; "priv"; "pw"] ]%string ++
  [ (req 4 ["FLUSH"]%string, Some (PRun 1 1 3)) ] ++
  map go [ SConnect 4; req 4 ["SELECT"; "priv"; "pw"]; req 4 ["GET"; "k"] ]%string.
Definition ex54_es : list kevent := kbuild ex_g ex54_l ex31_w0.
Example C54_ex_covered : all_kcovered ex_g ex54_es ex31_w0 /\ List.length ex54_es = List.length ex54_l.
Proof. split; [apply kcheck_ok|]; vm_compute; reflexivity. Qed.
Definition num (fd : N) (t : string) : list (N * bytes) := [(fd, str t ++ CRLF)].
Example C54_ex_run : option_map (fun x => skipn 10 (fst x)) (run_kevents ex_g ex54_es ex31_w0) =
  Some [ ok 4; ok 4; [(4, bulk (le 8 0))];
         []; []; []; ok 5; [(5, bulk (str "two"))]; ok 4; ok 4;
         []; []; []; ok 4; ok 4; num 4 ":1"; [(4, bulk (str "first"))];
         []; []; [(4, enc_reply (RArr [RBulk (str "default"); RBulk (str "priv"); RBulk (str "b"); RBulk (str "c")]))]; ok 4;
         []; []; ok 4; ok 4; ok 4; [(4, bulk (str "two"))];
         []; []; ok 4; []; []; ok 4; [(4, bulk (str "two"))] ].
Proof. vm_compute. reflexivity. Qed.
Definition ex54_w : world := match run_kevents ex_g ex54_es ex31_w0 with Some (_, w) => w | None => ex_w end.
Example C54_ex_conf : option_map (fun r => (n_maxsize (r_cfg r), n_pass (r_cfg r), n_public (r_cfg r))) (slot 1 ex54_w) = Some (500, Some (str "pw"), false).
Proof. vm_compute. reflexivity. Qed.

(* The points left out matter.  The server dies in the writes of one event, at a point
   pt, after events which are all covered: *)
Definition dies_at (g : server) (es : list sevent) (e : sevent) (pt : point) (w w1 w2 : world) : Prop :=
  exists w0 outs out st, first_boot g = Some w0 /\ all_covered g es w0 /\ run_sevents g es w0 = Some (outs, w) /\
    run_sevent g e w = SDone out st w1 /\ boot g (crash_disks pt w w1) = Some w2.

Definition world_or (o : option (list (list (N * bytes)) * world)) : world := match o with Some (_, w) => w | None => ex_w end.
Definition next_world (e : sevent) (w : world) : world := match run_sevent ex_g e w with SDone _ _ w1 => w1 | SUndef => w end.
Definition found_world (pt : point) (w w1 : world) : world := match boot ex_g (crash_disks pt w w1) with Some w2 => w2 | None => w end.
Definition dies_b (es : list sevent) (e : sevent) (pt : point) : bool :=
  all_coveredb ex_g es ex31_w0 &&
  match run_sevents ex_g es ex31_w0 with
  | Some (_, w) => match run_sevent ex_g e w with
                   | SDone _ _ w1 => match boot ex_g (crash_disks pt w w1) with Some _ => true | None => false end
                   | SUndef => false end
  | None => false
  end.
Lemma dies_ok es e pt : dies_b es e pt = true ->
  let w := world_or (run_sevents ex_g es ex31_w0) in let w1 := next_world e w in dies_at ex_g es e pt w w1 (found_world pt w w1).
Proof.
  unfold dies_b, world_or, next_world, found_world, dies_at. intro H. apply andb_true_iff in H. destruct H as (A & H).
  destruct (run_sevents ex_g es ex31_w0) as [[outs w]|] eqn:R; [|discriminate]. destruct (run_sevent ex_g e w) as [out st w1|] eqn:E; [|discriminate].
  destruct (boot ex_g (crash_disks pt w w1)) as [w2|] eqn:B; [|discriminate].
  exists ex31_w0, outs, out, st. split; [exact (proj2 C31_ex_ok)|]. split; [apply all_coveredb_ok; exact A|]. split; [exact R|]. cbv zeta. rewrite ?E, ?B. auto.
Qed.

Definition pass_in (name : bytes) (w : world) : list (option bytes) :=
  flat_map (fun o => match o with Some r => if bseqb (n_name (r_cfg r)) name then [n_pass (r_cfg r)] else [] | None => [] end) (w_slots w).
Definition size_in (name : bytes) (w : world) : list N :=
  flat_map (fun o => match o with Some r => if bseqb (n_name (r_cfg r)) name then [n_maxsize (r_cfg r)] else [] | None => [] end) (w_slots w).

(* A password is changed from "secretpassword" to "pw" and the process dies after the
   first write: the namespace has the password "se", neither the old nor the new one. *)
Definition ex54_p : list sevent := [ SConnect 4; SConnect 5; req 4 ["AUTH"; "root"]; req 4 ["NSNEW"; "n"]; req 4 ["NSSET"; "n"; "password"; "secretpassword"] ]%string.
Definition ex54_pw : sevent := req 4 ["NSSET"; "n"; "password"; "pw"]%string.
Theorem C54_password_refuted : exists g es e pt w w1 w2 old new found, dies_at g es e pt w w1 w2 /\
  pass_in (str "n") w = [Some old] /\ pass_in (str "n") w1 = [Some new] /\ pass_in (str "n") w2 = [Some found] /\ found <> old /\ found <> new.
Proof.
  pose (w := world_or (run_sevents ex_g ex54_p ex31_w0)). pose (w1 := next_world ex54_pw w). pose (pt := PRun 1 1 0).
  exists ex_g, ex54_p, ex54_pw, pt, w, w1, (found_world pt w w1), (str "secretpassword"), (str "pw"), (str "se").
  split; [apply dies_ok; vm_compute; reflexivity|]. repeat split; try (vm_compute; reflexivity); discriminate.
Qed.
Print Assumptions C54_password_refuted.

(* ... and a client is let in with "se", and refused with both others *)
Example C54_ex_password :
  let w := world_or (run_sevents ex_g ex54_p ex31_w0) in
  option_map fst (run_sevents ex_g [ SConnect 4; req 4 ["SELECT"; "n"; "secretpassword"]; req 4 ["SELECT"; "n"; "pw"]; req 4 ["SELECT"; "n"; "se"] ]%string
    (found_world (PRun 1 1 0) w (next_world ex54_pw w)))
  = Some [ []; say 4 "-Access denied"; say 4 "-Access denied"; ok 4 ].
Proof. vm_compute. reflexivity. Qed.

(* A first password is set and the process dies after the first write: the namespace has
   the empty password, which anybody may send. *)
Theorem C54_first_password_refuted : exists g es e pt w w1 w2 new, dies_at g es e pt w w1 w2 /\
  pass_in (str "priv") w = [None] /\ pass_in (str "priv") w1 = [Some new] /\ new <> [] /\ pass_in (str "priv") w2 = [Some []].
Proof.
  pose (es := firstn 4 ex_prefix). pose (e := req 4 ["NSSET"; "priv"; "password"; "pw"]%string).
  pose (w := world_or (run_sevents ex_g es ex31_w0)). pose (w1 := next_world e w). pose (pt := PRun 1 1 0).
  exists ex_g, es, e, pt, w, w1, (found_world pt w w1), (str "pw").
  split; [apply dies_ok; vm_compute; reflexivity|]. repeat split; try (vm_compute; reflexivity); discriminate.
Qed.
Print Assumptions C54_first_password_refuted.

(* The limit goes from 255 to 256 and the process dies within the header: it is 0, no
   limit. *)
Theorem C54_maxsize_refuted : exists g es e pt w w1 w2, dies_at g es e pt w w1 w2 /\
  size_in (str "priv") w = [255] /\ size_in (str "priv") w1 = [256] /\ size_in (str "priv") w2 = [0].
Proof.
  pose (es := ex_prefix ++ [ req 4 ["NSSET"; "priv"; "maxsize"; "255"]%string ]). pose (e := req 4 ["NSSET"; "priv"; "maxsize"; "256"]%string).
  pose (w := world_or (run_sevents ex_g es ex31_w0)). pose (w1 := next_world e w). pose (pt := PRun 1 0 7).
  exists ex_g, es, e, pt, w, w1, (found_world pt w w1).
  split; [apply dies_ok; vm_compute; reflexivity|]. repeat split; vm_compute; reflexivity.
Qed.
Print Assumptions C54_maxsize_refuted.

(* A namespace is made and the process dies within the header of its descriptor: it is
   there after the next start and takes data, and it is gone after the one that follows,
   although the server was stopped properly. *)
Theorem C54_new_refuted : exists g es e pt w w1 w2 es' outs w3 w4, dies_at g es e pt w w1 w2 /\
  run_sevents g es' w2 = Some (outs, w3) /\ last outs [] = [(4, bulk (str "k"))] /\ pass_in (str "n") w3 = [None] /\
  boot g (stored_of w3) = Some w4 /\ pass_in (str "n") w4 = [].
Proof.
  pose (es := firstn 3 ex_prefix). pose (e := req 4 ["NSNEW"; "n"]%string).
  pose (w := world_or (run_sevents ex_g es ex31_w0)). pose (w1 := next_world e w). pose (pt := PNew 0 3).
  pose (w2 := found_world pt w w1). pose (es' := [ SConnect 4; req 4 ["SELECT"; "n"]; req 4 ["SET"; "k"; "v"] ]%string).
  pose (w3 := world_or (run_sevents ex_g es' w2)). pose (w4 := match boot ex_g (stored_of w3) with Some x => x | None => w3 end).
  exists ex_g, es, e, pt, w, w1, w2, es', (match run_sevents ex_g es' w2 with Some (o, _) => o | None => [] end), w3, w4.
  split; [apply dies_ok; vm_compute; reflexivity|]. do 4 (split; [vm_compute; reflexivity|]). vm_compute. reflexivity.
Qed.
Print Assumptions C54_new_refuted.
