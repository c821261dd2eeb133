(* PROPERTIES C18, C19, C20, C29, C32, C38 and C43: who may do what, and who is told. *)
From Coq Require Import Strings.String Strings.Byte List NArith ZArith Bool.
From Verif Require Import Bytes Layout Store Text Commands Sha1 Dispatch Namespace System Resp Server
  SpecSha Sha1Facts SpecAuth AuthFacts WaitFacts.
Import ListNotations.
Open Scope N_scope.

(* a server with an administrator password, and a run of it used by the examples *)
Definition ex_g : server := mkServer (mkSettings MODE_MIX 1000) (Some (str "root")) false true false.
Definition ex_env (s : N) : env := mkEnv s 0 (str "0011223344556677") (fun _ => []) 0 4 false.
Definition req (fd : N) (ws : list string) : sevent := SRequest fd (ex_env 100) (map str ws).
Definition boot_run (es : list sevent) : option (list (list (N * bytes)) * world) :=
  match first_boot ex_g with Some w => run_sevents ex_g es w | None => None end.
Definition ex_prefix : list sevent :=
  [ SConnect 4; SConnect 5; req 4 ["AUTH"; "root"]; req 4 ["NSNEW"; "priv"]; req 4 ["NSSET"; "priv"; "password"; "pw"];
    req 4 ["NSSET"; "priv"; "public"; "0"] ]%string.
Definition ex_w : world := match boot_run ex_prefix with Some (_, w) => w | None => mkWorld empty_table [] 0 [] end.
Definition replies_of (es : list sevent) : option (list (list (N * bytes))) :=
  option_map fst (run_sevents ex_g es ex_w).
Definition ok (fd : N) : list (N * bytes) := [(fd, hardsend "+OK")].

Example ex_prefix_runs : option_map fst (boot_run ex_prefix) = Some [[]; []; ok 4; ok 4; ok 4; ok 4].
Proof. vm_compute. reflexivity. Qed.

(* ----- C43: the digests ----- *)

(* The digest the server compares with is the published SHA-1 (FIPS 180-4) of
   "challenge:password" in lower-case hexadecimal. *)
Theorem C43_digest : forall challenge password,
  zdb_hash_password challenge password = challenge_digest challenge password.
Proof. exact hash_ok. Qed.
Print Assumptions C43_digest.

Theorem C43_sha1 : forall m, zdb_sha1 m = fips_sha1 m.
Proof. exact sha1_ok. Qed.
Print Assumptions C43_sha1.

(* the examples of FIPS 180-4 (one block, two blocks) *)
Example C43_abc : hex_text (zdb_sha1 (str "abc")) = str "a9993e364706816aba3e25717850c26c9cd0d89d".
Proof. vm_compute. reflexivity. Qed.
Example C43_two_blocks : hex_text (fips_sha1 (str "abcdbcdecdefdefgefghfghighijhijkijkljklmklmnlmnomnopnopq"))
  = str "84983e441c3bd26ebaae4aa1f95129e5e54670f1".
Proof. vm_compute. reflexivity. Qed.

(* ----- C18: SELECT on a protected namespace ----- *)

(* Whatever happens in one step of the server: a client attached with write
   permission to a protected namespace already was, or it was connected to the
   default namespace without protect mode, or it has just sent SELECT with a proof of the password. *)
Theorem C18_write_needs_password : forall g e w out st w' fd c' i r' pw,
  run_sevent g e w = SDone out st w' ->
  client_at fd w' = Some c' -> c_ns c' = Some i -> c_writable c' = true ->
  slot i w' = Some r' -> n_pass (r_cfg r') = Some pw ->
  (exists c, client_at fd w = Some c /\ c_ns c = Some i /\ c_writable c = true)
  \/ (e = SConnect fd /\ i = 0 /\ v_protect g = false)
  \/ (exists v argv c h, e = SRequest fd v argv /\ client_at fd w = Some c /\
        lookup_handler (arg 0 (effective c argv)) = Some (h, CSelect) /\
        text (arg 1 (effective c argv)) = n_name (r_cfg r') /\
        select_proof (c_nonce c) (effective c argv) pw).
Proof. exact write_needs_password. Qed.
Print Assumptions C18_write_needs_password.

(* The outcome of SELECT on a protected namespace: write permission with a proof,
   read permission without password if it is public, otherwise an error and the
   client stays where it was. *)
Theorem C18_select_decision : forall g v fd cl argv w rep st w' h j rj pw i0 r0,
  client_at fd w = Some cl -> c_ns cl = Some i0 -> slot i0 w = Some r0 ->
  lookup_handler (arg 0 argv) = Some (h, CSelect) ->
  namespace_get (text (arg 1 argv)) w = Some (j, rj) -> n_pass (r_cfg rj) = Some pw ->
  dispatch g v fd cl argv w = Done rep st w' ->
  exists cl', client_at fd w' = Some cl' /\ w_slots w' = w_slots w /\ w_tb w' = w_tb w /\
   ((rep = hardsend "+OK" /\ c_ns cl' = Some j /\ c_writable cl' = true /\ select_proof (c_nonce cl) argv pw)
    \/ (rep = hardsend "+OK" /\ c_ns cl' = Some j /\ c_writable cl' = false /\ argc argv = 2 /\ n_public (r_cfg rj) = true)
    \/ (is_error rep /\ c_ns cl' = c_ns cl /\ c_writable cl' = c_writable cl)).
Proof. exact select_decision. Qed.
Print Assumptions C18_select_decision.

(* and the right password or digest is accepted *)
Theorem C18_select_accepts : forall g v fd cl argv w h j rj pw i0 r0,
  client_at fd w = Some cl -> c_ns cl = Some i0 -> slot i0 w = Some r0 ->
  lookup_handler (arg 0 argv) = Some (h, CSelect) ->
  namespace_get (text (arg 1 argv)) w = Some (j, rj) -> n_pass (r_cfg rj) = Some pw ->
  blen (arg 1 argv) <= 128 ->
  ((exists c0 name given, argv = [c0; name; given] /\ text given = pw /\ blen given <= 255)
   \/ (exists c0 name n, argv = [c0; name; str "SECURE"; challenge_digest n pw] /\ c_nonce cl = Some n)) ->
  exists w' cl', dispatch g v fd cl argv w = Done (hardsend "+OK") SUCCESS w' /\
    client_at fd w' = Some cl' /\ c_ns cl' = Some j /\ c_writable cl' = true.
Proof. exact select_accepts. Qed.
Print Assumptions C18_select_accepts.

(* wrong, no, right password; then the digest of a challenge *)
Example C18_ex : replies_of
    [ req 5 ["SELECT"; "priv"; "no"]; req 5 ["SELECT"; "priv"]; req 5 ["SELECT"; "priv"; "pw"];
      req 5 ["AUTH"; "SECURE"; "CHALLENGE"];
      SRequest 5 (ex_env 100) [str "SELECT"; str "priv"; str "SECURE"; challenge_digest (str "0011223344556677") (str "pw")] ]%string
  = Some [ [(5, hardsend "-Access denied")]; [(5, hardsend "-Namespace protected and private")]; ok 5;
           [(5, hardsend "+0011223344556677")]; ok 5 ].
Proof. vm_compute. reflexivity. Qed.

Example C18_ex_hyps : option_map (fun c => (c_ns c, c_writable c)) (client_at 5 ex_w) = Some (Some 0, true) /\
  option_map (fun r => n_name (r_cfg r)) (slot 0 ex_w) = Some (str "default") /\
  lookup_handler (str "select") = Some (34, CSelect) /\
  option_map (fun p => (fst p, n_pass (r_cfg (snd p)), n_public (r_cfg (snd p)))) (namespace_get (text (str "priv")) ex_w)
  = Some (1, Some (str "pw"), false).
Proof. repeat split; vm_compute; reflexivity. Qed.

(* ----- C19: administrators ----- *)

(* An administrative command of a client without the rights is refused and changes
   nothing but the client's note of its last command. *)
Theorem C19_refused : forall g v fd cl argv w i0 r0 h c,
  c_ns cl = Some i0 -> slot i0 w = Some r0 -> c_admin cl = false ->
  lookup_handler (arg 0 argv) = Some (h, c) -> admin_cmd c = true ->
  dispatch g v fd cl argv w = Done (hardsend "-Permission denied") SUCCESS (put_client fd (c_set_exec (Some h) cl) w).
Proof. exact admin_denied. Qed.
Print Assumptions C19_refused.

(* No request of such a client, whatever it is, changes which namespaces exist,
   their settings or their stored descriptors. *)
Theorem C19_settings : forall g v fd argv w out st w' cl,
  client_at fd w = Some cl -> c_admin cl = false -> request g v fd argv w = SDone out st w' ->
  confs w' = confs w /\ w_eff w' = w_eff w.
Proof. exact nonadmin_settings. Qed.
Print Assumptions C19_settings.

(* The rights come from the configured password or the digest of the client's
   challenge and that password; or the server has no administrator password. *)
Theorem C19_needs_proof : forall g e w out st w' fd c',
  run_sevent g e w = SDone out st w' -> client_at fd w' = Some c' -> c_admin c' = true ->
  (exists c, client_at fd w = Some c /\ c_admin c = true)
  \/ (e = SConnect fd /\ v_adminpwd g = None)
  \/ (exists v argv c h pw, e = SRequest fd v argv /\ client_at fd w = Some c /\
        lookup_handler (arg 0 (effective c argv)) = Some (h, CAuth) /\
        v_adminpwd g = Some pw /\ auth_proof (c_nonce c) (effective c argv) pw).
Proof. exact admin_needs_proof. Qed.
Print Assumptions C19_needs_proof.

Example C19_ex : replies_of
    [ req 5 ["NSNEW"; "mine"]; req 5 ["nsset"; "priv"; "password"; "x"]; req 5 ["AUTH"; "toor"]; req 5 ["AUTH"; "root"];
      req 5 ["NSNEW"; "mine"] ]%string
  = Some [ [(5, hardsend "-Permission denied")]; [(5, hardsend "-Permission denied")]; [(5, hardsend "-Access denied")]; ok 5; ok 5 ].
Proof. vm_compute. reflexivity. Qed.

Example C19_ex_hyps : option_map (fun c => (c_ns c, c_admin c)) (client_at 5 ex_w) = Some (Some 0, false) /\
  option_map (fun r => n_name (r_cfg r)) (slot 0 ex_w) = Some (str "default") /\
  lookup_handler (str "NSNEW") = Some (28, CNsnew) /\ admin_cmd CNsnew = true.
Proof. repeat split; vm_compute; reflexivity. Qed.

(* the list of administrative commands is the right one: every command which
   changes namespaces or settings, or shows internals *)
Example C19_admin_list : map fst (filter (fun p => admin_cmd (snd p)) commands_handlers)
  = ["MIRROR"; "MASTER"; "HOOKS"; "INDEX"; "DATA"; "NSNEW"; "NSDEL"; "NSSET"; "NSJUMP"; "RELOAD"]%string.
Proof. reflexivity. Qed.

(* FLUSH erases a namespace but asks for no right at all: see C32. *)

(* ----- C20: a challenge serves once ----- *)

(* The comparison removes the challenge; whatever the server does then, and until
   the client asks for a new one, every further AUTH SECURE is refused. *)
Theorem C20_digest_once : forall g v fd argv w out st w1 cl es outs w2 c2 v2 argv2 out2 st2 w3 h2,
  client_at fd w = Some cl -> c_master cl = false -> compares g cl argv -> ~ challenge_request argv ->
  request g v fd argv w = SDone out st w1 ->
  (forall e, In e es -> no_challenge fd e /\ stays fd e) -> run_sevents g es w1 = Some (outs, w2) ->
  client_at fd w2 = Some c2 -> c_master c2 = false ->
  lookup_handler (arg 0 argv2) = Some (h2, CAuth) -> argc argv2 = 3 -> ~ challenge_request argv2 ->
  request g v2 fd argv2 w2 = SDone out2 st2 w3 ->
  (exists rep more, out2 = (fd, rep) :: more /\ is_error rep) /\
  exists c3, client_at fd w3 = Some c3 /\ c_admin c3 = c_admin c2.
Proof. exact digest_once. Qed.
Print Assumptions C20_digest_once.

Definition ex_digest : bytes := challenge_digest (str "0011223344556677") (str "root").
Definition ex_auth : sevent := SRequest 5 (ex_env 100) [str "AUTH"; str "SECURE"; ex_digest].
Example C20_ex : replies_of
    [ req 5 ["AUTH"; "SECURE"; "CHALLENGE"]; ex_auth; req 5 ["PING"]; ex_auth ]%string
  = Some [ [(5, hardsend "+0011223344556677")]; ok 5; [(5, hardsend "+PONG")]; [(5, hardsend "-No CHALLENGE requested, secure authentication not available")] ].
Proof. vm_compute. reflexivity. Qed.

Definition ex_w20 : world := match run_sevents ex_g [req 5 ["AUTH"; "SECURE"; "CHALLENGE"]%string] ex_w with Some (_, w) => w | None => ex_w end.
Example C20_ex_hyps : exists cl, client_at 5 ex_w20 = Some cl /\ c_master cl = false /\
  compares ex_g cl [str "AUTH"; str "SECURE"; ex_digest] /\
  ncase_eq ex_digest (str "CHALLENGE") = false.
Proof.
  eexists. split; [vm_compute; reflexivity|]. split; [reflexivity|]. split; [|vm_compute; reflexivity].
  split; [eexists; vm_compute; reflexivity|]. split; [eexists; reflexivity|].
  exists (str "AUTH"), (str "SECURE"), ex_digest. do 2 eexists. split; [reflexivity|].
  split; [discriminate|]. split; [discriminate|]. split; [vm_compute; reflexivity|].
  split; [vm_compute; reflexivity|]. split; reflexivity.
Qed.

(* A finding beside the property: SELECT SECURE does not consume the challenge, the
   same digest enters the namespace again and again. *)
Theorem C20_select_digest_reusable : exists argv,
  replies_of [ req 5 ["AUTH"; "SECURE"; "CHALLENGE"]%string; SRequest 5 (ex_env 1) argv; SRequest 5 (ex_env 2) argv ]
  = Some [ [(5, hardsend "+0011223344556677")]; ok 5; ok 5 ] /\ argc argv = 4.
Proof.
  exists [str "SELECT"; str "priv"; str "SECURE"; challenge_digest (str "0011223344556677") (str "pw")].
  split; [vm_compute; reflexivity|reflexivity].
Qed.
Print Assumptions C20_select_digest_reusable.

(* ----- C29: command names ----- *)

(* The full name of a command, in any letter case, runs that command. *)
Theorem C29_full_names : forall i name c key,
  nget i commands_handlers = Some (name, c) -> lower key = lower (str name) -> lookup_handler key = Some (i, c).
Proof. exact full_names. Qed.
Print Assumptions C29_full_names.

(* What runs in general: the first command of the table of which the word is an
   abbreviation, and none if there is no such command. *)
Theorem C29_lookup_partial : forall key,
  match lookup_handler key with
  | Some (k, c) => exists a name b, commands_handlers = a ++ (name, c) :: b /\ k = nlen a /\ abbreviates key (str name) /\
                     Forall (fun p => ~ abbreviates key (str (fst p))) a
  | None => Forall (fun p => ~ abbreviates key (str (fst p))) commands_handlers
  end.
Proof. exact (fun key => find_handler_spec key commands_handlers names_text 0). Qed.
Print Assumptions C29_lookup_partial.

(* a word which abbreviates no command runs none: an error, and nothing changes
   but the client's note of its last command *)
Theorem C29_unknown_runs_none : forall g v fd cl argv w i r,
  c_ns cl = Some i -> slot i w = Some r ->
  Forall (fun p => ~ abbreviates (arg 0 argv) (str (fst p))) commands_handlers ->
  dispatch g v fd cl argv w = Done (hardsend "-Command not supported") SUCCESS (put_client fd (c_set_exec None cl) w).
Proof. exact unknown_runs_none. Qed.
Print Assumptions C29_unknown_runs_none.

Example C29_ex : lookup_handler (str "nSlIsT") = Some (30, CNslist) /\ lookup_handler (str "NSLISTS") = None
  /\ nget 30 commands_handlers = Some ("NSLIST"%string, CNslist).
Proof. vm_compute. repeat split. Qed.

(* The second half of the property does not hold: words which are not command names
   run commands.  "f" runs FLUSH, and the empty word runs a command as well. *)
Theorem C29_other_words_refuted : exists key, ~ In (lower key) (map (fun p => lower (str (fst p))) commands_handlers)
  /\ exists h, lookup_handler key = Some (h, CFlush).
Proof.
  exists (str "f"). split; [|exists 36; vm_compute; reflexivity].
  intro H. vm_compute in H. repeat (destruct H as [H|H]; [discriminate H|]). contradiction.
Qed.
Print Assumptions C29_other_words_refuted.

(* ----- C32: FLUSH ----- *)

(* A private namespace with a key: FLUSH answers +OK and the key is still there.
   (The files are looked for with a wrong name and none is deleted; then the
   namespace is loaded again from them.) *)
Theorem C32_flush_refuted : exists es,
  replies_of es = Some [ ok 5; [(5, str "$1" ++ CRLF ++ str "k" ++ CRLF)]; ok 5; [(5, str "$5" ++ CRLF ++ str "value" ++ CRLF)] ]
  /\ map (fun e => match e with SRequest _ _ argv => argv | _ => [] end) (skipn 2 es) = [ [str "FLUSH"]; [str "GET"; str "k"] ].
Proof.
  exists [ req 5 ["SELECT"; "priv"; "pw"]; req 5 ["SET"; "k"; "value"]; req 5 ["FLUSH"]; req 5 ["GET"; "k"] ]%string.
  split; [vm_compute; reflexivity|reflexivity].
Qed.
Print Assumptions C32_flush_refuted.

(* ----- C38: WAIT ----- *)

(* A waiting client (not a replica) over any events other than its own requests, its
   end and a restart: it has received nothing and waits as before, or it has
   received exactly one message and waits no more. *)
Theorem C38_answered_once : forall g k es w outs w' ck wh,
  run_sevents g es w = Some (outs, w') -> (forall e, In e es -> foreign k e) ->
  client_at k w = Some ck -> c_mirror ck = false -> c_watch ck = Some wh ->
  exists ck', client_at k w' = Some ck' /\
    ((sent k (concat outs) = [] /\ waiting_as ck ck') \/
     (exists m, sent k (concat outs) = [m] /\ c_watch ck' = None)).
Proof. exact answered_once. Qed.
Print Assumptions C38_answered_once.

(* Which request answers it: one whose command is the awaited one (or any, when "*"
   is awaited), by a client which is then attached to the same namespace. *)
Theorem C38_notified : forall g v fd argv w out st w' k cl i ck wh,
  request g v fd argv w = SDone out st w' -> client_at fd w = Some cl -> k <> fd ->
  c_master cl = false -> c_ns cl = Some i ->
  client_at k w = Some ck -> c_mirror ck = false -> c_watch ck = Some wh ->
  exists ck' cl', client_at k w' = Some ck' /\ client_at fd w' = Some cl' /\
    match lookup_handler (arg 0 argv) with
    | Some (h, _) => if ns_eqb (c_ns ck') (c_ns cl') && matches wh h
                     then sent k out = [answer h] /\ c_watch ck' = None
                     else sent k out = [] /\ waiting_as ck ck'
    | None => sent k out = [] /\ waiting_as ck ck'
    end.
Proof. exact notified. Qed.
Print Assumptions C38_notified.

(* The timeout: while the clock does not go backwards, a check of the clock answers
   the client if at least one millisecond more than the timeout has elapsed, and not
   if at most the timeout has elapsed. *)
Theorem C38_timeout_partial : forall g s us old w out st w' k ck wh s0 us0,
  idle g (s, us) old w = SDone out st w' -> client_at k w = Some ck -> c_watch ck = Some wh -> c_since ck = (s0, us0) ->
  us0 < 1000000 -> us < 1000000 -> s < 18446744073709551 -> s0 * 1000000 + us0 <= s * 1000000 + us ->
  exists ck', client_at k w' = Some ck' /\
   (((c_timeout ck + 1) * 1000 <= (s * 1000000 + us) - (s0 * 1000000 + us0) ->
       sent k out = [hardsend "-Timeout"] /\ c_watch ck' = None) /\
    ((s * 1000000 + us) - (s0 * 1000000 + us0) <= c_timeout ck * 1000 ->
       sent k out = [] /\ waiting_as ck ck')).
Proof. exact timed_out. Qed.
Print Assumptions C38_timeout_partial.

(* the commands which answer the example: SET by client 4 on the same namespace *)
Example C38_ex : replies_of
    [ req 5 ["WAIT"; "SET"]; req 4 ["PING"]; req 4 ["SET"; "a"; "b"]; req 4 ["SET"; "a"; "c"] ]%string
  = Some [ [(5, [])]; [(4, hardsend "+PONG")]; [(4, str "$1" ++ CRLF ++ str "a" ++ CRLF); (5, hardsend "+SET")];
           [(4, str "$1" ++ CRLF ++ str "a" ++ CRLF)] ].
Proof. vm_compute. reflexivity. Qed.

Definition ex_w38 : world :=
  match run_sevents ex_g [req 5 ["WAIT"; "SET"; "2000"]%string] ex_w with Some (_, w) => w | None => ex_w end.
Example C38_ex_hyps : option_map (fun c => (c_watch c, c_mirror c, c_ns c, c_since c, c_timeout c)) (client_at 5 ex_w38)
    = Some (Some 10, false, Some 0, (100, 0), 2000)
  /\ option_map (fun c => (c_master c, c_ns c)) (client_at 4 ex_w38) = Some (false, Some 0)
  /\ lookup_handler (str "set") = Some (10, CSet) /\ (forall e, In e [req 4 ["PING"]%string; SIdle (101, 5) []] -> foreign 5 e).
Proof.
  repeat split; try (vm_compute; reflexivity). intros e [<-|[<-|[]]]; [discriminate|exact I].
Qed.

(* at 101.9 s nothing, at 102.1 s the timeout, later nothing more *)
Example C38_ex_timeout : option_map fst (run_sevents ex_g [ SIdle (101, 900000) []; SIdle (102, 100000) []; SIdle (150, 0) [] ] ex_w38)
  = Some [ []; [(5, hardsend "-Timeout")]; [] ].
Proof. vm_compute. reflexivity. Qed.

(* Outside of the hypotheses of C38_timeout_partial the property fails: when the clock is
   set back by a second, the client is answered "-Timeout" at once. *)
Theorem C38_clock_set_back_refuted : exists g now w k ck out w',
  client_at k w = Some ck /\ c_watch ck <> None /\ fst now * 1000 < fst (c_since ck) * 1000 + c_timeout ck /\
  idle g now [] w = SDone out SUCCESS w' /\ sent k out = [hardsend "-Timeout"].
Proof.
  exists ex_g, (99, 0), (mkWorld empty_table [] 0 [Some (c_set_watch (Some 10) (100, 0) 2000 (new_client ex_g))]), 0.
  do 3 eexists. split; [reflexivity|]. split; [discriminate|]. split; [reflexivity|]. split; [reflexivity|reflexivity].
Qed.
Print Assumptions C38_clock_set_back_refuted.

(* Two WAIT requests of the same client are answered by one message only. *)
Theorem C38_two_waits_refuted : exists es,
  replies_of es = Some [ [(5, [])]; [(5, [])]; [(4, str "$1" ++ CRLF ++ str "a" ++ CRLF); (5, hardsend "+SET")];
                         [(4, str "$1" ++ CRLF ++ str "a" ++ CRLF)] ]
  /\ map (fun e => match e with SRequest fd _ argv => (fd, arg 0 argv) | _ => (0, []) end) es
     = [(5, str "WAIT"); (5, str "WAIT"); (4, str "SET"); (4, str "SET")].
Proof.
  exists [ req 5 ["WAIT"; "SET"]; req 5 ["WAIT"; "SET"]; req 4 ["SET"; "a"; "b"]; req 4 ["SET"; "a"; "c"] ]%string.
  split; [vm_compute; reflexivity|reflexivity].
Qed.
Print Assumptions C38_two_waits_refuted.
