(* PROPERTY C53: which requests crash the server, exactly. *)
From Coq Require Import Strings.String Strings.Byte List NArith ZArith Bool.
From Verif Require Import Bytes Layout Store Text Commands Dispatch Namespace System Resp RespSpec ReplyQueue Server SpecAuth AuthFacts SpecServer ServerFacts
  Net SpecNet NetDefined SpecDefined SrvDefined PropAuth PropServer.
Import ListNotations.
Open Scope N_scope.

(* In every state a server reaches, an event is undefined if and only if it is one of
   those listed in SpecDefined.v.  So all other requests, whatever their words, are
   answered: SCAN, RSCAN and HISTORY end also with a forged cursor, and NSNEW, RELOAD,
   FLUSH and a restart find files they can load. *)
Theorem C53_exact : forall g es outs w0 w e,
  server_ok g -> first_boot g = Some w0 -> all_covered g es w0 -> run_sevents g es w0 = Some (outs, w) ->
  covered g e w -> all_room w ->
  (run_sevent g e w = SUndef <-> crashing e w).
Proof. exact reached_undef. Qed.
Print Assumptions C53_exact.

(* A server gets through every run without such an event. *)
Theorem C53_runs : forall g w0 es, server_ok g -> first_boot g = Some w0 -> all_calm g es w0 -> run_sevents g es w0 <> None.
Proof. exact all_defined. Qed.
Print Assumptions C53_runs.

(* Over the network: if the loop does not get through what well-formed clients send, then
   it had been stopped, or the system gave out a socket twice, or the next request of some
   client is one of those listed. *)
Theorem C53_loop : forall g w0 evs, server_ok g -> first_boot g = Some w0 -> polite evs -> net_run g evs (net_new w0) = None ->
  ended_before g w0 evs \/ socket_reused g w0 evs \/ request_crashes g w0 evs.
Proof. exact loop_crash. Qed.
Print Assumptions C53_loop.

(* a run with two namespaces, and a forged cursor among the requests *)
Definition ex53_bytes (n : nat) : bytes := repeat x41 n.
Definition ex53_forged : sevent := SRequest 5 (ex_env 100) [str "SCAN"; enc_bkey (mkBkey 1 0 1 20 7)].
Definition ex53_es : list sevent :=
  ex31_a ++ [ req 5 ["SET"; ""; "x"]; req 5 ["DEL"; ""]; req 5 ["SCAN"]; req 5 ["RSCAN"]; ex53_forged; req 5 ["HISTORY"; "k"];
              req 4 ["DATA"; "RAW"; "0"; "26"]; req 4 ["INDEX"; "DIRTY"]; SIdle (300, 0) [1]; req 4 ["RELOAD"; "b"]; SClose 5 ]%string.
Example C53_ex_calm : all_calm ex_g ex53_es ex31_w0.
Proof. apply calm_b_ok. vm_compute. reflexivity. Qed.
Example C53_ex_run : option_map (fun x => length (fst x)) (run_sevents ex_g ex53_es ex31_w0) = Some (length ex53_es).
Proof. vm_compute. reflexivity. Qed.

(* Findings.  An administrator sends a word of 256 characters with INDEX, DATA or NSSET;
   a master sends a request of one word. *)
Definition ex53_long (ws : list bytes) : sevent := SRequest 4 (ex_env 100) ws.
Definition undefined (es : list sevent) : bool := match run_sevents ex_g es ex31_w0 with None => true | Some _ => false end.
Definition ex53_bad : list (list sevent) :=
  [ [ SConnect 4; req 4 ["AUTH"; "root"]%string; ex53_long [str "INDEX"; ex53_bytes 256] ];
    [ SConnect 4; req 4 ["AUTH"; "root"]%string; ex53_long [str "INDEX"; str "DIRTY"; ex53_bytes 256] ];
    [ SConnect 4; req 4 ["AUTH"; "root"]%string; ex53_long [str "DATA"; ex53_bytes 256] ];
    [ SConnect 4; req 4 ["AUTH"; "root"]%string; ex53_long [str "NSSET"; str "default"; ex53_bytes 256; str "1"] ];
    [ SConnect 4; req 4 ["AUTH"; "root"]%string; req 4 ["MASTER"]%string; req 4 ["PING"]%string ] ].
Definition crash_probe (es : list sevent) : bool :=
  undefined es && NamesFacts.all_coveredb ex_g es ex31_w0 && negb (undefined (removelast es)).
Lemma crash_probe_ok es : crash_probe es = true ->
  run_sevents ex_g es ex31_w0 = None /\ all_covered ex_g es ex31_w0 /\ run_sevents ex_g (removelast es) ex31_w0 <> None.
Proof.
  unfold crash_probe, undefined. intro H. apply andb_true_iff in H. destruct H as (H & H3). apply andb_true_iff in H. destruct H as (H1 & H2).
  split; [destruct (run_sevents ex_g es ex31_w0); [discriminate|reflexivity]|]. split; [apply NamesFacts.all_coveredb_ok; exact H2|].
  destruct (run_sevents ex_g (removelast es) ex31_w0); [discriminate|discriminate].
Qed.
Theorem C53_no_crash_refuted : exists g w0 bad, server_ok g /\ first_boot g = Some w0 /\ nlen bad = 5 /\
  forall es, In es bad -> run_sevents g es w0 = None /\ all_covered g es w0 /\ run_sevents g (removelast es) w0 <> None.
Proof.
  exists ex_g, ex31_w0, ex53_bad. split; [exact (proj1 C31_ex_ok)|]. split; [exact (proj2 C31_ex_ok)|]. split; [reflexivity|].
  intros es I. apply crash_probe_ok. revert es I. apply forallb_forall. vm_compute. reflexivity.
Qed.
Print Assumptions C53_no_crash_refuted.
Example C53_ex_255 : undefined [ SConnect 4; req 4 ["AUTH"; "root"]%string; ex53_long [str "INDEX"; ex53_bytes 255] ] = false
  /\ undefined [ SConnect 4; req 4 ["AUTH"; "root"]%string; ex53_long [str "INDEX"; ex53_bytes 257] ] = false.
Proof. split; vm_compute; reflexivity. Qed.
