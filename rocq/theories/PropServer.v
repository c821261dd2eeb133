(* PROPERTIES C10, C30, C31, C42 and C44: the namespaces of a server. *)
From Coq Require Import Strings.String Strings.Byte List NArith ZArith Bool.
From Verif Require Import Bytes Layout Store Text Commands SpecKV Sha1 Dispatch Namespace System Resp Server
  SpecAuth AuthFacts SpecServer IsolFacts SrvInv SrvRun NamesFacts ConfFacts ProtectFacts ServerFacts PropAuth.
Import ListNotations.
Open Scope N_scope.

(* ----- C10: namespaces are isolated ----- *)

(* In any state of a server, whatever events follow that are not about the namespace j
   (sets, deletions, jumps, reloads, deletions and creations of other namespaces...),
   every data command of a client of j gets the same reply, and the files and settings
   of j are the same. *)
Theorem C10_isolation : forall g es0 w0 outs0 w j r es outs w' v fd cl argv h c,
  first_boot g = Some w0 -> run_sevents g es0 w0 = Some (outs0, w) ->
  slot j w = Some r -> all_spare g j es w -> run_sevents g es w = Some (outs, w') ->
  c_ns cl = Some j -> lookup_handler (arg 0 argv) = Some (h, c) -> data_cmd c = true ->
  slot j w' = Some r /\ reply_of (dispatch g v fd cl argv w') = reply_of (dispatch g v fd cl argv w).
Proof. exact isolated_reached. Qed.
Print Assumptions C10_isolation.

(* The client 5 works in the namespace "priv" (number 1) where the client 4, in the
   default namespace, writes the same key, reloads, creates and deletes others. *)
Definition ex10_prefix : list sevent :=
  ex_prefix ++ [ req 5 ["SELECT"; "priv"; "pw"]; req 5 ["SET"; "k"; "mine"]; req 4 ["SET"; "k"; "theirs"] ]%string.
Definition ex10_w : world := match boot_run ex10_prefix with Some (_, w) => w | None => ex_w end.
Definition ex10_es : list sevent :=
  [ req 4 ["NSNEW"; "other"]; req 4 ["SET"; "k"; "again"]; req 4 ["DEL"; "k"]; req 4 ["RELOAD"; "default"];
    req 4 ["SELECT"; "other"]; req 4 ["SET"; "k"; "more"]; req 4 ["NSJUMP"]; SIdle (200, 0) [0; 2]; req 4 ["SELECT"; "default"];
    req 4 ["NSDEL"; "other"]; SClose 4 ]%string.
Example C10_ex_hyps : all_spare ex_g 1 ex10_es ex10_w
  /\ option_map (fun r => n_name (r_cfg r)) (slot 1 ex10_w) = Some (str "priv")
  /\ option_map c_ns (client_at 5 ex10_w) = Some (Some 1).
Proof.
  split; [apply all_spareb_ok; vm_compute; reflexivity|split; vm_compute; reflexivity].
Qed.
Example C10_ex_run : option_map fst (run_sevents ex_g (ex10_es ++ [ req 5 ["GET"; "k"]; req 5 ["DBSIZE"] ]%string) ex10_w)
  = Some [ ok 4; [(4, bulk (str "k"))]; ok 4; ok 4; ok 4; [(4, bulk (str "k"))]; ok 4; []; ok 4; ok 4; []; [(5, bulk (str "mine"))]; [(5, str ":1" ++ CRLF)] ].
Proof. vm_compute. reflexivity. Qed.

(* The walks and the versions told to the client 5 are the same too, and not empty. *)
Definition ex10_asks : list sevent :=
  [ req 5 ["SCAN"]; req 5 ["RSCAN"]; req 5 ["KEYCUR"; "k"]; req 5 ["HISTORY"; "k"] ]%string.
Example C10_ex_walks :
  option_map (fun x => skipn 11 (fst x)) (run_sevents ex_g (ex10_es ++ ex10_asks) ex10_w)
    = option_map fst (run_sevents ex_g ex10_asks ex10_w)
  /\ option_map (fun x => map (map (fun y => (fst y, blen (snd y)))) (fst x)) (run_sevents ex_g ex10_asks ex10_w)
    = Some [ [(5, 53)]; [(5, 53)]; [(5, 24)]; [(5, 28)] ].
Proof. vm_compute. split; reflexivity. Qed.

(* The same for NSINFO of j, asked by any client. *)
Theorem C10_nsinfo : forall g es0 w0 outs0 w j r es outs w' v fd cl i argv h,
  first_boot g = Some w0 -> all_honest g es0 w0 -> run_sevents g es0 w0 = Some (outs0, w) ->
  slot j w = Some r -> all_spare g j es w -> run_sevents g es w = Some (outs, w') ->
  c_ns cl = Some i -> slot i w <> None -> slot i w' <> None ->
  lookup_handler (arg 0 argv) = Some (h, CNsinfo) -> text (arg 1 argv) = n_name (r_cfg r) ->
  reply_of (dispatch g v fd cl argv w') = reply_of (dispatch g v fd cl argv w).
Proof. exact nsinfo_isolated. Qed.
Print Assumptions C10_nsinfo.

Example C10_ex_honest : forall w0, all_honest ex_g ex10_prefix w0.
Proof. intro w0. apply calm_list_honest. reflexivity. Qed.
Example C10_ex_nsinfo :
  let ask := SRequest 4 (ex_env 100) [str "NSINFO"; str "priv"] in
  option_map (fun x => nget 10 (fst x)) (run_sevents ex_g (firstn 10 ex10_es ++ [ask]) ex10_w)
  = option_map (fun x => nget 0 (fst x)) (run_sevents ex_g [ask] ex10_w)
  /\ option_map (fun x => option_map (fun o => 100 <? blen (snd (nth 0 o (0, [])))) (nget 0 (fst x))) (run_sevents ex_g [ask] ex10_w)
     = Some (Some true).
Proof. vm_compute. split; reflexivity. Qed.

(* ----- C31: NSNEW and NSDEL act on a set of names ----- *)

(* Whatever the events since the first start, the replies are those of a set of names
   (names_run): NSNEW adds an allowed name that was not there, NSDEL removes one, both
   refuse otherwise, NSLIST gives exactly the set, without repetition, and the commands
   which name a namespace find it when and only when it is in the set.  The default
   namespace is always there. *)
Theorem C31_names : forall g es w0 outs w,
  first_boot g = Some w0 -> all_honest g es w0 -> run_sevents g es w0 = Some (outs, w) ->
  exists P S, names_run g es w0 outs (fun _ => None) (fun n => bseqb n (str "default")) P S /\
    S (str "default") = true /\
    (forall n, S n = true <-> exists i r, slot i w = Some r /\ n_name (r_cfg r) = n) /\
    (forall i j r r', slot i w = Some r -> slot j w = Some r' -> n_name (r_cfg r) = n_name (r_cfg r') -> i = j).
Proof. exact names_theorem. Qed.
Print Assumptions C31_names.

(* With the contents: a server is a directory of namespaces (dir_run), each with its own
   contents and settings.  NSNEW makes an empty one, also when one of that name was
   deleted before; data commands act on the contents of the client's namespace as the
   specifications of C01 and C05 say; a restart keeps names, contents and settings. *)
Theorem C31_directory : forall g es outs w0 w,
  server_ok g -> first_boot g = Some w0 -> all_covered g es w0 -> run_sevents g es w0 = Some (outs, w) ->
  exists D, dir_run g es w0 outs (only_default g) D /\
    D (str "default") <> None /\
    (forall n, D n <> None <-> exists i r, slot i w = Some r /\ n_name (r_cfg r) = n) /\
    (forall i r, slot i w = Some r -> exists x, D (n_name (r_cfg r)) = Some x /\ d_conf x = r_cfg r).
Proof. exact directory_theorem. Qed.
Print Assumptions C31_directory.

(* a namespace is used, deleted, created again, and the server restarts *)
Definition ex31_a : list sevent :=
  ex_prefix ++
  [ req 4 ["NSNEW"; "b"]; req 4 ["NSNEW"; "b"]; req 4 ["NSSET"; "b"; "mode"; "seq"]; req 5 ["SELECT"; "b"];
    req 5 ["SET"; ""; "one"]; req 5 ["SET"; ""; "two"]; req 4 ["SELECT"; "b"]; req 4 ["NSJUMP"]; req 5 ["SET"; ""; "three"];
    req 4 ["SELECT"; "priv"; "pw"]; req 4 ["SET"; "k"; "v"]; req 4 ["SELECT"; "default"]; req 4 ["NSDEL"; "priv"];
    req 4 ["NSDEL"; "priv"]; req 4 ["NSNEW"; "priv"]; req 4 ["SELECT"; "priv"]; req 4 ["GET"; "k"]; req 4 ["DBSIZE"];
    req 4 ["NSDEL"; "default"]; req 4 ["NSLIST"] ]%string.
Definition ex31_w0 : world := match first_boot ex_g with Some w => w | None => ex_w end.
Definition ex31_w : world := match run_sevents ex_g ex31_a ex31_w0 with Some (_, w) => w | None => ex_w end.
Definition ex31_es : list sevent :=
  ex31_a ++ SRestart (stored_of ex31_w) :: [ SConnect 4; req 4 ["NSLIST"]; req 4 ["SELECT"; "b"]; req 4 ["DBSIZE"] ]%string.
Example C31_ex_ok : server_ok ex_g /\ first_boot ex_g = Some ex31_w0.
Proof. split; [split; [right; right; reflexivity|vm_compute; discriminate]|vm_compute; reflexivity]. Qed.
Example C31_ex_covered : all_covered ex_g ex31_es ex31_w0.
Proof. apply (restart_covered ex_g ex31_a _ ex31_w0 ex31_w); vm_compute; reflexivity. Qed.
Definition say (fd : N) (t : string) : list (N * bytes) := [(fd, hardsend t)].
Definition names3 : bytes := enc_reply (RArr [RBulk (str "default"); RBulk (str "priv"); RBulk (str "b")]).
Example C31_ex_run : option_map (fun x => skipn 6 (fst x)) (run_sevents ex_g ex31_es ex31_w0) =
  Some [ ok 4; say 4 "-This namespace is not available"; ok 4; ok 5;
         [(5, bulk (le 8 0))]; [(5, bulk (le 8 1))]; ok 4; ok 4; [(5, bulk (le 8 2))];
         ok 4; [(4, bulk (str "k"))]; ok 4; ok 4; say 4 "-This namespace doesn't exists"; ok 4; ok 4; say 4 "$-1"; say 4 ":0";
         say 4 "-Cannot remove default namespace"; [(4, names3)];
         []; []; [(4, names3)]; ok 4; say 4 ":3" ]%string.
Proof. vm_compute. reflexivity. Qed.

(* What NSINFO calls the space available need not be any: once NSSET maxsize is below
   what is used, the subtraction wraps and the line shows nearly 2^64, while a SET of a
   new key is refused for want of space. *)
Definition space_es : list sevent :=
  ex_prefix ++ [req 4 ["SELECT"; "priv"; "pw"]; req 4 ["SET"; "key"; "value"]; req 4 ["NSSET"; "priv"; "maxsize"; "2"]]%string.
Definition space_ask : list sevent := [req 4 ["NSINFO"; "priv"]; req 4 ["SET"; "k"; "v"]]%string.
Fixpoint has_text (x t : bytes) : bool :=
  bseqb x (firstn (List.length x) t) || match t with [] => false | _ :: t' => has_text x t' end.
Theorem C31_space_refuted : exists es t,
  first_boot ex_g = Some ex31_w0 /\
  option_map (fun x => skipn (List.length es) (fst x)) (run_sevents ex_g (es ++ space_ask) ex31_w0)
    = Some [[(4, t)]; say 4 "-No space left on this namespace"] /\
  has_text (str "space_available: 18446744073709551613") t = true.
Proof.
  exists space_es, (match run_sevents ex_g (space_es ++ space_ask) ex31_w0 with
                    | Some (outs, _) => snd (nth 0 (nth 9 outs []) (0, [])) | None => [] end).
  split; [vm_compute; reflexivity|]. split; vm_compute; reflexivity.
Qed.
Print Assumptions C31_space_refuted.

(* ----- C42: the mode of a namespace ----- *)

(* NSSET mode is accepted only for a namespace where, in the whole run since it was
   created (restarts and deletions of values included), no SET was answered with a key;
   the namespace is then an empty one of the other mode. *)
Theorem C42_mode : forall g es outs w0 w fd v argv cl i r h rep rest st w',
  server_ok g -> first_boot g = Some w0 -> all_covered g es w0 -> run_sevents g es w0 = Some (outs, w) ->
  client_at fd w = Some cl -> c_ns cl = Some i -> slot i w = Some r ->
  lookup_handler (arg 0 (effective cl argv)) = Some (h, CNsset) -> text (arg 2 (effective cl argv)) = str "mode" ->
  run_sevent g (SRequest fd v argv) w = SDone ((fd, rep) :: rest) st w' -> rep = enc_reply ROk ->
  exists D D' x, dir_run g es w0 outs (only_default g) D /\ SrvInv g w' D' /\ D (text (arg 1 (effective cl argv))) = Some x /\ d_used x = false /\
    exists sequential : bool, D' = dset (text (arg 1 (effective cl argv))) (Some (mkDent false (empty_content sequential) (d_conf x))) D.
Proof. exact mode_theorem. Qed.
Print Assumptions C42_mode.

(* accepted for a new namespace; refused once a value was stored, also when the value
   was deleted and when the files are not the first ones *)
Example C42_ex : option_map (fun x => fst x) (run_sevents ex_g
    [ req 4 ["NSNEW"; "n"]; req 4 ["NSSET"; "n"; "mode"; "seq"]; req 4 ["NSSET"; "n"; "mode"; "user"]; req 4 ["SELECT"; "n"];
      req 4 ["SET"; "k"; "v"]; req 4 ["NSSET"; "n"; "mode"; "seq"]; req 4 ["DEL"; "k"]; req 4 ["NSJUMP"];
      req 4 ["NSSET"; "n"; "mode"; "seq"] ]%string ex_w)
  = Some [ ok 4; ok 4; ok 4; ok 4; [(4, bulk (str "k"))]; say 4 "-Cannot change mode of used namespace"; ok 4; ok 4;
           say 4 "-Cannot change mode of used namespace" ]%string.
Proof. vm_compute. reflexivity. Qed.
Example C42_ex_covered : all_covered ex_g (ex_prefix ++ [ req 4 ["NSNEW"; "n"] ]%string) ex31_w0.
Proof. apply all_coveredb_ok. vm_compute. reflexivity. Qed.

(* ----- C44: a client stays in the namespace it has selected ----- *)

(* Whatever the events, a client is in the namespace given by its own SELECTs (the
   default one at first) as long as that one is not deleted; afterwards all its requests
   are refused, also when a namespace of the same name is created again.  (P is computed
   by seat_event from the events and the replies.) *)
Theorem C44_sessions : forall g es w0 outs w,
  first_boot g = Some w0 -> all_honest g es w0 -> run_sevents g es w0 = Some (outs, w) ->
  exists P S, names_run g es w0 outs (fun _ => None) (fun n => bseqb n (str "default")) P S /\
  forall fd, match P fd with
    | None => client_at fd w = None
    | Some None => exists cl, client_at fd w = Some cl /\
        forall v argv, exists rep st, dispatch g v fd cl argv w = Done rep st w /\ is_error rep
    | Some (Some n) => exists cl i r, client_at fd w = Some cl /\ c_ns cl = Some i /\ slot i w = Some r /\ n_name (r_cfg r) = n
    end.
Proof. exact sessions_theorem. Qed.
Print Assumptions C44_sessions.

Definition gone : string := "-Your active namespace is not available anymore (probably removed).".
Example C44_ex : option_map (fun x => fst x) (run_sevents ex_g
    [ req 5 ["SELECT"; "priv"; "pw"]; req 5 ["SET"; "k"; "v"]; req 4 ["NSDEL"; "priv"]; req 5 ["GET"; "k"];
      req 4 ["NSNEW"; "priv"]; req 5 ["GET"; "k"]; req 5 ["SELECT"; "default"] ]%string ex_w)
  = Some [ ok 5; [(5, bulk (str "k"))]; ok 4; say 5 gone; ok 4; say 5 gone; say 5 gone ].
Proof. vm_compute. reflexivity. Qed.

(* ----- C30: the settings ----- *)

(* Whatever the events, the settings in force are the ones given by the accepted NSSETs
   since the namespace was created, restarts included (a restart only takes the locks
   away).  Left out: passwords which begin with a NUL byte (see below). *)
Theorem C30_settings_partial : forall g es w0 outs w,
  first_boot g = Some w0 -> all_set_ok g es w0 -> run_sevents g es w0 = Some (outs, w) ->
  exists C, conf_run g es w0 outs (cput (str "default") (Some (fresh_conf (str "default"))) (fun _ => None)) C /\
    (forall i r, slot i w = Some r -> C (n_name (r_cfg r)) = Some (r_cfg r)) /\
    (forall n x, C n = Some x -> exists i r, slot i w = Some r /\ n_name (r_cfg r) = n).
Proof. exact confs_all. Qed.
Print Assumptions C30_settings_partial.

(* in particular, before and after a restart *)
Theorem C30_restart_partial : forall g es w0 outs w ord w',
  first_boot g = Some w0 -> all_set_ok g es w0 -> run_sevents g es w0 = Some (outs, w) ->
  Permutation.Permutation ord (stored_of w) -> boot g ord = Some w' ->
  forall i r, slot i w = Some r -> exists j r', slot j w' = Some r' /\ r_cfg r' = unlocked (r_cfg r).
Proof. exact settings_restart. Qed.
Print Assumptions C30_restart_partial.

(* and the server does start again *)
Theorem C30_starts_again : forall g es w0 outs w ord,
  server_ok g -> first_boot g = Some w0 -> all_covered g es w0 -> run_sevents g es w0 = Some (outs, w) ->
  covered g (SRestart ord) w -> exists w', boot g ord = Some w'.
Proof. exact restart_total. Qed.
Print Assumptions C30_starts_again.

Definition ex30_a : list sevent :=
  ex_prefix ++
  [ req 4 ["NSSET"; "priv"; "maxsize"; "5000000000"]; req 4 ["NSSET"; "priv"; "worm"; "1"]; req 4 ["NSSET"; "priv"; "public"; "0"];
    req 4 ["NSSET"; "priv"; "password"; "a longer password"]; req 4 ["NSSET"; "priv"; "password"; "short"]; req 4 ["NSSET"; "priv"; "lock"; "1"] ]%string.
Definition ex30_w : world := match run_sevents ex_g ex30_a ex31_w0 with Some (_, w) => w | None => ex_w end.
Example C30_ex_hyps : all_set_ok ex_g ex30_a ex31_w0.
Proof. apply all_set_okb_ok. vm_compute. reflexivity. Qed.
Example C30_ex : 
  option_map r_cfg (slot 1 ex30_w) = Some (mkCfg (str "priv") (Some (str "short")) false true 5000000000 NS_LOCK_READ_ONLY)
  /\ match boot ex_g (stored_of ex30_w) with Some w => option_map r_cfg (slot 1 w) | None => None end
     = Some (mkCfg (str "priv") (Some (str "short")) false true 5000000000 NS_LOCK_UNLOCKED).
Proof. vm_compute. split; reflexivity. Qed.

(* The numbers: a limit written in decimal is this limit, up to 2^63 - 1, with or without
   white space and a plus sign before it and whatever text behind it; a negative one is
   as good as none; the time given to SET and DEL is taken modulo 2^32. *)
Theorem C30_numbers : forall n c sp rest, bseqb (n_name c) (str "default") = false -> Forall blank sp -> no_digit rest ->
  option_map n_maxsize (setting (str "maxsize") (sp ++ dec n ++ rest) c) = Some (N.min n 9223372036854775807) /\
  option_map n_maxsize (setting (str "maxsize") (sp ++ str "+" ++ dec n ++ rest) c) = Some (N.min n 9223372036854775807) /\
  option_map n_maxsize (setting (str "maxsize") (sp ++ str "-" ++ dec n ++ rest) c)
    = Some ((18446744073709551616 - N.min n 9223372036854775808) mod 18446744073709551616) /\
  number (sp ++ dec n ++ rest) = N.min n 9223372036854775807 mod 4294967296.
Proof. exact numbers. Qed.
Print Assumptions C30_numbers.
Example C30_ex_numbers : bseqb (n_name (fresh_conf (str "x"))) (str "default") = false
  /\ Forall blank (str "  ") /\ no_digit (str "kB")
  /\ option_map n_maxsize (setting (str "maxsize") (str "  +5kB") (fresh_conf (str "x"))) = Some 5
  /\ option_map n_maxsize (setting (str "maxsize") (str "-5") (fresh_conf (str "x"))) = Some 18446744073709551611
  /\ number (str "4294967301") = 5.
Proof. split; [reflexivity|]. split; [repeat constructor|]. split; [right; vm_compute; reflexivity|]. split; [|split]; reflexivity. Qed.

(* The full statement is false: NSSET accepts a password which begins with NUL, it is in
   force (only a client which gives a text starting with NUL is let in), and after a
   restart the namespace has no password. *)
Definition nul_password : list sevent :=
  ex_prefix ++ [ SRequest 4 (ex_env 100) [str "NSSET"; str "priv"; str "password"; x00 :: str "secret"] ].
Definition nul_run : list (list (N * bytes)) * world :=
  match run_sevents ex_g nul_password ex31_w0 with Some x => x | None => ([], ex_w) end.
Definition nul_after : world := match boot ex_g (stored_of (snd nul_run)) with Some w => w | None => ex_w end.
Theorem C30_nul_password_refuted : exists g es w0 outs w w' p,
  first_boot g = Some w0 /\ run_sevents g es w0 = Some (outs, w) /\ boot g (stored_of w) = Some w' /\
  option_map (fun r => n_pass (r_cfg r)) (slot 1 w) = Some (Some p) /\
  option_map (fun r => n_pass (r_cfg r)) (slot 1 w') = Some None.
Proof.
  exists ex_g, nul_password, ex31_w0, (fst nul_run), (snd nul_run), nul_after, [].
  split; [vm_compute; reflexivity|]. split; [vm_compute; reflexivity|]. split; [vm_compute; reflexivity|]. split; vm_compute; reflexivity.
Qed.
Print Assumptions C30_nul_password_refuted.

(* ----- C46: protect mode ----- *)

(* After a start with --protect (the default namespace comes first in the listing),
   whatever the clients do: one that may write in the default namespace has sent SELECT
   with the administrator password, or with the digest of it and its challenge. *)
Theorem C46_protect : forall g l w0 es outs w fd c,
  protected_boot g l = Some w0 -> (exists d f t, l = (str "default", d, f) :: t) ->
  forallb (fun e => match e with SRestart _ => false | _ => true end) es = true ->
  run_sevents g es w0 = Some (outs, w) ->
  client_at fd w = Some c -> c_ns c = Some 0 -> c_writable c = true ->
  exists pw es1 v argv es2 o1 w1 c1 h,
    v_adminpwd g = Some pw /\ es = es1 ++ SRequest fd v argv :: es2 /\ run_sevents g es1 w0 = Some (o1, w1) /\
    client_at fd w1 = Some c1 /\ lookup_handler (arg 0 (effective c1 argv)) = Some (h, CSelect) /\
    text (arg 1 (effective c1 argv)) = str "default" /\ select_proof (c_nonce c1) (effective c1 argv) pw.
Proof. exact protect_all'. Qed.
Print Assumptions C46_protect.

Definition ex46_g : server := mkServer (mkSettings MODE_MIX 1000) (Some (str "root")) true true false.
Definition ex46_es : list sevent :=
  [ SConnect 4; SConnect 5; req 4 ["SET"; "k"; "v"]; req 5 ["SELECT"; "default"]; req 5 ["SET"; "k"; "v"]; req 5 ["SELECT"; "default"; "no"];
    req 4 ["SELECT"; "default"; "root"]; req 4 ["SET"; "k"; "v"]; req 5 ["GET"; "k"] ]%string.
Definition ex46_w : world := match protected_boot ex46_g [(str "default", [], empty_disk)] with Some w => w | None => ex_w end.
Example C46_ex : protected_boot ex46_g [(str "default", [], empty_disk)] = Some ex46_w /\
  forallb (fun e => match e with SRestart _ => false | _ => true end) ex46_es = true /\
  option_map fst (run_sevents ex46_g ex46_es ex46_w) =
  Some [ []; []; say 4 "-Namespace is in read-only mode"; ok 5; say 5 "-Namespace is in read-only mode"; say 5 "-Access denied";
         ok 4; [(4, bulk (str "k"))]; [(5, bulk (str "v"))] ] /\
  option_map (fun x => option_map (fun c => (c_ns c, c_writable c)) (client_at 4 (snd x))) (run_sevents ex46_g ex46_es ex46_w) = Some (Some (Some 0, true)).
Proof. split; [vm_compute; reflexivity|]. split; [reflexivity|]. split; vm_compute; reflexivity. Qed.
