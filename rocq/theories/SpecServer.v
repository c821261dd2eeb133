(* SPECIFICATION for the properties of the namespaces: which requests are about a
   namespace.  The words of a request are read as in SpecAuth.v. *)
From Coq Require Import Strings.String Strings.Byte List NArith ZArith Bool Sorting.Permutation.
From Verif Require Import Bytes Layout Text Store Commands SpecKV SpecSeq Machine Reach CrashModel SeqReach Dispatch Namespace System Server
  SpecAuth AuthFacts.
Import ListNotations.
Open Scope N_scope.

(* the commands which act on the namespace they name *)
Definition target_cmd (c : cmd) : bool := match c with CNsdel | CNsset | CReload => true | _ => false end.

(* The event e is not about the namespace j: a request comes from a client attached to
   another namespace and does not name j in NSDEL, NSSET or RELOAD; the periodic check
   does not rotate the files of j; it is not a restart. *)
Definition spares (e : sevent) (w : world) (j : N) : Prop :=
  match e with
  | SConnect _ | SClose _ => True
  | SRequest fd v argv =>
      forall cl, client_at fd w = Some cl -> c_ns cl <> Some j /\
        forall h c r, lookup_handler (arg 0 (effective cl argv)) = Some (h, c) -> target_cmd c = true ->
          slot j w = Some r -> text (arg 1 (effective cl argv)) <> n_name (r_cfg r)
  | SIdle _ old => ~ In j old
  | SRestart _ => False
  end.

(* a run of such events *)
Fixpoint all_spare (g : server) (j : N) (es : list sevent) (w : world) : Prop :=
  match es with
  | [] => True
  | e :: r => spares e w j /\ match run_sevent g e w with SDone _ _ w1 => all_spare g j r w1 | SUndef => True end
  end.

(* the commands on the data of the client's namespace, with the counters *)
Definition data_cmd (c : cmd) : bool :=
  match c with CSet | CDel | CGet | CMget | CExists | CCheck | CLength | CKeytime | CDbsize | CData | CIndex | CNsjump
  | CScan | CRscan | CKscan | CHistory | CKeycur => true | _ => false end.

Definition reply_of (r : res) : option bytes := match r with Done rep _ _ => Some rep | Undef => None end.


(* ---- the contents of the namespaces ---- *)

(* A server holds a set of named namespaces; each has contents (SpecKV, SpecSeq) and
   settings, and is used once a value was stored in it. *)
Inductive content := CKv (m : kv) | CSeq (st : sqs).
Record dent := mkDent { d_used : bool; d_content : content; d_conf : nscfg }.
Definition dir := bytes -> option dent.
Definition dset (n : bytes) (o : option dent) (D : dir) : dir := fun m => if bseqb m n then o else D m.

Definition empty_content (sequential : bool) : content := if sequential then CSeq sq_empty else CKv [].
(* no password, public, not write-once, no limit, unlocked *)
Definition fresh_conf (name : bytes) : nscfg := mkCfg name None true false 0 NS_LOCK_UNLOCKED.
Definition new_entry (g : server) (name : bytes) : dent := mkDent false (empty_content (g_mode (v_set g) =? MODE_SEQ)) (fresh_conf name).

(* a new server: the default namespace only *)
Definition only_default (g : server) : dir := dset (str "default") (Some (new_entry g (str "default"))) (fun _ => None).

(* the data request made by the words a for the command c; None when the number of
   words is wrong *)
Definition number (t : bytes) : N := z_u32 (atoll (text t)).
Definition req_of (c : cmd) (a : list bytes) : option req :=
  match c, a with
  | CSet, [_; k; v] => Some (QSet k v None)
  | CSet, [_; k; v; t] => Some (QSet k v (Some (number t)))
  | CDel, [_; k] => Some (QDel k None)
  | CDel, [_; k; t] => Some (QDel k (Some (number t)))
  | CGet, [_; k] => Some (QGet k)
  | CMget, _ :: ks => Some (QMget ks)
  | CExists, [_; k] => Some (QExists k)
  | CCheck, [_; k] => Some (QCheck k)
  | CLength, [_; k] => Some (QLength k)
  | CKeytime, [_; k] => Some (QKeytime k)
  | CNsjump, _ => Some QJump
  | CDbsize, _ => Some QDbsize
  | _, _ => None
  end.
Definition is_data (c : cmd) : bool :=
  match c with CSet | CDel | CGet | CMget | CExists | CCheck | CLength | CKeytime | CNsjump | CDbsize => true | _ => false end.

Definition content_step (p : perm) (now : N) (c : nscfg) (q : req) (x : content) : reply * content :=
  match x with
  | CKv m => let '(r, m') := kv_step p now c q m in (r, CKv m')
  | CSeq st => let '(r, st') := sq_step p now c q st in (r, CSeq st')
  end.

(* a SET which is answered with a key has stored a value *)
Definition stores (q : req) (r : reply) : bool := match q, r with QSet _ _ _, RBulk _ => true | _, _ => false end.

(* n words, none empty, the second of at most 128 bytes *)
Definition form (n : N) (a : list bytes) : bool :=
  (nlen a =? n) && forallb (fun x => negb (blen x =? 0)) a && (blen (arg 1 a) <=? 128).
Definition allowed_name (n : bytes) : bool :=
  negb (bseqb n (str ".")) && negb (bseqb n (str "..")) && negb (bseqb n (str "default"))
  && forallb (fun b => negb (beqb b x2f)) n.
Definition absent (D : dir) (n : bytes) : bool := match D n with None => true | Some _ => false end.

(* the effect of NSSET on the settings; None when the property is not accepted *)
Definition yes (v : bytes) : bool := match v with x31 :: _ => true | _ => false end.
(* in a number: the white space before it, and what follows it *)
Definition blank (b : byte) : Prop := In b [x20; x09; x0a; x0b; x0c; x0d].
Definition no_digit (rest : bytes) : Prop := match rest with [] => True | b :: _ => b2n b < 48 \/ 57 < b2n b end.
Definition word (w : bytes) (p : string) : bool := bseqb w (str p).
Definition setting (property value : bytes) (c : nscfg) : option nscfg :=
  let '(mkCfg name pass public worm maxsize lock) := c in
  if word property "lock" then Some (mkCfg name pass public worm maxsize (if yes value then NS_LOCK_READ_ONLY else NS_LOCK_UNLOCKED))
  else if word property "freeze" then Some (mkCfg name pass public worm maxsize (if yes value then NS_LOCK_READ_WRITE else NS_LOCK_UNLOCKED))
  else if bseqb name (str "default") then None
  else if word property "maxsize" then Some (mkCfg name pass public worm (z_u64 (atoll value)) lock)
  else if word property "password" then Some (mkCfg name (if bseqb value (str "*") then None else Some value) public worm maxsize lock)
  else if word property "public" then Some (mkCfg name pass (yes value) worm maxsize lock)
  else if word property "worm" then Some (mkCfg name pass public (yes value) maxsize lock)
  else None.

(* a restart keeps everything but the locks *)
Definition after_restart (D : dir) : dir :=
  fun n => match D n with Some x => Some (mkDent (d_used x) (d_content x) (unlocked (d_conf x))) | None => None end.

(* what NSINFO says of a namespace; unknown values are left open *)
Definition line (k : string) (v : bytes) : bytes := str k ++ str ": " ++ v ++ [x0a].
Definition yesno (b : bool) : bytes := str (if b then "yes" else "no").
Definition live (x : dent) : kv := match d_content x with CKv m => m | CSeq st => sq_map st end.
(* the memory for the entries: 64 bytes and the key for each *)
Fixpoint kmem (m : kv) : N := match m with [] => 0 | (k, _) :: r => 64 + blen k + kmem r end.
(* t is n / d in decimal, with two digits after the point, the nearest such number *)
Definition two_decimals (t : bytes) (n d : N) : Prop :=
  exists q a b, t = dec (q / 100) ++ str "." ++ [digit a; digit b] /\ a < 10 /\ b < 10 /\ q mod 100 = 10 * a + b /\
    2 * (100 * n) <= 2 * (q * d) + d /\ 2 * (q * d) <= 2 * (100 * n) + d.
(* t is the identifier number i, its bytes read as a hexadecimal number *)
Definition hex_value (b : byte) : N := if b2n b <? 58 then b2n b - 48 else b2n b - 87.
Definition hex_number (t : bytes) : N := fold_left (fun a b => 16 * a + hex_value b) t 0.
Definition shows_id (t : bytes) (i : N) : Prop :=
  exists h, t = str "0x" ++ h /\ (8 <= List.length h)%nat /\ le 8 (hex_number h) = rev (ident i).
(* left open: the number of the next identifier in user mode, which nobody can use, the
   counters of errors, and what follows the space available *)
Definition info_text (x : dent) (t : bytes) : Prop :=
  exists mb ikb nid errors rest,
    two_decimals mb (ksize (live x) mod 2 ^ 64) (2 ^ 20) /\ two_decimals ikb (kmem (live x) mod 2 ^ 64) (2 ^ 10) /\
    match d_content x with CKv _ => True | CSeq st => shows_id nid (sq_next st) end /\
    t =
    str "# namespace" ++ [x0a]
    ++ line "name" (n_name (d_conf x))
    ++ line "entries" (dec (kcount (live x) mod 2 ^ 64))
    ++ line "public" (yesno (n_public (d_conf x)))
    ++ line "worm" (yesno (n_worm (d_conf x)))
    ++ line "locked" (yesno (negb (n_lock (d_conf x) =? 0)))
    ++ line "password" (yesno (match n_pass (d_conf x) with Some _ => true | None => false end))
    ++ line "data_size_bytes" (dec (ksize (live x) mod 2 ^ 64))
    ++ line "data_size_mb" mb
    ++ line "data_limits_bytes" (dec (n_maxsize (d_conf x)))
    ++ line "index_size_bytes" (dec (kmem (live x) mod 2 ^ 64))
    ++ line "index_size_kb" ikb
    ++ line "next_internal_id" nid
    ++ line "mode" (match d_content x with CKv _ => str "userkey" | CSeq _ => str "sequential" end)
    ++ errors
    ++ (if n_maxsize (d_conf x) =? 0 then []
        else line "space_available" (dec ((n_maxsize (d_conf x) + 2 ^ 64 - ksize (live x) mod 2 ^ 64) mod 2 ^ 64)))
    ++ rest.

(* what a request with the words a, executing the command c for the client cl attached
   to the namespace named me, answers (rep) and does (D') *)
Definition request_spec (g : server) (v : env) (cl : client) (me : bytes) (c : cmd) (a : list bytes)
    (rep : bytes) (D D' : dir) : Prop :=
  let name := text (arg 1 a) in
  match c with
  | CNsnew =>
      if c_admin cl && form 2 a && allowed_name name && absent D name
      then rep = enc_reply ROk /\ D' = dset name (Some (new_entry g name)) D
      else is_error rep /\ D' = D
  | CNsdel =>
      if c_admin cl && form 2 a && negb (bseqb name (str "default")) && negb (absent D name) && negb (bseqb name me)
      then rep = enc_reply ROk /\ D' = dset name None D
      else is_error rep /\ D' = D
  | CNsset =>
      if c_admin cl && form 4 a && (blen (arg 2 a) <=? 256) && (blen (arg 3 a) <=? 63) then
        match D name with
        | None => is_error rep /\ D' = D
        | Some x =>
            if bseqb (text (arg 2 a)) (str "mode") then
              (is_error rep /\ D' = D) \/
              (rep = enc_reply ROk /\ g_mode (v_set g) = MODE_MIX /\ d_used x = false /\
               exists sequential : bool, text (arg 3 a) = (if sequential then str "seq" else str "user") /\
                 D' = dset name (Some (mkDent false (empty_content sequential) (d_conf x))) D)
            else match setting (text (arg 2 a)) (text (arg 3 a)) (d_conf x) with
            | None => is_error rep /\ D' = D
            | Some c => rep = enc_reply ROk /\ D' = dset name (Some (mkDent (d_used x) (d_content x) c)) D
            end
        end
      else is_error rep /\ D' = D
  | CNslist =>
      D' = D /\ exists names, NoDup names /\ (forall n, In n names <-> D n <> None) /\ rep = enc_reply (RArr (map RBulk names))
  | CSelect =>
      D' = D /\
      match D name with
      | None => is_error rep
      | Some x => n_pass (d_conf x) = None -> 2 <= nlen a -> blen (arg 1 a) <= 128 -> rep = enc_reply ROk
      end
  | CNsinfo =>
      D' = D /\
      match D name with
      | Some x => if form 2 a then exists t, rep = enc_reply (RBulk t) /\ info_text x t else is_error rep
      | None => is_error rep
      end
  | _ =>
      if is_data c then
        match req_of c a with
        | None => is_error rep /\ D' = D
        | Some q =>
            exists x, D me = Some x /\
            let '(r, ct) := content_step (perm_of cl) (v_sec v) (d_conf x) q (d_content x) in
            rep = enc_reply r /\ D' = dset me (Some (mkDent (d_used x || stores q r) ct (d_conf x))) D
        end
      else D' = D
  end.

(* one event *)
Definition dir_event (g : server) (e : sevent) (w : world) (out : list (N * bytes)) (D D' : dir) : Prop :=
  match e with
  | SRequest fd v argv =>
      exists cl, client_at fd w = Some cl /\
      ((out = [] /\ D' = D) \/
       exists rep rest, out = (fd, rep) :: rest /\
         match c_ns cl with
         | None => is_error rep /\ D' = D
         | Some i => exists r, slot i w = Some r /\
             match lookup_handler (arg 0 (effective cl argv)) with
             | None => is_error rep /\ D' = D
             | Some (_, c) => request_spec g v cl (n_name (r_cfg r)) c (effective cl argv) rep D D'
             end
         end)
  | SRestart _ => D' = after_restart D
  | _ => D' = D
  end.

(* a run from the server w: each event with what is sent *)
Fixpoint dir_run (g : server) (es : list sevent) (w : world) (outs : list (list (N * bytes))) (D : dir) (D' : dir) : Prop :=
  match es, outs with
  | [], [] => D' = D
  | e :: es', out :: outs' =>
      exists st w1 D1, run_sevent g e w = SDone out st w1 /\ dir_event g e w out D D1 /\ dir_run g es' w1 outs' D1 D'
  | _, _ => False
  end.

(* ---- events covered ---- *)

(* A request has payloads of at most 8 MiB; a namespace has less than 2^32 files; a
   sequential namespace is used as in SeqReach.v; a password does not begin with NUL;
   a restart lists the directories as they are, the default one first. *)
Definition in_sequential (r : nsrec) : Prop := x_mode (r_ix r) = MODE_SEQ.
Definition room_left (r : nsrec) : Prop := nlen (dk_i (r_dk r)) < 2 ^ 32.

Definition covered (g : server) (e : sevent) (w : world) : Prop :=
  match e with
  | SConnect _ | SClose _ => True
  | SRequest fd v argv =>
      forall cl i r h c, client_at fd w = Some cl -> c_ns cl = Some i -> slot i w = Some r ->
        lookup_handler (arg 0 (effective cl argv)) = Some (h, c) ->
        let a := effective cl argv in
        let s := est_of w r in
        (forall q, req_of c a = Some q -> req_wf q /\ room_left r /\
           (in_sequential r -> req_calm (v_set g) (perm_of cl) (v_sec v) q (r_cfg r) s)) /\
        (c = CFlush -> in_sequential r -> settled s) /\
        (c = CReload -> forall k rk, slot k w = Some rk -> n_name (r_cfg rk) = text (arg 1 a) -> in_sequential rk -> settled (est_of w rk)) /\
        (c = CNsset -> text (arg 2 a) = str "password" -> text (arg 3 a) <> [])
  | SIdle _ old =>
      forall k r, In k old -> slot k w = Some r -> room_left r /\ (in_sequential r -> settled (est_of w r))
  | SRestart ord =>
      Permutation ord (stored_of w) /\ (exists desc d l, ord = (str "default", desc, d) :: l) /\
      forall i r, slot i w = Some r -> in_sequential r -> settled (est_of w r)
  end.

Fixpoint all_covered (g : server) (es : list sevent) (w : world) : Prop :=
  match es with
  | [] => True
  | e :: r => covered g e w /\ match run_sevent g e w with SDone _ _ w1 => all_covered g r w1 | SUndef => True end
  end.

Definition server_ok (g : server) : Prop :=
  (g_mode (v_set g) = MODE_KV \/ g_mode (v_set g) = MODE_SEQ \/ g_mode (v_set g) = MODE_MIX) /\ g_datasize (v_set g) <= 2 ^ 31.

(* ---- the names alone ---- *)

(* The set of the names of the namespaces, for any events whatsoever; only the listing
   of the directories at a restart is assumed to be right. *)
Definition nameset := bytes -> bool.
Definition nput (n : bytes) (b : bool) (S : nameset) : nameset := fun m => if bseqb m n then b else S m.
Definition honest (e : sevent) (w : world) : Prop :=
  match e with
  | SRestart ord => Permutation ord (stored_of w) /\ exists desc d l, ord = (str "default", desc, d) :: l
  | _ => True
  end.
Fixpoint all_honest (g : server) (es : list sevent) (w : world) : Prop :=
  match es with
  | [] => True
  | e :: r => honest e w /\ match run_sevent g e w with SDone _ _ w1 => all_honest g r w1 | SUndef => True end
  end.

Definition names_request (cl : client) (me : bytes) (c : cmd) (a : list bytes) (rep : bytes) (S S' : nameset) : Prop :=
  let name := text (arg 1 a) in
  match c with
  | CNsnew =>
      if c_admin cl && form 2 a && allowed_name name && negb (S name)
      then rep = enc_reply ROk /\ S' = nput name true S
      else is_error rep /\ S' = S
  | CNsdel =>
      if c_admin cl && form 2 a && negb (bseqb name (str "default")) && S name && negb (bseqb name me)
      then rep = enc_reply ROk /\ S' = nput name false S
      else is_error rep /\ S' = S
  | CNslist =>
      S' = S /\ exists names, NoDup names /\ (forall n, In n names <-> S n = true) /\ rep = enc_reply (RArr (map RBulk names))
  | CNsinfo => S' = S /\ if form 2 a && S name then exists t, rep = enc_reply (RBulk t) else is_error rep
  | CReload =>
      S' = S /\ if c_admin cl && form 2 a && S name then rep = enc_reply ROk else is_error rep
  | CSelect | CNsset => S' = S /\ (S name = false -> is_error rep)
  | _ => S' = S
  end.

(* me: the name of the namespace of the client, None when it was deleted *)
Definition names_event (e : sevent) (w : world) (me : option bytes) (out : list (N * bytes)) (S S' : nameset) : Prop :=
  match e with
  | SRequest fd v argv =>
      exists cl, client_at fd w = Some cl /\
      ((out = [] /\ S' = S) \/
       exists rep rest, out = (fd, rep) :: rest /\
         match me, lookup_handler (arg 0 (effective cl argv)) with
         | Some n, Some (_, c) => names_request cl n c (effective cl argv) rep S S'
         | _, _ => is_error rep /\ S' = S
         end)
  | _ => S' = S
  end.

(* ---- which namespace a client is in ---- *)

(* None: not connected; Some None: its namespace was deleted; Some (Some n): in n *)
Definition seat := option (option bytes).
Definition said_ok (fd : N) (out : list (N * bytes)) : bool :=
  match out with (k, rep) :: _ => (k =? fd) && bseqb rep (enc_reply ROk) | [] => false end.
Definition seat_event (e : sevent) (w : world) (out : list (N * bytes)) (fd : N) (p : seat) : seat :=
  match e with
  | SConnect k => if k =? fd then Some (Some (str "default")) else p
  | SClose k => if k =? fd then None else p
  | SRestart _ => None
  | SIdle _ _ => p
  | SRequest k v argv =>
      match client_at k w with
      | None => p
      | Some cl =>
          let name := text (arg 1 (effective cl argv)) in
          match lookup_handler (arg 0 (effective cl argv)) with
          | Some (_, CSelect) => if (k =? fd) && said_ok k out then Some (Some name) else p
          | Some (_, CNsdel) =>
              match p with
              | Some (Some n) => if said_ok k out && bseqb n name then Some None else p
              | _ => p
              end
          | _ => p
          end
      end
  end.

(* a run: the set of the names and the seats of all clients *)
Definition seats := N -> seat.
Fixpoint names_run (g : server) (es : list sevent) (w : world) (outs : list (list (N * bytes))) (P : seats) (S : nameset)
    (P' : seats) (S' : nameset) : Prop :=
  match es, outs with
  | [], [] => S' = S /\ (forall fd, P' fd = P fd)
  | e :: es', out :: outs' =>
      exists st w1 S1, run_sevent g e w = SDone out st w1 /\
        names_event e w (match e with SRequest fd _ _ => match P fd with Some p => p | None => None end | _ => None end) out S S1 /\
        names_run g es' w1 outs' (fun fd => seat_event e w out fd (P fd)) S1 P' S'
  | _, _ => False
  end.

(* ---- the settings alone ---- *)

Definition confset := bytes -> option nscfg.
Definition cput (n : bytes) (o : option nscfg) (C : confset) : confset := fun m => if bseqb m n then o else C m.

(* NSNEW gives the initial settings, NSDEL forgets them, NSSET changes one; the answer
   of NSSET says whether it did *)
Definition conf_request (cl : client) (c : cmd) (a : list bytes) (rep : bytes) (C C' : confset) : Prop :=
  let name := text (arg 1 a) in
  match c with
  | CNsnew => C' = if bseqb rep (enc_reply ROk) then cput name (Some (fresh_conf name)) C else C
  | CNsdel => C' = if bseqb rep (enc_reply ROk) then cput name None C else C
  | CNsset =>
      match C name with
      | Some x =>
          if c_admin cl && form 4 a && (blen (arg 2 a) <=? 256) && (blen (arg 3 a) <=? 63) then
            if word (text (arg 2 a)) "mode" then C' = C else
            match setting (text (arg 2 a)) (text (arg 3 a)) x with
            | Some x' => rep = enc_reply ROk /\ C' = cput name (Some x') C
            | None => is_error rep /\ C' = C
            end
          else is_error rep /\ C' = C
      | None => is_error rep /\ C' = C
      end
  | _ => C' = C
  end.

Definition conf_event (e : sevent) (w : world) (out : list (N * bytes)) (C C' : confset) : Prop :=
  match e with
  | SRequest fd v argv =>
      exists cl, client_at fd w = Some cl /\
      ((out = [] /\ C' = C) \/
       exists rep rest, out = (fd, rep) :: rest /\
         match c_ns cl, lookup_handler (arg 0 (effective cl argv)) with
         | Some _, Some (_, c) => conf_request cl c (effective cl argv) rep C C'
         | _, _ => is_error rep /\ C' = C
         end)
  | SRestart _ => C' = fun n => option_map unlocked (C n)
  | _ => C' = C
  end.

Fixpoint conf_run (g : server) (es : list sevent) (w : world) (outs : list (list (N * bytes))) (C C' : confset) : Prop :=
  match es, outs with
  | [], [] => C' = C
  | e :: es', out :: outs' =>
      exists st w1 C1, run_sevent g e w = SDone out st w1 /\ conf_event e w out C C1 /\ conf_run g es' w1 outs' C1 C'
  | _, _ => False
  end.

(* no NSSET of a password which begins with NUL, honest listings at restarts *)
Definition set_ok (e : sevent) (w : world) : Prop :=
  honest e w /\
  match e with
  | SRequest fd v argv =>
      forall cl h, client_at fd w = Some cl -> lookup_handler (arg 0 (effective cl argv)) = Some (h, CNsset) ->
        text (arg 2 (effective cl argv)) = str "password" -> text (arg 3 (effective cl argv)) <> []
  | _ => True
  end.
Fixpoint all_set_ok (g : server) (es : list sevent) (w : world) : Prop :=
  match es with
  | [] => True
  | e :: r => set_ok e w /\ match run_sevent g e w with SDone _ _ w1 => all_set_ok g r w1 | SUndef => True end
  end.
