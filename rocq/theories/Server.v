(* MODEL.  The server: namespaces, clients, dispatching, namespace and session
   commands, notifications, idle work and restarts (zdbd/commands*.c, zdbd/redis.c,
   libzdb/namespace.c).

   A namespace pointer is the number of its slot in the list of namespaces.  A slot
   is reused only after the namespace was deleted, and then no client refers to it
   (redis_detach_clients) and the table holds none of its keys.

   Not modelled here: the texts of INFO and HOOKS, which change nothing and are answered
   with v_text; some lines of NSINFO; statistics of the process; hooks; return values 0
   and 1 of the handlers, which the caller treats alike. *)
From Coq Require Import Strings.String Strings.Byte List NArith ZArith Bool.
From Verif Require Import Bytes Layout Store Text Commands Sha1 Dispatch Namespace System Scan History Resp.
Import ListNotations.
Open Scope N_scope.

(* zdbd/redis.h:106-140, redis_client_t: namespace (None once it was removed),
   permissions, replication flags, challenge, last executed and watched entries of
   the command table, start and length of the watch *)
Record client := mkClient {
  c_ns : option N; c_admin : bool; c_writable : bool; c_mirror : bool; c_master : bool;
  c_nonce : option bytes; c_exec : option N;
  c_watch : option N; c_since : N * N; c_timeout : N
}.

Definition c_set_ns v wr c := mkClient v (c_admin c) wr (c_mirror c) (c_master c) (c_nonce c) (c_exec c) (c_watch c) (c_since c) (c_timeout c).
Definition c_set_admin v c := mkClient (c_ns c) v (c_writable c) (c_mirror c) (c_master c) (c_nonce c) (c_exec c) (c_watch c) (c_since c) (c_timeout c).
Definition c_set_mirror c := mkClient (c_ns c) (c_admin c) (c_writable c) true (c_master c) (c_nonce c) (c_exec c) (c_watch c) (c_since c) (c_timeout c).
Definition c_set_master c := mkClient (c_ns c) (c_admin c) (c_writable c) (c_mirror c) true (c_nonce c) (c_exec c) (c_watch c) (c_since c) (c_timeout c).
Definition c_set_nonce v c := mkClient (c_ns c) (c_admin c) (c_writable c) (c_mirror c) (c_master c) v (c_exec c) (c_watch c) (c_since c) (c_timeout c).
Definition c_set_exec v c := mkClient (c_ns c) (c_admin c) (c_writable c) (c_mirror c) (c_master c) (c_nonce c) v (c_watch c) (c_since c) (c_timeout c).
Definition c_set_watch v since tmo c := mkClient (c_ns c) (c_admin c) (c_writable c) (c_mirror c) (c_master c) (c_nonce c) (c_exec c) v since tmo.

Definition perm_of (c : client) : perm := mkPerm (c_admin c) (c_writable c).

(* table shared by all namespaces, list of namespaces (libzdb/namespace.h:56-66,
   ns_root_t), number of namespaces, clients by socket *)
Record world := mkWorld {
  w_tb : table; w_slots : list (option nsrec); w_eff : N; w_clients : list (option client)
}.

(* zdbd/zdbd.h, zdbd_rootsettings: engine settings, administrator password, protect
   mode, release build, file rotation *)
Record server := mkServer {
  v_set : settings; v_adminpwd : option bytes; v_protect : bool; v_release : bool; v_rotate : bool
}.

(* what a request obtains from its environment: clock, random challenge, texts left
   out of the model, owner of a replicated request (never initialised for ordinary
   clients, zdbd/redis.c:604-611), passes of a SCAN that fit in its time slice; and
   whether the handler returns 1, which only makes the server read on (Net.v) *)
Record env := mkEnv { v_sec : N; v_usec : N; v_nonce : bytes; v_text : N -> bytes; v_owner : N; v_passes : nat; v_one : bool }.

Inductive res :=
| Done (reply : bytes) (st : status) (w : world)
| Undef.    (* undefined behaviour, exit of the process, or outside of the model *)

Definition slot (i : N) (w : world) : option nsrec :=
  match nget i (w_slots w) with Some o => o | None => None end.

Definition client_at (fd : N) (w : world) : option client :=
  match nget fd (w_clients w) with Some o => o | None => None end.

Definition est_of (w : world) (r : nsrec) : est := mkEst (w_tb w) (r_ix r) (r_dt r) (r_dk r).

Definition put_slot (i : N) (o : option nsrec) (w : world) : world :=
  mkWorld (w_tb w) (nset i o (w_slots w)) (w_eff w) (w_clients w).

Definition put_est (i : N) (r : nsrec) (s : est) (w : world) : world :=
  mkWorld (tb s) (nset i (Some (mkNs (r_cfg r) (r_desc r) (ix s) (dt s) (dk s))) (w_slots w))
    (w_eff w) (w_clients w).

Definition put_client (fd : N) (c : client) (w : world) : world :=
  mkWorld (w_tb w) (w_slots w) (w_eff w) (nset fd (Some c) (w_clients w)).

(* libzdb/namespace.c:57-67, namespace_get: the slots in order *)
Fixpoint find_ns (name : bytes) (i : N) (l : list (option nsrec)) : option (N * nsrec) :=
  match l with
  | [] => None
  | Some r :: t => if bseqb (n_name (r_cfg r)) name then Some (i, r) else find_ns name (i + 1) t
  | None :: t => find_ns name (i + 1) t
  end.

Definition namespace_get (name : bytes) (w : world) : option (N * nsrec) := find_ns name 0 (w_slots w).

(* libzdb/namespace.c:291-328, namespace_push: the first free slot, or a new one *)
Fixpoint free_slot (i : N) (l : list (option nsrec)) : N :=
  match l with [] => i | None :: _ => i | Some _ :: t => free_slot (i + 1) t end.

Definition push_slot (i : N) (r : nsrec) (l : list (option nsrec)) : list (option nsrec) :=
  if i <? nlen l then nset i (Some r) l else l ++ [Some r].

(* ---- namespace commands ---- *)

(* zdbd/commands_namespace.c:18-57.  The directory of a namespace which does not
   exist is empty.  A name which starts with NUL denotes the directory of all the
   namespaces: outside of the model. *)
Definition command_nsnew (g : server) (p : perm) (argv : list bytes) (w : world) : res :=
  match admin_authorized p with Some err => Done err SUCCESS w | None =>
  match args_validate argv 2 with Some err => Done err SUCCESS w | None =>
  match args_namespace argv 1 with Some err => Done err SUCCESS w | None =>
    let target := cstr (arg 1 argv) in
    if negb (namespace_valid_name target) then Done (hardsend "-This name is not allowed") SUCCESS w
    else match namespace_get target w with
    | Some _ => Done (hardsend "-This namespace is not available") SUCCESS w
    | None =>
        if blen target =? 0 then Undef
        else
          let i := free_slot 0 (w_slots w) in
          match namespace_load (g_mode (v_set g)) i target [] empty_disk (w_tb w) with
          | None => Undef
          | Some (t, r) =>
              Done (hardsend "+OK") SUCCESS
                (mkWorld t (push_slot i r (w_slots w)) (w_eff w + 1) (w_clients w))
          end
    end
  end end end.

(* zdbd/redis.c:943-957, redis_detach_clients *)
Definition detach_client (i : N) (o : option client) : option client :=
  match o with
  | Some c => match c_ns c with
              | Some j => if j =? i then Some (c_set_ns None (c_writable c) c) else Some c
              | None => Some c
              end
  | None => None
  end.

(* zdbd/commands_namespace.c:61-109 and libzdb/namespace.c:671-699, namespace_delete *)
Definition command_nsdel (p : perm) (me : option N) (argv : list bytes) (w : world) : res :=
  match admin_authorized p with Some err => Done err SUCCESS w | None =>
  match args_validate argv 2 with Some err => Done err SUCCESS w | None =>
  match args_namespace argv 1 with Some err => Done err SUCCESS w | None =>
    let target := cstr (arg 1 argv) in
    if bseqb target NAMESPACE_DEFAULT then Done (hardsend "-Cannot remove default namespace") SUCCESS w
    else match namespace_get target w with
    | None => Done (hardsend "-This namespace doesn't exists") SUCCESS w
    | Some (i, r) =>
        if match me with Some j => j =? i | None => false end
        then Done (hardsend "-Cannot remove namespace you're currently using.") SUCCESS w
        else
          Done (hardsend "+OK") SUCCESS
            (mkWorld (index_clean_namespace (w_tb w) (r_ix r)) (nset i None (w_slots w)) (w_eff w - 1)
               (map (detach_client i) (w_clients w)))
    end
  end end end.

(* the permission SELECT decides on (zdbd/commands_namespace.c:143-230): an error, or
   whether the session is writable *)
Definition select_check (argv : list bytes) (nonce : option bytes) (c : nscfg) : bytes + bool :=
  match n_pass c with
  | None => inr true
  | Some pass =>
      if argc argv <? 3 then
        if negb (n_public c) then inl (hardsend "-Namespace protected and private") else inr false
      else if 4 <? argc argv then inl (hardsend "-Too many arguments")
      else if argc argv =? 3 then
        if 255 <? blen (arg 2 argv) then inl (hardsend "-Password too long")
        else if bseqb (cstr (arg 2 argv)) pass then inr true else inl (hardsend "-Access denied")
      else if negb (ncase_eq (arg 2 argv) (str "SECURE")) then inl (hardsend "-Only SECURE extra method supported")
      else match nonce with
      | None => inl (hardsend "-No CHALLENGE requested, secure authentication not available")
      | Some n =>
          if negb (blen (arg 3 argv) =? 40) then inl (hardsend "-Invalid hash length")
          else if bseqb (cstr (arg 3 argv)) (zdb_hash_password n pass) then inr true
          else inl (hardsend "-Access denied")
      end
  end.

(* zdbd/commands_namespace.c:114-245 *)
Definition command_select (fd : N) (cl : client) (argv : list bytes) (w : world) : res :=
  if argc argv <? 2 then Done (hardsend "-Invalid argument") SUCCESS w
  else match args_namespace argv 1 with Some err => Done err SUCCESS w | None =>
    match namespace_get (cstr (arg 1 argv)) w with
    | None => Done (hardsend "-Namespace not found") SUCCESS w
    | Some (i, r) =>
        match select_check argv (c_nonce cl) (r_cfg r) with
        | inl err => Done err SUCCESS w
        | inr writable => Done (hardsend "+OK") SUCCESS (put_client fd (c_set_ns (Some i) writable cl) w)
        end
    end
  end.

(* zdbd/commands_namespace.c:249-266 *)
Definition ns_names (l : list (option nsrec)) : list bytes :=
  flat_map (fun o => match o with Some r => [n_name (r_cfg r)] | None => [] end) l.

Definition command_nslist (w : world) : bytes :=
  arrayhdr (w_eff w) ++ concat (map bulk (ns_names (w_slots w))).

(* printf("%.2f") of n / d, for d a power of two and n below 2^53, where the quotient
   is an exact double: rounded to the nearest, ties to even *)
Definition fixed2 (n d : N) : bytes :=
  let q := 100 * n / d in
  let rest := 2 * ((100 * n) mod d) in
  let h := if (d <? rest) || ((rest =? d) && negb (q mod 2 =? 0)) then q + 1 else q in
  dec (h / 100) ++ str "." ++ [digit (h mod 100 / 10); digit (h mod 10)].

(* printf("0x%08lx") *)
Definition hexdigit (n : N) : byte := n2b (if n <? 10 then 48 + n else 87 + n).
Fixpoint hex_digits (fuel : nat) (n : N) (acc : bytes) : bytes :=
  match fuel with
  | O => acc
  | S fuel' => if n =? 0 then acc else hex_digits fuel' (n / 16) (hexdigit (n mod 16) :: acc)
  end.
Definition hex8 (n : N) : bytes :=
  let t := hex_digits (N.size_nat n) n [] in
  str "0x" ++ repeat (digit 0) (8 - length t) ++ t.

(* bswap_64 *)
Definition bswap64 (n : N) : N := unle (rev (le 8 n)).

Definition yes_no (b : bool) : bytes := if b then str "yes" else str "no".
Definition infoline (k : string) (v : bytes) : bytes := str k ++ str ": " ++ v ++ [x0a].

(* libzdb/index.c:787-795 *)
Definition index_modename (x : index) : bytes :=
  if x_mode x =? MODE_KV then str "userkey" else if x_mode x =? MODE_SEQ then str "sequential" else str "unknown".

(* zdbd/commands_namespace.c:298-368.  Left out of the model, taken from the
   environment: the counters of input/output errors (v_text 1), the free space of the
   disks (v_text 2), the paths (v_text 3). *)
Definition nsinfo_text (v : env) (cl : client) (r : nsrec) : bytes :=
  let c := r_cfg r in
  let x := r_ix r in
  str "# namespace" ++ [x0a]
  ++ infoline "name" (n_name c)
  ++ infoline "entries" (dec (x_entries x))
  ++ infoline "public" (yes_no (n_public c))
  ++ infoline "worm" (yes_no (n_worm c))
  ++ infoline "locked" (yes_no (negb (n_lock c =? NS_LOCK_UNLOCKED)))
  ++ infoline "password" (yes_no (match n_pass c with Some _ => true | None => false end))
  ++ infoline "data_size_bytes" (dec (x_datasize x))
  ++ infoline "data_size_mb" (fixed2 (x_datasize x) 1048576)
  ++ infoline "data_limits_bytes" (dec (n_maxsize c))
  ++ infoline "index_size_bytes" (dec (x_size x))
  ++ infoline "index_size_kb" (fixed2 (x_size x) 1024)
  ++ infoline "next_internal_id" (hex8 (bswap64 (x_nextentry x)))
  ++ infoline "mode" (index_modename x)
  ++ v_text v 1
  ++ (if 0 <? n_maxsize c then infoline "space_available" (dec (sub64 (n_maxsize c) (x_datasize x))) else [])
  ++ v_text v 2
  ++ (if c_master cl then match n_pass c with Some p => infoline "password_raw" p | None => [] end else [])
  ++ (if c_admin cl
      then v_text v 3 ++ infoline "data_current_id" (dec (d_dataid (r_dt r)))
           ++ infoline "data_current_offset" (dec (dsize (r_dk r) (d_dataid (r_dt r))))
      else []).

(* zdbd/commands_namespace.c:270-384 *)
Definition command_nsinfo (v : env) (cl : client) (argv : list bytes) (w : world) : bytes :=
  match args_validate argv 2 with Some err => err | None =>
  match args_namespace argv 1 with Some err => err | None =>
    match namespace_get (cstr (arg 1 argv)) w with
    | None => hardsend "-Namespace not found"
    | Some (_, r) => bulk (nsinfo_text v cl r)
    end
  end end.

Definition first_is_1 (value : bytes) : bool := match value with b :: _ => b2n b =? 49 | [] => false end.

(* zdbd/commands_namespace.c:387-480: the new settings, or an error; the mode is
   handled apart *)
Definition nsset_apply (isdefault : bool) (command value : bytes) (c : nscfg) : bytes + nscfg :=
  if bseqb command (str "lock") then
    inr (mkCfg (n_name c) (n_pass c) (n_public c) (n_worm c) (n_maxsize c)
           (if first_is_1 value then NS_LOCK_READ_ONLY else NS_LOCK_UNLOCKED))
  else if bseqb command (str "freeze") then
    inr (mkCfg (n_name c) (n_pass c) (n_public c) (n_worm c) (n_maxsize c)
           (if first_is_1 value then NS_LOCK_READ_WRITE else NS_LOCK_UNLOCKED))
  else if isdefault then inl (hardsend "-Cannot update default namespace")
  else if bseqb command (str "maxsize") then
    inr (mkCfg (n_name c) (n_pass c) (n_public c) (n_worm c) (z_u64 (atoll value)) (n_lock c))
  else if bseqb command (str "password") then
    inr (mkCfg (n_name c) (if bseqb value (str "*") then None else Some value) (n_public c) (n_worm c)
           (n_maxsize c) (n_lock c))
  else if bseqb command (str "public") then
    inr (mkCfg (n_name c) (n_pass c) (first_is_1 value) (n_worm c) (n_maxsize c) (n_lock c))
  else if bseqb command (str "worm") then
    inr (mkCfg (n_name c) (n_pass c) (n_public c) (first_is_1 value) (n_maxsize c) (n_lock c))
  else inl (hardsend "-Invalid property").

(* zdbd/commands_namespace.c:431-463, command_nsset_mode *)
Definition nsset_mode (g : server) (value : bytes) (s : est) : bytes + est :=
  if negb (g_mode (v_set g) =? MODE_MIX)
  then inl (hardsend "-This server instance is configured to use a single runtime mode")
  else if negb (namespace_is_fresh (ix s)) then inl (hardsend "-Cannot change mode of used namespace")
  else if bseqb value (str "user") then inr (namespace_set_mode MODE_KV s)
  else if bseqb value (str "seq") then inr (namespace_set_mode MODE_SEQ s)
  else inl (hardsend "-Invalid property value (expected: user, seq)").

(* zdbd/commands_namespace.c:493-583 *)
Definition command_nsset (g : server) (p : perm) (argv : list bytes) (w : world) : res :=
  match admin_authorized p with Some err => Done err SUCCESS w | None =>
  match args_validate argv 4 with Some err => Done err SUCCESS w | None =>
  match args_namespace argv 1 with Some err => Done err SUCCESS w | None =>
  match args_overflow argv 2 COMMAND_MAXLEN with Some err => Done err SUCCESS w | None =>
  match args_overflow argv 3 63 with Some err => Done err SUCCESS w | None =>
  match sprint_max (arg 2 argv) with None => Undef | Some command =>
    let target := cstr (arg 1 argv) in
    let value := cstr (arg 3 argv) in
    match namespace_get target w with
    | None => Done (hardsend "-Namespace not found") SUCCESS w
    | Some (i, r) =>
        if bseqb command (str "mode") then
          match nsset_mode g value (est_of w r) with
          | inl err => Done err SUCCESS w
          | inr s =>
              Done (hardsend "+OK") SUCCESS
                (put_est i (mkNs (r_cfg r) (namespace_commit (r_cfg r) (r_desc r)) (r_ix r) (r_dt r) (r_dk r)) s w)
          end
        else
          match nsset_apply (bseqb target NAMESPACE_DEFAULT) command value (r_cfg r) with
          | inl err => Done err SUCCESS w
          | inr c =>
              Done (hardsend "+OK") SUCCESS
                (put_slot i (Some (mkNs c (namespace_commit c (r_desc r)) (r_ix r) (r_dt r) (r_dk r))) w)
          end
    end
  end end end end end end.

(* libzdb/namespace.c:605-622, namespace_reload *)
Definition namespace_reload (g : server) (i : N) (r : nsrec) (w : world) : option world :=
  match store_open (g_mode (v_set g)) i (index_clean_namespace (w_tb w) (r_ix r)) (r_dk r) with
  | None => None
  | Some s => Some (put_est i r s w)
  end.

(* zdbd/commands_namespace.c:609-640 *)
Definition command_reload (g : server) (p : perm) (argv : list bytes) (w : world) : res :=
  match admin_authorized p with Some err => Done err SUCCESS w | None =>
  match args_validate argv 2 with Some err => Done err SUCCESS w | None =>
  match args_namespace argv 1 with Some err => Done err SUCCESS w | None =>
    match namespace_get (cstr (arg 1 argv)) w with
    | None => Done (hardsend "-Namespace not found") SUCCESS w
    | Some (i, r) =>
        match namespace_reload g i r w with
        | None => Undef
        | Some w' => Done (hardsend "+OK") SUCCESS w'
        end
    end
  end end end.

Fixpoint starts_with (p l : bytes) : bool :=
  match p, l with
  | [], _ => true
  | a :: p', b :: l' => beqb a b && starts_with p' l'
  | _ :: _, [] => false
  end.

Fixpoint contains (p l : bytes) : bool :=
  starts_with p l || match l with [] => false | _ :: t => contains p t end.

(* libzdb/filesystem.c:73-95, dir_clean_cb: a file is removed when its path has
   "zdb-data-" 14 characters, or "zdb-index-" 15 characters, before its end.  The
   files are named d0, d1, ..., i0, i1, ..., so that none is, unless the name of the
   namespace contains one of these texts; that case is outside of the model. *)
Definition cleanable (name : bytes) : bool :=
  contains (str "zdb-data-") name || contains (str "zdb-index-") name.

(* zdbd/commands_namespace.c:642-658 and libzdb/namespace.c:629-653, namespace_flush *)
Definition command_flush (g : server) (i : N) (r : nsrec) (w : world) : res :=
  if n_public (r_cfg r) || match n_pass (r_cfg r) with None => true | Some _ => false end
  then Done (hardsend "-Flushing public namespace denied") SUCCESS w
  else if cleanable (n_name (r_cfg r)) then Undef
  else match namespace_reload g i r w with
       | None => Undef
       | Some w' => Done (hardsend "+OK") SUCCESS w'
       end.

(* ---- session commands ---- *)

(* zdbd/auth.c:10-21 *)
Definition password_check (user expected : bytes) : bool := bseqb (cstr user) expected.

(* zdbd/commands_auth.c:18-170 *)
Definition command_auth (g : server) (v : env) (fd : N) (cl : client) (argv : list bytes) (w : world) : res :=
  if argc argv =? 2 then
    match v_adminpwd g with
    | None => Done (hardsend "-Authentication disabled") SUCCESS w
    | Some pwd =>
        match args_validate argv 2 with Some err => Done err SUCCESS w | None =>
          if 128 <? blen (arg 1 argv) then Done (hardsend "-Password too long") SUCCESS w
          else if password_check (arg 1 argv) pwd
          then Done (hardsend "+OK") SUCCESS (put_client fd (c_set_admin true cl) w)
          else Done (hardsend "-Access denied") SUCCESS w
        end
    end
  else if argc argv =? 3 then
    match args_validate argv 3 with Some err => Done err SUCCESS w | None =>
      if negb (ncase_eq (arg 1 argv) (str "SECURE")) then Done (hardsend "-Only SECURE extra method supported") SUCCESS w
      else if ncase_eq (arg 2 argv) (str "CHALLENGE")
      then Done (str "+" ++ v_nonce v ++ CRLF) SUCCESS (put_client fd (c_set_nonce (Some (v_nonce v)) cl) w)
      else match v_adminpwd g with
      | None => Done (hardsend "-Authentication disabled") SUCCESS w
      | Some pwd =>
          match c_nonce cl with
          | None => Done (hardsend "-No CHALLENGE requested, secure authentication not available") SUCCESS w
          | Some n =>
              if negb (blen (arg 2 argv) =? 40) then Done (hardsend "-Invalid hash length") SUCCESS w
              else if password_check (arg 2 argv) (zdb_hash_password n pwd)
              then Done (hardsend "+OK") SUCCESS (put_client fd (c_set_nonce None (c_set_admin true cl)) w)
              else Done (hardsend "-Access denied") SUCCESS (put_client fd (c_set_nonce None cl) w)
          end
      end
    end
  else Done (hardsend "-Unexpected arguments") SUCCESS w.

(* strtoull(3) in base 10 *)
Definition strtoull (l : bytes) : N :=
  match skip_space l with
  | [] => 0
  | b :: t =>
      if b2n b =? 45 then
        let n := parse_digits t 0 in
        if 18446744073709551615 <? n then 18446744073709551615 else u64 (18446744073709551616 - n)
      else N.min 18446744073709551615 (if b2n b =? 43 then parse_digits t 0 else parse_digits (b :: t) 0)
  end.

(* zdbd/commands.c:211-260 *)
Definition command_wait (v : env) (fd : N) (cl : client) (argv : list bytes) (w : world) : res :=
  if negb ((argc argv =? 2) || (argc argv =? 3)) then Done (hardsend "-Invalid arguments") SUCCESS w
  else match lookup_handler (arg 1 argv) with
  | None => Done (hardsend "-Unknown command to watch") SUCCESS w
  | Some (h, _) =>
      let watch tmo := Done [] SUCCESS (put_client fd (c_set_watch (Some h) (v_sec v, v_usec v) tmo cl) w) in
      if argc argv =? 3 then
        if 16 <? blen (arg 2 argv) then Done (hardsend "-Invalid timeout") SUCCESS w
        else
          let tmo := strtoull (cstr (arg 2 argv)) in
          if (tmo <? 100) || (1800000 <? tmo) then Done (hardsend "-Invalid timeout") SUCCESS w
          else watch tmo
      else watch 5000
  end.

(* ---- dispatcher ---- *)

(* a command on the client's namespace *)
Definition on_ns (i : N) (r : nsrec) (w : world) (f : est -> bytes * est) : res :=
  let '(rep, s) := f (est_of w r) in Done rep SUCCESS (put_est i r s w).

(* the numbers i, i + 1, ..., n of them *)
Fixpoint upto (n : nat) (i : N) : list N := match n with O => [] | S m => i :: upto m (i + 1) end.

(* libzdb/index_branch.c:18: the buckets.  A function, so that the list is only made when
   it is asked for. *)
Definition all_buckets (_ : unit) : list N := upto (N.to_nat 16777216) 0.
Arguments all_buckets : simpl never.

(* a command that only replies; None: undefined behaviour, or an endless loop *)
Definition told (o : option bytes) (w : world) : res :=
  match o with None => Undef | Some rep => Done rep SUCCESS w end.

(* the handlers of the command table; i and r are the client's namespace *)
Definition handle (g : server) (v : env) (fd : N) (cl : client) (i : N) (r : nsrec) (c : cmd)
  (argv : list bytes) (w : world) : res :=
  let p := perm_of cl in
  let cfg := r_cfg r in
  let s := est_of w r in
  let admin k := match admin_authorized p with Some err => Done err SUCCESS w | None => k end in
  match c with
  | CAsterisk => Done (hardsend "-This is not a valid command") SUCCESS w
  | CWait => command_wait v fd cl argv w
  | CMirror => admin (Done (hardsend "+Starting mirroring") SUCCESS (put_client fd (c_set_mirror cl) w))
  | CMaster => admin (Done (hardsend "+Hello, master") SUCCESS (put_client fd (c_set_master cl) w))
  | CPing => Done (hardsend "+PONG") SUCCESS w
  | CTime => Done (str "*2" ++ CRLF ++ bulk (dec (v_sec v)) ++ bulk (dec (v_usec v))) SUCCESS w
  | CAuth => command_auth g v fd cl argv w
  | CHooks => admin (Done (v_text v 0) SUCCESS w)
  | CIndex => match command_index p argv s with
              | None => Undef
              | Some (rep, s') => Done rep SUCCESS (put_est i r s' w)
              end
  | CData => match command_data p argv s with None => Undef | Some rep => Done rep SUCCESS w end
  | CSet => on_ns i r w (command_set (v_set g) p (v_sec v) argv cfg)
  | CDel => on_ns i r w (command_del p (v_sec v) argv cfg)
  | CGet => Done (command_get argv cfg s) SUCCESS w
  | CMget => Done (command_mget argv cfg s) SUCCESS w
  | CExists => Done (command_exists argv cfg s) SUCCESS w
  | CCheck => Done (command_check argv cfg s) SUCCESS w
  | CLength => Done (command_length argv cfg s) SUCCESS w
  | CKeytime => Done (command_keytime argv cfg s) SUCCESS w
  | CScan => told (command_scan (v_passes v) argv cfg s) w
  | CRscan => told (command_rscan (v_passes v) argv cfg s) w
  | CKscan => Done (command_kscan (v_release g) (all_buckets tt) argv s) SUCCESS w
  | CHistory => told (command_history argv cfg s) w
  | CKeycur => Done (command_keycur argv cfg s) SUCCESS w
  | CInfo => Done (bulk (v_text v 0)) SUCCESS w
  | CStop => if v_release g then Done (hardsend "-Unauthorized") SUCCESS w
             else Done (hardsend "+Stopping") SHUTDOWN w
  | CDbsize => Done (command_dbsize s) SUCCESS w
  | CNsnew => command_nsnew g p argv w
  | CNsdel => command_nsdel p (c_ns cl) argv w
  | CNslist => Done (command_nslist w) SUCCESS w
  | CNsset => command_nsset g p argv w
  | CNsinfo => Done (command_nsinfo v cl argv w) SUCCESS w
  | CNsjump => on_ns i r w (command_nsjump p)
  | CSelect => command_select fd cl argv w
  | CReload => command_reload g p argv w
  | CFlush => command_flush g i r w
  end.

(* zdbd/commands.c:160-208, redis_dispatcher *)
Definition dispatch (g : server) (v : env) (fd : N) (cl : client) (argv : list bytes) (w : world) : res :=
  match c_ns cl with
  | None => Done (hardsend "-Your active namespace is not available anymore (probably removed).") DISCARD w
  | Some i =>
      match slot i w with
      | None => Undef                        (* a pointer to a deleted namespace *)
      | Some r =>
          match lookup_handler (arg 0 argv) with
          | None => Done (hardsend "-Command not supported") SUCCESS (put_client fd (c_set_exec None cl) w)
          | Some (h, c) =>
              let cl' := c_set_exec (Some h) cl in
              handle g v fd cl' i r c argv (put_client fd cl' w)
          end
      end
  end.

(* ---- after the command ---- *)

(* zdbd/redis.c:960-1027, redis_mirror_client *)
Definition mirror_message (v : env) (name : bytes) (argv : list bytes) : bytes :=
  arrayhdr (nlen argv + 3) ++ intreply (v_sec v) ++ bulk name ++ intreply (v_owner v)
  ++ concat (map bulk argv).

(* zdbd/redis.c:1131-1176, redis_posthandler_client: for every other client, in the
   order of the sockets *)
Fixpoint posthandle (v : env) (argv : list bytes) (w : world) (fd : N) (cl : client) (h : N)
  (k : N) (l : list (option client)) : option (list (N * bytes) * list (option client)) :=
  match l with
  | [] => Some ([], [])
  | o :: t =>
      match posthandle v argv w fd cl h (k + 1) t with
      | None => None
      | Some (out, t') =>
          match o with
          | None => Some (out, None :: t')
          | Some ck =>
              if k =? fd then Some (out, o :: t')
              else if c_mirror ck then
                if v_owner v =? 0 then Some (out, o :: t')
                else match c_ns cl with
                     | None => None                              (* source->ns->name *)
                     | Some i => match slot i w with
                                 | None => None
                                 | Some r => Some ((k, mirror_message v (n_name (r_cfg r)) argv) :: out, o :: t')
                                 end
                     end
              else match c_watch ck with
              | None => Some (out, o :: t')
              | Some wh =>
                  let same := match c_ns ck, c_ns cl with
                              | Some a, Some b => a =? b
                              | None, None => true
                              | _, _ => false
                              end in
                  if same && ((wh =? h) || match handler_cmd wh with Some CAsterisk => true | _ => false end)
                  then Some ((k, str "+" ++ str (handler_name h) ++ CRLF) :: out,
                             Some (c_set_watch None (0, 0) 0 ck) :: t')
                  else Some (out, o :: t')
              end
          end
      end
  end.

Definition posthandler (v : env) (fd : N) (argv : list bytes) (w : world) : option (list (N * bytes) * world) :=
  match client_at fd w with
  | None => Some ([], w)
  | Some cl =>
      match c_exec cl with
      | None => Some ([], w)
      | Some h =>
          match posthandle v argv w fd cl h 0 (w_clients w) with
          | None => None
          | Some (out, l) => Some (out, mkWorld (w_tb w) (w_slots w) (w_eff w) l)
          end
      end
  end.

(* what the server sends, by socket, and the status of the request *)
Inductive sres :=
| SDone (out : list (N * bytes)) (st : status) (w : world)
| SUndef.

(* zdbd/redis.c:648-672, redis_handle_resp_finished; for a replication master the last
   argument is taken off first (604-645) *)
Definition request (g : server) (v : env) (fd : N) (argv : list bytes) (w : world) : sres :=
  match client_at fd w with
  | None => SUndef
  | Some cl =>
      let run argv :=
        match dispatch g v fd cl argv w with
        | Undef => SUndef
        | Done rep st w1 =>
            match posthandler v fd argv w1 with
            | None => SUndef
            | Some (out, w2) => SDone ((fd, rep) :: out) st w2
            end
        end in
      if c_master cl then
        if 32 <? blen (last argv []) then SDone [] SUCCESS w
        else if nlen argv <=? 1 then SUndef              (* argv[0] was freed *)
        else run (removelast argv)
      else run argv
  end.

(* ---- other events ---- *)

(* zdbd/redis.c:831-906, socket_client_new *)
Definition new_client (g : server) : client :=
  mkClient (Some 0) (match v_adminpwd g with Some _ => false | None => true end) (negb (v_protect g))
    false false None None None (0, 0) 0.

Definition grow (n : N) (l : list (option client)) : list (option client) :=
  l ++ repeat None (N.to_nat (n - nlen l)).

Definition connect (g : server) (fd : N) (w : world) : sres :=
  match client_at fd w with
  | Some _ => SUndef                       (* the socket is in use *)
  | None => SDone [] SUCCESS
              (mkWorld (w_tb w) (w_slots w) (w_eff w) (nset fd (Some (new_client g)) (grow (fd + 1) (w_clients w))))
  end.

(* zdbd/redis.c:909-938, socket_client_free *)
Definition close (fd : N) (w : world) : sres :=
  SDone [] SUCCESS (mkWorld (w_tb w) (w_slots w) (w_eff w) (nset fd None (w_clients w))).

(* zdbd/redis.c:1054-1059, timeval_delta_ms *)
Definition delta_ms (b e : N * N) : N :=
  z_u64 ((Z.of_N (fst e) - Z.of_N (fst b)) * 1000 + Z.quot (Z.of_N (snd e) - Z.of_N (snd b)) 1000).

(* zdbd/redis.c:1061-1089, redis_watch_timeout; one reading of the clock for all *)
Fixpoint watch_timeout (now : N * N) (k : N) (l : list (option client)) : list (N * bytes) * list (option client) :=
  match l with
  | [] => ([], [])
  | o :: t =>
      let '(out, t') := watch_timeout now (k + 1) t in
      match o with
      | Some c =>
          match c_watch c with
          | Some _ =>
              if c_timeout c <? delta_ms (c_since c) now
              then ((k, hardsend "-Timeout") :: out, Some (c_set_watch None (0, 0) 0 c) :: t')
              else (out, o :: t')
          | None => (out, o :: t')
          end
      | None => (out, o :: t')
      end
  end.

(* zdbd/redis.c:1091-1110, redis_files_rotate: old lists the namespaces whose last
   rotation is older than the limit *)
Fixpoint files_rotate (old : list N) (ks : list N) (w : world) : world :=
  match ks with
  | [] => w
  | k :: t =>
      let w1 := match slot k w with
                | Some r => if x_updated (r_ix r) && existsb (N.eqb k) old
                            then put_est k r (jump_next (est_of w r)) w else w
                | None => w
                end in
      files_rotate old t w1
  end.

(* zdbd/redis.c:1115-1124, redis_idle_process *)
Definition idle (g : server) (now : N * N) (old : list N) (w : world) : sres :=
  let '(out, l) := watch_timeout now 0 (w_clients w) in
  let w1 := mkWorld (w_tb w) (w_slots w) (w_eff w) l in
  SDone out SUCCESS (if v_rotate g then files_rotate old (upto (length (w_slots w)) 0) w1 else w1).

(* what is on disk for one namespace: name of the directory, descriptor, files *)
Definition stored : Type := bytes * bytes * disk.

Definition stored_of (w : world) : list stored :=
  flat_map (fun o => match o with Some r => [(n_name (r_cfg r), r_desc r, r_dk r)] | None => [] end) (w_slots w).

(* libzdb/namespace.c:385-422, namespace_scanload: the namespaces in the order of the
   directory; one whose descriptor has another version is left out.  None when the
   process does not survive a load. *)
Fixpoint load_all (smode : N) (i : N) (l : list stored) (t : table) : option (table * list (option nsrec)) :=
  match l with
  | [] => Some (t, [])
  | (name, desc, d) :: rest =>
      match descriptor_load name desc with
      | None => load_all smode i rest t
      | Some _ =>
          match namespace_load smode i name desc d t with
          | None => None
          | Some (t1, r) =>
              match load_all smode (i + 1) rest t1 with
              | None => None
              | Some (t2, rs) => Some (t2, Some r :: rs)
              end
          end
      end
  end.

(* libzdb/namespace.c:479-496, namespaces_init: the start of the server on what is stored;
   the default namespace comes first and must load; no client is connected *)
Definition boot (g : server) (l : list stored) : option world :=
  match l with
  | (name, desc, _) :: _ =>
      match descriptor_load name desc with
      | None => None
      | Some _ =>
          match load_all (g_mode (v_set g)) 0 l empty_table with
          | None => None
          | Some (t, slots) => Some (mkWorld t slots (nlen slots) [])
          end
      end
  | [] => None
  end.

Definition is_default (x : stored) : bool := bseqb (fst (fst x)) NAMESPACE_DEFAULT.

(* start on empty directories *)
Definition first_boot (g : server) : option world := boot g [(NAMESPACE_DEFAULT, [], empty_disk)].

Inductive sevent :=
| SConnect (fd : N)
| SClose (fd : N)
| SRequest (fd : N) (v : env) (argv : list bytes)
| SIdle (now : N * N) (old : list N)
| SRestart (ord : list stored).    (* the directory listing, default first *)

(* one event of the loop at zdbd/socket_epoll.c:144-168; restarts as in boot *)
Definition run_sevent (g : server) (e : sevent) (w : world) : sres :=
  match e with
  | SConnect fd => connect g fd w
  | SClose fd => close fd w
  | SRequest fd v argv => request g v fd argv w
  | SIdle now old => idle g now old w
  | SRestart ord => match boot g ord with None => SUndef | Some w' => SDone [] SUCCESS w' end
  end.

Fixpoint run_sevents (g : server) (es : list sevent) (w : world) : option (list (list (N * bytes)) * world) :=
  match es with
  | [] => Some ([], w)
  | e :: r =>
      match run_sevent g e w with
      | SUndef => None
      | SDone out _ w1 =>
          match run_sevents g r w1 with
          | None => None
          | Some (o, w2) => Some (out :: o, w2)
          end
      end
  end.

(* zdbd/zdbd.c:242-246: with --protect the default namespace gets the administrator
   password, in memory only (zdbd.c:483-486: --protect needs an administrator password).
   The argument of --admin has no NUL.  Not part of boot, whose worlds are those of a
   server without --protect; both options are put together in Options.v (proceed). *)
Definition protect_default (pw : bytes) (w : world) : world :=
  match slot 0 w with
  | None => w
  | Some r =>
      let c := r_cfg r in
      put_slot 0 (Some (mkNs (mkCfg (n_name c) (Some pw) (n_public c) (n_worm c) (n_maxsize c) (n_lock c))
                          (r_desc r) (r_ix r) (r_dt r) (r_dk r))) w
  end.
Definition protected_boot (g : server) (l : list stored) : option world :=
  match v_protect g, v_adminpwd g with
  | true, Some pw => option_map (protect_default pw) (boot g l)
  | _, _ => None
  end.
