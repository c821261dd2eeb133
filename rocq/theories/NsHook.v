(* MODEL of the hooks about namespaces: which of them a server with a hook program starts,
   and for which namespace.  The functions are those of Server.v with the calls of the
   hooks; the program runs in the background and changes nothing in the server.  That
   hook_execute (libzdb/hook.c:119-146) could not start it is not modelled. *)
From Coq Require Import Strings.String Strings.Byte List NArith Bool.
From Verif Require Import Bytes Layout Store Text Commands Sha1 Dispatch Namespace System Scan History Resp Server.
Import ListNotations.
Open Scope N_scope.

(* the first argument of the program, and the name which comes after the identifier of the
   server: libzdb/namespace.c:467-477, 330-338, 656-664, 167-175, 590-598.  The arguments of
   namespaces-init, the two directories, are left out. *)
Inductive note :=
| NInit
| NCreated (name : bytes)
| NDeleted (name : bytes)
| NUpdated (name : bytes)
| NReloaded (name : bytes).

(* zdbd/commands_namespace.c:18-57 and libzdb/namespace.c:348-367, namespace_create: the hook
   after the namespace is in the list *)
Definition command_nsnew_hook (g : server) (p : perm) (argv : list bytes) (w : world) : list note * res :=
  match admin_authorized p with Some err => ([], Done err SUCCESS w) | None =>
  match args_validate argv 2 with Some err => ([], Done err SUCCESS w) | None =>
  match args_namespace argv 1 with Some err => ([], Done err SUCCESS w) | None =>
    let target := cstr (arg 1 argv) in
    if negb (namespace_valid_name target) then ([], Done (hardsend "-This name is not allowed") SUCCESS w)
    else match namespace_get target w with
    | Some _ => ([], Done (hardsend "-This namespace is not available") SUCCESS w)
    | None =>
        if blen target =? 0 then ([], Undef)
        else
          let i := free_slot 0 (w_slots w) in
          match namespace_load (g_mode (v_set g)) i target [] empty_disk (w_tb w) with
          | None => ([], Undef)
          | Some (t, r) =>
              ([NCreated (n_name (r_cfg r))],
               Done (hardsend "+OK") SUCCESS
                 (mkWorld t (push_slot i r (w_slots w)) (w_eff w + 1) (w_clients w)))
          end
    end
  end end end.

(* zdbd/commands_namespace.c:61-109 and libzdb/namespace.c:671-699, namespace_delete: the hook
   after the files are removed *)
Definition command_nsdel_hook (p : perm) (me : option N) (argv : list bytes) (w : world) : list note * res :=
  match admin_authorized p with Some err => ([], Done err SUCCESS w) | None =>
  match args_validate argv 2 with Some err => ([], Done err SUCCESS w) | None =>
  match args_namespace argv 1 with Some err => ([], Done err SUCCESS w) | None =>
    let target := cstr (arg 1 argv) in
    if bseqb target NAMESPACE_DEFAULT then ([], Done (hardsend "-Cannot remove default namespace") SUCCESS w)
    else match namespace_get target w with
    | None => ([], Done (hardsend "-This namespace doesn't exists") SUCCESS w)
    | Some (i, r) =>
        if match me with Some j => j =? i | None => false end
        then ([], Done (hardsend "-Cannot remove namespace you're currently using.") SUCCESS w)
        else
          ([NDeleted (n_name (r_cfg r))],
           Done (hardsend "+OK") SUCCESS
             (mkWorld (index_clean_namespace (w_tb w) (r_ix r)) (nset i None (w_slots w)) (w_eff w - 1)
                (map (detach_client i) (w_clients w))))
    end
  end end end.

(* zdbd/commands_namespace.c:493-583; libzdb/namespace.c:179-194, namespace_commit, starts the
   hook after the descriptor is written.  That the descriptor cannot be opened is not
   modelled. *)
Definition command_nsset_hook (g : server) (p : perm) (argv : list bytes) (w : world) : list note * res :=
  match admin_authorized p with Some err => ([], Done err SUCCESS w) | None =>
  match args_validate argv 4 with Some err => ([], Done err SUCCESS w) | None =>
  match args_namespace argv 1 with Some err => ([], Done err SUCCESS w) | None =>
  match args_overflow argv 2 COMMAND_MAXLEN with Some err => ([], Done err SUCCESS w) | None =>
  match args_overflow argv 3 63 with Some err => ([], Done err SUCCESS w) | None =>
  match sprint_max (arg 2 argv) with None => ([], Undef) | Some command =>
    let target := cstr (arg 1 argv) in
    let value := cstr (arg 3 argv) in
    match namespace_get target w with
    | None => ([], Done (hardsend "-Namespace not found") SUCCESS w)
    | Some (i, r) =>
        if bseqb command (str "mode") then
          match nsset_mode g value (est_of w r) with
          | inl err => ([], Done err SUCCESS w)
          | inr s =>
              ([NUpdated (n_name (r_cfg r))],
               Done (hardsend "+OK") SUCCESS
                 (put_est i (mkNs (r_cfg r) (namespace_commit (r_cfg r) (r_desc r)) (r_ix r) (r_dt r) (r_dk r)) s w))
          end
        else
          match nsset_apply (bseqb target NAMESPACE_DEFAULT) command value (r_cfg r) with
          | inl err => ([], Done err SUCCESS w)
          | inr c =>
              ([NUpdated (n_name (r_cfg r))],
               Done (hardsend "+OK") SUCCESS
                 (put_slot i (Some (mkNs c (namespace_commit c (r_desc r)) (r_ix r) (r_dt r) (r_dk r))) w))
          end
    end
  end end end end end end.

(* zdbd/commands_namespace.c:609-640 and libzdb/namespace.c:605-622, namespace_reload *)
Definition command_reload_hook (g : server) (p : perm) (argv : list bytes) (w : world) : list note * res :=
  match admin_authorized p with Some err => ([], Done err SUCCESS w) | None =>
  match args_validate argv 2 with Some err => ([], Done err SUCCESS w) | None =>
  match args_namespace argv 1 with Some err => ([], Done err SUCCESS w) | None =>
    match namespace_get (cstr (arg 1 argv)) w with
    | None => ([], Done (hardsend "-Namespace not found") SUCCESS w)
    | Some (i, r) =>
        match namespace_reload g i r w with
        | None => ([], Undef)
        | Some w' => ([NReloaded (n_name (r_cfg r))], Done (hardsend "+OK") SUCCESS w')
        end
    end
  end end end.

(* the commands which start a hook about a namespace; libzdb/namespace.c:630-658,
   namespace_flush, starts none *)
Definition handle_hook (g : server) (v : env) (fd : N) (cl : client) (i : N) (r : nsrec) (c : cmd)
    (argv : list bytes) (w : world) : list note * res :=
  match c with
  | CNsnew => command_nsnew_hook g (perm_of cl) argv w
  | CNsdel => command_nsdel_hook (perm_of cl) (c_ns cl) argv w
  | CNsset => command_nsset_hook g (perm_of cl) argv w
  | CReload => command_reload_hook g (perm_of cl) argv w
  | _ => ([], handle g v fd cl i r c argv w)
  end.

(* zdbd/commands.c:160-208, redis_dispatcher *)
Definition dispatch_hook (g : server) (v : env) (fd : N) (cl : client) (argv : list bytes) (w : world) : list note * res :=
  match c_ns cl with
  | None => ([], Done (hardsend "-Your active namespace is not available anymore (probably removed).") DISCARD w)
  | Some i =>
      match slot i w with
      | None => ([], Undef)
      | Some r =>
          match lookup_handler (arg 0 argv) with
          | None => ([], Done (hardsend "-Command not supported") SUCCESS (put_client fd (c_set_exec None cl) w))
          | Some (h, c) =>
              let cl' := c_set_exec (Some h) cl in
              handle_hook g v fd cl' i r c argv (put_client fd cl' w)
          end
      end
  end.

(* zdbd/redis.c:604-672, as request in Server.v *)
Definition request_hook (g : server) (v : env) (fd : N) (argv : list bytes) (w : world) : list note * sres :=
  match client_at fd w with
  | None => ([], SUndef)
  | Some cl =>
      let run argv :=
        let '(notes, r) := dispatch_hook g v fd cl argv w in
        (notes,
         match r with
         | Undef => SUndef
         | Done rep st w1 =>
             match posthandler v fd argv w1 with
             | None => SUndef
             | Some (out, w2) => SDone ((fd, rep) :: out) st w2
             end
         end) in
      if c_master cl then
        if 32 <? blen (last argv []) then ([], SDone [] SUCCESS w)
        else if nlen argv <=? 1 then ([], SUndef)
        else run (removelast argv)
      else run argv
  end.

(* one event; at a start namespaces-init (libzdb/namespace.c:479-481, the server waits for
   the program), and no hook for the namespaces which are loaded (namespace_scanload,
   libzdb/namespace.c:385-422, does not go through namespace_create) *)
Definition run_sevent_hook (g : server) (e : sevent) (w : world) : list note * sres :=
  match e with
  | SRequest fd v argv => request_hook g v fd argv w
  | SRestart ord => ([NInit], run_sevent g e w)
  | _ => ([], run_sevent g e w)
  end.

(* a run: after each event the notes and the server *)
Fixpoint run_hook (g : server) (es : list sevent) (w : world) : option (list (list note * world) * world) :=
  match es with
  | [] => Some ([], w)
  | e :: r =>
      let '(notes, x) := run_sevent_hook g e w in
      match x with
      | SUndef => None
      | SDone _ _ w1 =>
          match run_hook g r w1 with
          | None => None
          | Some (l, w2) => Some ((notes, w1) :: l, w2)
          end
      end
  end.
