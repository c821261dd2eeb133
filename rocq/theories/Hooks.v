(* MODEL of libzdb/hook.c and of the command HOOKS: the processes a server starts to
   tell an external program what happens, and the list it keeps of them. *)
From Coq Require Import Strings.String Strings.Byte List NArith Bool.
From Verif Require Import Bytes Layout Text.
Import ListNotations.
Open Scope N_scope.

(* libzdb/hook.h:4-5 *)
Definition HOOKS_INITIAL_LENGTH : N := 8.
Definition HOOKS_EXPIRE_SECONDS : N := 300.

(* libzdb/hook.h:10-20: hook_t.  h_argv holds the arguments set so far (argidx is their
   number), h_argc the length of the array, the last place of which stays NULL. *)
Record hook := mkHook {
  h_pid : N; h_argc : N; h_argv : list bytes; h_created : N; h_finished : N; h_status : N }.

(* libzdb/hook.h:22-27 (zdb_hooks_t: the slots, and the number in use) and
   libzdb/libzdb.h:62 (childwait, 32 bits) *)
Record hooks := mkHooks { hs_slots : list (option hook); hs_active : N; hs_wait : N }.

(* libzdb/hook.c:22-32, called at libzdb/bootstrap.c:61 *)
Definition hook_initialize : hooks := mkHooks (repeat None (N.to_nat HOOKS_INITIAL_LENGTH)) 0 0.

(* libzdb/hook.c:49-55: the first free slot, when there is one *)
Fixpoint fill (h : hook) (l : list (option hook)) : option (list (option hook)) :=
  match l with
  | [] => None
  | None :: t => Some (Some h :: t)
  | Some x :: t => match fill h t with Some t' => Some (Some x :: t') | None => None end
  end.

(* libzdb/hook.c:46-74.  The list doubles when it is full.  realloc is taken to succeed. *)
Definition hooks_append_hook (h : hook) (s : hooks) : hooks :=
  match fill h (hs_slots s) with
  | Some l => mkHooks l (hs_active s + 1) (hs_wait s)
  | None => mkHooks (hs_slots s ++ Some h :: repeat None (List.length (hs_slots s) - 1))
                    (hs_active s + 1) (hs_wait s)
  end.

(* libzdb/hook.c:76-105, without the insertion in the list, which hook_call does: nothing
   looks at the list between hook_new and the start of the process.  program is
   zdb_rootsettings.hook. *)
Definition hook_new (program name : bytes) (argc : N) : hook :=
  mkHook 0 (argc + 3) [cstr program; cstr name] 0 0 0.

(* libzdb/hook.c:107-117 *)
Definition hook_append (h : hook) (a : bytes) : hook :=
  if nlen (h_argv h) =? h_argc h - 1 then h
  else mkHook (h_pid h) (h_argc h) (h_argv h ++ [cstr a]) (h_created h) (h_finished h) (h_status h).

(* a hook with its arguments, as the callers make it: libzdb/namespace.c:171-173, 334-336,
   471-474, 594-596, 660-662, 708-713, libzdb/data.c:119-121, 419-442,
   libzdb/index.c:348-381, zdbd/redis.c:1283-1285, zdbd/zdbd.c:196-197, 215-216.  Each
   announces as many arguments as it appends. *)
Definition hook_make (program name : bytes) (args : list bytes) : hook :=
  fold_left hook_append args (hook_new program name (nlen args)).

(* sys/wait.h: the status of waitpid.  A process which ended with exit code c has c * 256,
   one killed by a signal has the number of the signal, plus 128 with a core dump. *)
Definition WIFEXITED (st : N) : bool := N.land st 127 =? 0.
Definition WIFSIGNALED (st : N) : bool := negb (N.land st 127 =? 0) && negb (N.land st 127 =? 127).
Definition WEXITSTATUS (st : N) : N := N.land (st / 256) 255.

(* libzdb/hook.c:119-146.  pid is what fork returns to the server, 0 standing for failure
   (the code sets it to 0 at line 127).  The counter is 32 bits wide. *)
Definition hook_execute (h : hook) (pid now : N) (s : hooks) : hooks :=
  let h' := mkHook pid (h_argc h) (h_argv h) now 0 0 in
  hooks_append_hook h' (mkHooks (hs_slots s) (hs_active s) (if pid =? 0 then hs_wait s else (hs_wait s + 1) mod 2 ^ 32)).

(* libzdb/hook.c:148-166.  waitpid gives the status st; when it fails (which the code
   does not look at), st is what was on the stack.  The result is the exit status. *)
Definition hook_execute_wait (h : hook) (pid now st now' : N) (s : hooks) : N * hooks :=
  let w := if pid =? 0 then hs_wait s else (hs_wait s + 1) mod 2 ^ 32 in
  let h' := mkHook pid (h_argc h) (h_argv h) now now' (WEXITSTATUS st) in
  (WEXITSTATUS st,
   hooks_append_hook h' (mkHooks (hs_slots s) (hs_active s) ((w + (2 ^ 32 - 1)) mod 2 ^ 32))).

(* libzdb/hook.c:179-183: finished, and finished < now - 300 (signed) *)
Definition expired (now : N) (h : hook) : bool := negb (h_finished h =? 0) && (h_finished h + HOOKS_EXPIRE_SECONDS <? now).

(* libzdb/hook.c:168-194: the slots left, and the number of those emptied *)
Fixpoint expired_cleanup (now : N) (l : list (option hook)) : list (option hook) * N :=
  match l with
  | [] => ([], 0)
  | None :: t => let '(t', n) := expired_cleanup now t in (None :: t', n)
  | Some h :: t =>
      let '(t', n) := expired_cleanup now t in
      if expired now h then (None :: t', n + 1) else (Some h :: t', n)
  end.

(* libzdb/hook.c:228-238: looking for the hook of a process which ended.  None: the slot
   looked at is empty, and line 233 follows a null pointer. *)
Fixpoint mark (pid st now : N) (l : list (option hook)) : option (list (option hook)) :=
  match l with
  | [] => Some []
  | None :: _ => None
  | Some h :: t =>
      if (h_pid h =? pid) && (h_finished h =? 0)
      then Some (Some (mkHook (h_pid h) (h_argc h) (h_argv h) (h_created h) now (WEXITSTATUS st)) :: t)
      else match mark pid st now t with Some t' => Some (Some h :: t') | None => None end
  end.

(* libzdb/hook.c:220-239: ended lists what waitpid returns, until it returns no more.  The
   clock is read once for all of them. *)
Fixpoint collect (ended : list (N * N)) (now : N) (s : hooks) : option hooks :=
  match ended with
  | [] => Some s
  | (pid, st) :: t =>
      let w := if WIFEXITED st || WIFSIGNALED st then (hs_wait s + (2 ^ 32 - 1)) mod 2 ^ 32 else hs_wait s in
      match mark pid st now (hs_slots s) with
      | None => None
      | Some l => collect t now (mkHooks l (hs_active s) w)
      end
  end.

(* libzdb/hook.c:196-240, called from zdbd/redis.c:1123 when the server is idle; ended is
   what waitpid would return *)
Definition hooks_cleanup (ended : list (N * N)) (now : N) (s : hooks) : option hooks :=
  if hs_wait s =? 0 then
    if hs_active s =? 0 then Some s
    else let '(l, n) := expired_cleanup now (hs_slots s) in Some (mkHooks l (hs_active s - n) (hs_wait s))
  else collect ended now s.

(* zdbd/commands_system.c:159-162: k arguments of those left.  None: an
   argument was not set, and strlen gets a null pointer. *)
Fixpoint show_args (k : nat) (l : list bytes) : option bytes :=
  match k, l with
  | O, _ => Some []
  | S _, [] => None
  | S k', a :: t => match show_args k' t with
                    | Some r => Some (str "$" ++ dec (blen a) ++ CRLF ++ a ++ CRLF ++ r)
                    | None => None
                    end
  end.

(* zdbd/commands_system.c:144-174: one hook *)
Definition show_hook (h : hook) : option bytes :=
  match h_argv h with
  | _ :: type :: rest =>
      match show_args (N.to_nat (h_argc h - 1) - 3) (skipn 1 rest) with
      | Some r =>
          Some (str "*6" ++ CRLF ++ str "$" ++ dec (blen type) ++ CRLF ++ type ++ CRLF
                ++ str "*" ++ dec (sub64 (h_argc h) 4) ++ CRLF ++ r
                ++ str ":" ++ dec (h_pid h) ++ CRLF ++ str ":" ++ dec (h_created h) ++ CRLF
                ++ str ":" ++ dec (h_finished h) ++ CRLF ++ str ":" ++ dec (h_status h) ++ CRLF)
      | None => None
      end
  | _ => None
  end.

(* zdbd/commands_system.c:140-175 *)
Fixpoint show_slots (l : list (option hook)) : option bytes :=
  match l with
  | [] => Some []
  | None :: t => show_slots t
  | Some h :: t =>
      match show_hook h, show_slots t with
      | Some a, Some b => Some (a ++ b)
      | _, _ => None
      end
  end.

(* zdbd/commands_system.c:125-180, after the permission check, which Server.v models.
   None: undefined.  The reply is written in (active + 1) * 1024 bytes, without looking;
   sprintf adds a NUL. *)
Definition command_hooks (s : hooks) : option bytes :=
  match show_slots (hs_slots s) with
  | Some r =>
      let t := str "*" ++ dec (hs_active s) ++ CRLF ++ r in
      if (hs_active s + 1) * 1024 <? blen t + 1 then None else Some t
  | None => None
  end.

(* What happens to the list of hooks: a process is started and left alone (name, arguments,
   what fork returns, time); one is started and waited for (and the status waitpid gives,
   the time it ended); the server is idle (what waitpid would return, time); HOOKS. *)
Inductive hevent :=
| HStart (name : bytes) (args : list bytes) (pid now : N)
| HWait (name : bytes) (args : list bytes) (pid now st now' : N)
| HIdle (ended : list (N * N)) (now : N)
| HShow.

(* the answers: the exit status for HWait, the reply for HShow *)
Inductive hout := ONone | OStatus (n : N) | OReply (t : bytes).

(* one event; the lines are those cited at the functions called.  Without a hook program
   no hook is made (the callers test zdb_rootsettings.hook first). *)
Definition hook_step (program : bytes) (e : hevent) (s : hooks) : option (hout * hooks) :=
  match e with
  | HStart name args pid now => Some (ONone, hook_execute (hook_make program name args) pid now s)
  | HWait name args pid now st now' =>
      let '(r, s') := hook_execute_wait (hook_make program name args) pid now st now' s in Some (OStatus r, s')
  | HIdle ended now => match hooks_cleanup ended now s with Some s' => Some (ONone, s') | None => None end
  | HShow => match command_hooks s with Some t => Some (OReply t, s) | None => None end
  end.

(* a run of events from the start of the server *)
Fixpoint hook_run (program : bytes) (es : list hevent) (s : hooks) : option (list hout * hooks) :=
  match es with
  | [] => Some ([], s)
  | e :: t =>
      match hook_step program e s with
      | None => None
      | Some (o, s1) => match hook_run program t s1 with Some (os, s2) => Some (o :: os, s2) | None => None end
      end
  end.
