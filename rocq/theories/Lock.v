(* MODEL of the locks on the directories of a database (libzdb/bootstrap.c), with what the
   operating system keeps for them: a lock taken with flock belongs to the opened file, which
   is inherited by every process the holder starts, and lasts until all of them closed it. *)
From Coq Require Import List NArith Bool.
Import ListNotations.
Open Scope N_scope.

(* What can go wrong in zdb_lock: the file cannot be opened, or flock fails with another
   error than EWOULDBLOCK (ENOLCK, EOPNOTSUPP on some file systems) *)
Inductive fault := NoFault | OpenFails | FlockFails.

(* the locked files: directory and process which has the locked file open.  A directory is
   a number, the same for all paths leading to it. *)
Definition locks : Type := list (N * N).

(* libzdb/bootstrap.c:72-93.  None: the result is negative.  When flock fails with another
   error the result is 1, which the caller takes for the descriptor of a lock. *)
Definition zdb_lock (f : fault) (pid dir : N) (l : locks) : option locks :=
  match f with
  | OpenFails => None
  | FlockFails => Some l
  | NoFault => if existsb (fun x => fst x =? dir) l then None else Some ((dir, pid) :: l)
  end.

(* libzdb/bootstrap.c:95-145, up to namespaces_init.  realpath is taken to give the same
   text for two paths when and only when they lead to the same directory; not modelled are a
   directory which cannot be created (strcmp is called with NULL) and a path of 502 bytes or
   more (the name of the lock file is cut at 511). *)
Definition zdb_open (f1 f2 : fault) (pid index data : N) (l : locks) : option locks :=
  if index =? data then None
  else match zdb_lock f1 pid index l with
       | None => None
       | Some l1 => zdb_lock f2 pid data l1
       end.

(* What processes do: a server is started on two directories (zdbd/zdbd.c:237-240); a process
   starts another one (libzdb/hook.c:124; the lock files are not opened with O_CLOEXEC, so the
   child has them too, also after execv); a process ends, by itself (libzdb/bootstrap.c:147-162)
   or not. *)
Inductive pevent :=
| PStart (pid index data : N) (f1 f2 : fault)
| PHook (pid child : N)
| PExit (pid : N).

(* one event, and whether a server is running afterwards by it.  A start that is refused ends
   the process (zdbd/zdbd.c:239), which drops what it had locked. *)
Definition plock_step (e : pevent) (l : locks) : bool * locks :=
  match e with
  | PStart pid index data f1 f2 =>
      match zdb_open f1 f2 pid index data l with Some l' => (true, l') | None => (false, l) end
  | PHook pid child => (false, map (fun x => (fst x, child)) (filter (fun x => snd x =? pid) l) ++ l)
  | PExit pid => (false, filter (fun x => negb (snd x =? pid)) l)
  end.

(* events one after the other *)
Fixpoint plock_run (es : list pevent) (l : locks) : list bool * locks :=
  match es with
  | [] => ([], l)
  | e :: t => let '(b, l1) := plock_step e l in let '(bs, l2) := plock_run t l1 in (b :: bs, l2)
  end.
