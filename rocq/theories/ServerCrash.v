(* MODEL.  The server dies while it handles an event, and is started again
   (libzdb/namespace.c, zdbd/zdbd.c).  As in CrashModel.v, what write(2) accepted is
   kept.  A death inside of namespace_delete is in delete_left, one while the server
   starts in start_left, both at the end. *)
From Coq Require Import Strings.String Strings.Byte List NArith Bool.
From Verif Require Import Bytes Layout Store Text Commands SpecKV Machine CrashModel Namespace Server.
Import ListNotations.
Open Scope N_scope.

(* libzdb/namespace.c:70-100, namespace_descriptor_update: its writes, offset and bytes,
   in order (the file is not truncated) *)
Definition desc_writes (c : nscfg) : list (N * bytes) :=
  let h := descriptor_header c in
  [(0, enc_nshdr h); (15, nfirst (nh_namelen h) (n_name c))] ++
  match n_pass c with Some p => [(15 + nh_namelen h, nfirst (nh_passlen h) p)] | None => [] end.

Definition desc_apply (ws : list (N * bytes)) (f : bytes) : bytes :=
  fold_left (fun f w => fwrite f (fst w) (snd w)) ws f.

(* j writes are done, and n bytes of the next *)
Definition desc_persisted (ws : list (N * bytes)) (j : nat) (n : N) : list (N * bytes) :=
  firstn j ws ++
  match nth_error ws j with Some (o, b) => if n =? 0 then [] else [(o, nfirst n b)] | None => [] end.

(* one namespace, which an event takes from r to r': the writes to its index and data
   files come first, then those to its descriptor (zdbd/commands_namespace.c:533-577);
   the first j of them are done, and n bytes of the next.  Writes that leave the
   descriptor as it was are left out: each of them writes what is there. *)
Definition ns_cut (r r' : nsrec) (j : nat) (n : N) : stored :=
  let W := new_writes (r_dk r) (r_dk r') in
  let Wd := if bseqb (r_desc r) (r_desc r') then [] else desc_writes (r_cfg r') in
  let late := Nat.leb (List.length W) j in
  (n_name (r_cfg r),
   if late then desc_apply (desc_persisted Wd (j - List.length W) n) (r_desc r) else r_desc r,
   crash_disk (r_dk r) (persisted W j n)).

(* an event handles the namespaces in the order of their slots (zdbd/redis.c:1091-1110):
   those before k are done, k is cut, the others are as before.  A namespace which the
   event removes is still there: the process dies before its first file is removed. *)
Definition crash_entry (k : N) (j : nat) (n : N) (i : N) (r : nsrec) (o' : option nsrec) : stored :=
  match o' with
  | Some r' => if i <? k then (n_name (r_cfg r), r_desc r', r_dk r')
               else if i =? k then ns_cut r r' j n
               else (n_name (r_cfg r), r_desc r, r_dk r)
  | None => (n_name (r_cfg r), r_desc r, r_dk r)
  end.

Fixpoint crash_list (k : N) (j : nat) (n : N) (w' : world) (i : N) (l : list (option nsrec)) : list stored :=
  match l with
  | [] => []
  | None :: t => crash_list k j n w' (i + 1) t
  | Some r :: t => crash_entry k j n i r (slot i w') :: crash_list k j n w' (i + 1) t
  end.

(* libzdb/namespace.c:385-422 and 228-289: NSNEW makes the directories, then the
   descriptor, then the first files; r' is the namespace as it would have been *)
Definition crash_new (j : nat) (n : N) (r' : nsrec) : stored :=
  let Wd := desc_writes (r_cfg r') in
  let late := Nat.leb (List.length Wd) j in
  (n_name (r_cfg r'),
   desc_apply (desc_persisted Wd j n) [],
   if late then crash_disk empty_disk (persisted (new_writes empty_disk (r_dk r')) (j - List.length Wd) n) else empty_disk).

Fixpoint new_slots (w : world) (i : N) (l : list (option nsrec)) : list nsrec :=
  match l with
  | [] => []
  | o :: t => match slot i w, o with None, Some r' => [r'] | _, _ => [] end ++ new_slots w (i + 1) t
  end.

(* where the process dies *)
Inductive point :=
| PRun (k : N) (j : nat) (n : N)     (* in the writes to the namespace of slot k *)
| PNew (j : nat) (n : N).            (* while a namespace is made, its directories being there *)

(* what the next start finds, where the event leads from w to w' *)
Definition crash_disks (pt : point) (w w' : world) : list stored :=
  match pt with
  | PRun k j n => crash_list k j n w' 0 (w_slots w)
  | PNew j n => stored_of w ++ map (crash_new j n) (new_slots w 0 (w_slots w'))
  end.

(* histories with crashes: the directories are found in the order ord *)
Inductive kevent :=
| KEv (e : sevent)
| KCrash (e : sevent) (pt : point) (ord : list stored).

Definition run_kevent (g : server) (e : kevent) (w : world) : option (list (N * bytes) * world) :=
  match e with
  | KEv e => match run_sevent g e w with SDone out _ w' => Some (out, w') | SUndef => None end
  | KCrash _ _ ord => match boot g ord with Some w' => Some ([], w') | None => None end
  end.

Fixpoint run_kevents (g : server) (es : list kevent) (w : world) : option (list (list (N * bytes)) * world) :=
  match es with
  | [] => Some ([], w)
  | e :: r =>
      match run_kevent g e w with
      | None => None
      | Some (out, w1) =>
          match run_kevents g r w1 with Some (outs, w2) => Some (out :: outs, w2) | None => None end
      end
  end.

(* libzdb/namespace.c:662-692, namespace_delete, and filesystem.c:54-71, zdb_dir_remove:
   nftw removes the files of the index directory in the order of the directory, which
   may be any, then this directory, then the data directory in the same way.  What a
   start finds of the namespace s when the process dies in between: the descriptor is
   there or not, the index files before the first missing one are k (the loader looks at
   no other, index_loader.c:387-404), the data files are all there; or nothing, once the
   index directory is gone (namespace.c:396-404).  Simplified: the index files after the
   first missing one are taken as removed; the server would find them again when it
   jumps to their number. *)
Inductive delete_left : stored -> option stored -> Prop :=
| left_some name desc d (kept : bool) k :
    delete_left (name, desc, d) (Some (name, if kept then desc else [], mkDisk (firstn k (dk_i d)) (dk_d d) (dk_log d) (dk_io d)))
| left_none s : delete_left s None.

(* libzdb/namespace.c:385-422 and 228-289: what the start of the server on the namespaces
   l leaves when the process dies.  They are loaded in the order of the directory: those
   before are done, the writes to the files of one are cut at (j, n), the others are as
   before.  The descriptor of a namespace comes before its files (namespace.c:244-273); it
   is written only when it is shorter than its header.  Left out: a death inside of this
   write (as in crash_new), and a start which ends by itself at a damaged file. *)
Inductive start_left (smode : N) : N -> table -> list stored -> list stored -> Prop :=
| sl_before i t l : start_left smode i t l l
| sl_skip i t name desc d rest rest' :
    descriptor_load name desc = None -> start_left smode i t rest rest' ->
    start_left smode i t ((name, desc, d) :: rest) ((name, desc, d) :: rest')
| sl_done i t name desc d t1 r rest rest' :
    namespace_load smode i name desc d t = Some (t1, r) -> start_left smode (i + 1) t1 rest rest' ->
    start_left smode i t ((name, desc, d) :: rest) ((name, r_desc r, r_dk r) :: rest')
| sl_cut i t name desc d t1 r j n rest :
    namespace_load smode i name desc d t = Some (t1, r) ->
    start_left smode i t ((name, desc, d) :: rest)
      ((name, r_desc r, crash_disk d (persisted (new_writes d (r_dk r)) j n)) :: rest).
