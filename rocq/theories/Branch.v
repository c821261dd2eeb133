(* MODEL.  libzdb/index_branch.c and the functions of libzdb/index.c that use it: the
   table of buckets as linked lists in memory.  Every access to a cell that is not
   allocated is an error (None).  The hash function and the number of buckets are
   arguments; the table of Store.v is the one with index_key_hash and 2^24. *)
From Coq Require Import Strings.String Strings.Byte List NArith Bool.
From Verif Require Import Bytes Layout Store.
Import ListNotations.
Open Scope N_scope.

(* libzdb/index.h:77-104: an entry with its link; addresses are numbers, a null
   pointer is None *)
Record node := mkNode { nd_e : entry; nd_next : option N }.

(* libzdb/index.h, index_branch_t *)
Record branch := mkBranch { br_len : N; br_last : option N; br_list : option N }.

(* the allocated entries by address, and the array of branches; a branch is allocated
   at its first use and stays, so it is kept in the array itself *)
Record mem := mkMem { m_node : N -> option node; m_branch : N -> option branch }.

(* libzdb/index_branch.c:46-48, index_buckets_init: calloc *)
Definition buckets_init : mem := mkMem (fun _ => None) (fun _ => None).

Definition put_node (a : N) (n : option node) (m : mem) : mem :=
  mkMem (fun b => if b =? a then n else m_node m b) (m_branch m).
Definition put_branch (h : N) (b : branch) (m : mem) : mem :=
  mkMem (m_node m) (fun g => if g =? h then Some b else m_branch m g).

(* p->next = q *)
Definition link (p : N) (q : option N) (m : mem) : option mem :=
  match m_node m p with
  | Some n => Some (put_node p (Some (mkNode (nd_e n) q)) m)
  | None => None
  end.

Definition ptr_eq (a b : option N) : bool :=
  match a, b with Some x, Some y => x =? y | None, None => true | _, _ => false end.

(* libzdb/index_branch.c:105-127, index_branch_append of the entry at address a *)
Definition branch_append (h a : N) (m : mem) : option mem :=
  let b := match m_branch m h with Some b => b | None => mkBranch 0 None None end in
  let list' := match br_list b with None => Some a | p => p end in
  let m1 := put_branch h (mkBranch (u64 (br_len b + 1)) (Some a) list') m in
  match br_last b with
  | None => link a None m1
  | Some p => match link p (Some a) m1 with Some m2 => link a None m2 | None => None end
  end.

(* libzdb/index_branch.c:135-153, index_branch_remove *)
Definition branch_remove (h a : N) (previous : option N) (m : mem) : option mem :=
  match m_branch m h, m_node m a with
  | Some b, Some n =>
      let list' := if ptr_eq (br_list b) (Some a) then nd_next n else br_list b in
      let last' := if ptr_eq (br_last b) (Some a) then previous else br_last b in
      let m1 := put_branch h (mkBranch (sub64 (br_len b) 1) last' list') m in
      match previous with
      | Some p => link p (nd_next n) m1
      | None => Some m1
      end
  | _, _ => None
  end.

(* libzdb/index_branch.c:158-174, index_branch_get_previous; the loop from iterator on.
   None: a cell that is not allocated, or more turns than fuel. *)
Fixpoint previous_loop (fuel : nat) (m : mem) (a : N) (previous iterator : option N) : option (option N) :=
  match fuel with
  | O => None
  | S fuel' =>
      match iterator with
      | None => Some (Some a)
      | Some p =>
          if p =? a then Some previous
          else match m_node m p with
               | Some n => previous_loop fuel' m a (Some p) (nd_next n)
               | None => None
               end
      end
  end.

(* libzdb/index.c:424-445, index_entry_get; the loop from p on *)
Fixpoint get_loop (fuel : nat) (m : mem) (ns : N) (id : bytes) (p : option N) : option (option N) :=
  match fuel with
  | O => None
  | S fuel' =>
      match p with
      | None => Some None
      | Some a =>
          match m_node m a with
          | None => None
          | Some n =>
              if negb (blen (e_id (nd_e n)) =? blen id) then get_loop fuel' m ns id (nd_next n)
              else if negb (e_ns (nd_e n) =? ns) then get_loop fuel' m ns id (nd_next n)
              else if bseqb (e_id (nd_e n)) id then Some (Some a)
              else get_loop fuel' m ns id (nd_next n)
          end
      end
  end.
Definition entry_get (hash : bytes -> N) (fuel : nat) (ns : N) (id : bytes) (m : mem) : option (option N) :=
  match m_branch m (hash id) with
  | None => Some None
  | Some b => get_loop fuel m ns id (br_list b)
  end.

(* libzdb/index_set.c:174-213, the part about the table: calloc gives the address a *)
Definition entry_insert (hash : bytes -> N) (a : N) (e : entry) (m : mem) : option mem :=
  branch_append (hash (e_id e)) a (put_node a (Some (mkNode e None)) m).

(* libzdb/index.c:505-534, index_entry_delete_memory, the part about the table.  The
   branch of an entry that is in no branch is a null pointer.  When the entry is not
   found the function returns 1 and changes nothing. *)
Definition entry_delete (hash : bytes -> N) (fuel : nat) (a : N) (m : mem) : option mem :=
  match m_node m a with
  | None => None
  | Some n =>
      let h := hash (e_id (nd_e n)) in
      match m_branch m h with
      | None => None
      | Some b =>
          match previous_loop fuel m a None (br_list b) with
          | None => None
          | Some previous =>
              if ptr_eq previous (Some a) then Some m
              else match branch_remove h a previous m with
                   | Some m1 => Some (put_node a None m1)
                   | None => None
                   end
          end
      end
  end.

(* libzdb/index.c:715-745, index_clean_namespace_branch; the loop from p on *)
Fixpoint clean_loop (fuel : nat) (h ns : N) (previous p : option N) (m : mem) : option mem :=
  match fuel with
  | O => None
  | S fuel' =>
      match p with
      | None => Some m
      | Some a =>
          match m_node m a with
          | None => None
          | Some n =>
              if negb (e_ns (nd_e n) =? ns) then clean_loop fuel' h ns (Some a) (nd_next n) m
              else match branch_remove h a previous m with
                   | Some m1 => clean_loop fuel' h ns previous (nd_next n) (put_node a None m1)
                   | None => None
                   end
          end
      end
  end.

(* libzdb/index.c:752-771, index_clean_namespace: the buckets from b on, k of them *)
Fixpoint clean_buckets (fuel k : nat) (b ns : N) (m : mem) : option mem :=
  match k with
  | O => Some m
  | S k' =>
      match m_branch m b with
      | None => clean_buckets fuel k' (b + 1) ns m
      | Some br =>
          match clean_loop fuel b ns None (br_list br) m with
          | Some m1 => clean_buckets fuel k' (b + 1) ns m1
          | None => None
          end
      end
  end.

(* what the callers do with the table *)
Inductive cmd :=
| CGet (ns : N) (id : bytes)                            (* index_entry_get *)
| CInsert (e : entry)                                   (* libzdb/index_set.c:174-213 *)
| CUpdate (ns : N) (id : bytes) (f : entry -> entry)    (* libzdb/index_set.c:238-269 on the entry found *)
| CDelete (ns : N) (id : bytes)                         (* index_entry_delete_memory of the entry found *)
| CClean (ns : N).                                      (* index_clean_namespace *)

(* a is the address that calloc returns, if asked *)
Definition do_cmd (hash : bytes -> N) (nb : nat) (fuel : nat) (a : N) (m : mem) (c : cmd) : option (option entry * mem) :=
  match c with
  | CGet ns id =>
      match entry_get hash fuel ns id m with
      | None => None
      | Some None => Some (None, m)
      | Some (Some p) => match m_node m p with Some n => Some (Some (nd_e n), m) | None => None end
      end
  | CInsert e => match entry_insert hash a e m with Some m1 => Some (None, m1) | None => None end
  | CUpdate ns id f =>
      match entry_get hash fuel ns id m with
      | None => None
      | Some None => Some (None, m)
      | Some (Some p) =>
          match m_node m p with
          | Some n => Some (None, put_node p (Some (mkNode (f (nd_e n)) (nd_next n))) m)
          | None => None
          end
      end
  | CDelete ns id =>
      match entry_get hash fuel ns id m with
      | None => None
      | Some None => Some (None, m)
      | Some (Some p) => match entry_delete hash fuel p m with Some m1 => Some (None, m1) | None => None end
      end
  | CClean ns => match clean_buckets fuel nb 0 ns m with Some m1 => Some (None, m1) | None => None end
  end.
