(* SPEC vocabulary: a map from namespace and key to entry. *)
From Coq Require Import Strings.String Strings.Byte List NArith Bool.
From Verif Require Import Bytes Store Branch.
Import ListNotations.
Open Scope N_scope.

Definition emap := N -> bytes -> option entry.
Definition none : emap := fun _ _ => None.
Definition with_key (m : emap) (ns : N) (id : bytes) (v : option entry) : emap :=
  fun n k => if (n =? ns) && bseqb k id then v else m n k.

Definition m_step (m : emap) (c : cmd) : option entry * emap :=
  match c with
  | CGet ns id => (m ns id, m)
  | CInsert e => (None, with_key m (e_ns e) (e_id e) (Some e))
  | CUpdate ns id f => (None, match m ns id with Some e => with_key m ns id (Some (f e)) | None => m end)
  | CDelete ns id => (None, with_key m ns id None)
  | CClean ns => (None, fun n k => if n =? ns then None else m n k)
  end.

Fixpoint m_run (m : emap) (cs : list cmd) : list (option entry) * emap :=
  match cs with
  | [] => ([], m)
  | c :: r => let '(o, m1) := m_step m c in let '(os, m2) := m_run m1 r in (o :: os, m2)
  end.

(* an insertion is made for a key that is not there, an update keeps namespace and key *)
Definition proper1 (m : emap) (c : cmd) : Prop :=
  match c with
  | CInsert e => m (e_ns e) (e_id e) = None
  | CUpdate ns id f => forall e, m ns id = Some e -> e_ns (f e) = ns /\ e_id (f e) = id
  | _ => True
  end.
Fixpoint proper (m : emap) (cs : list cmd) : Prop :=
  match cs with
  | [] => True
  | c :: r => proper1 m c /\ proper (snd (m_step m c)) r
  end.

(* the memory runs the commands; calloc returns any address that is not in use *)
Inductive runs (hash : bytes -> N) (nb : nat) : mem -> list cmd -> list (option entry) -> mem -> Prop :=
| r_nil m : runs hash nb m [] [] m
| r_cons m c a fuel o m1 cs os m2 : m_node m a = None -> do_cmd hash nb fuel a m c = Some (o, m1) ->
    runs hash nb m1 cs os m2 -> runs hash nb m (c :: cs) (o :: os) m2.

(* the entries met when following the links from p *)
Inductive walk (m : mem) : option N -> list (N * entry) -> Prop :=
| w_end : walk m None []
| w_next a e q l : m_node m a = Some (mkNode e q) -> walk m q l -> walk m (Some a) ((a, e) :: l).

Definition last_of (l : list (N * entry)) : option N :=
  match rev l with [] => None | (a, _) :: _ => Some a end.

(* every branch is a list without end loop, with the right last pointer and length,
   no entry is in two places, and every allocated entry is in one *)
Definition well_linked (hash : bytes -> N) (m : mem) : Prop :=
  (forall h b, m_branch m h = Some b -> exists l, walk m (br_list b) l /\ br_last b = last_of l /\
     br_len b = N.of_nat (List.length l) mod 2 ^ 64 /\ NoDup (map fst l) /\ forall a e, In (a, e) l -> hash (e_id e) = h) /\
  (forall a n, m_node m a = Some n -> exists b l, m_branch m (hash (e_id (nd_e n))) = Some b /\ walk m (br_list b) l /\ In (a, nd_e n) l).

(* the entries of every bucket are, in order, those of the table t *)
Definition holds (m : mem) (t : table) : Prop :=
  forall h, match m_branch m h with
            | None => t h = []
            | Some b => exists l, walk m (br_list b) l /\ map snd l = t h
            end.

(* the same commands on the table of Store.v *)
Definition t_step (t : table) (c : cmd) : option entry * table :=
  match c with
  | CGet ns id => (index_entry_get t ns id, t)
  | CInsert e => (None, table_append t e)
  | CUpdate ns id f => (None, table_update t ns id f)
  | CDelete ns id => (None, table_remove t ns id)
  | CClean ns => (None, table_clean t ns)
  end.
Fixpoint t_run (t : table) (cs : list cmd) : list (option entry) * table :=
  match cs with
  | [] => ([], t)
  | c :: r => let '(o, t1) := t_step t c in let '(os, t2) := t_run t1 r in (o :: os, t2)
  end.
Definition keeps_key (c : cmd) : Prop :=
  match c with CUpdate ns id f => forall e, e_ns e = ns -> e_id e = id -> e_id (f e) = id | _ => True end.
