(* SPECIFICATION for C64: what the hook program is told about the namespaces, and a program
   which keeps a list of the namespaces and their settings from it. *)
From Coq Require Import Strings.String Strings.Byte List NArith Bool.
From Verif Require Import Bytes Layout Text Store Commands Namespace Dispatch SpecKV Server SpecServer NsHook.
Import ListNotations.
Open Scope N_scope.

(* the settings of the namespace with this name, None when there is none *)
Fixpoint asked (l : list (option nsrec)) (name : bytes) : option nscfg :=
  match l with
  | [] => None
  | Some r :: t => if bseqb (n_name (r_cfg r)) name then Some (r_cfg r) else asked t name
  | None :: t => asked t name
  end.
Definition settings_of (w : world) (name : bytes) : option nscfg := asked (w_slots w) name.

(* The program: it looks at the namespace it is told of when it is created or updated,
   forgets it when it is deleted, and drops all locks when the server starts.  It looks at
   nothing else. *)
Definition hear (w : world) (n : note) (P : confset) : confset :=
  match n with
  | NInit => fun m => option_map unlocked (P m)
  | NCreated name | NUpdated name => cput name (settings_of w name) P
  | NDeleted name => cput name None P
  | NReloaded _ => P
  end.

(* l: the notes of each event and the server after it *)
Fixpoint listen (l : list (list note * world)) (P : confset) : confset :=
  match l with
  | [] => P
  | (notes, w) :: t => listen t (fold_left (fun P n => hear w n P) notes P)
  end.

(* what a note says of the servers before and after *)
Definition exists_in (w : world) (name : bytes) : Prop := settings_of w name <> None.
Definition is_true_of (w w' : world) (n : note) : Prop :=
  match n with
  | NInit => True
  | NCreated name => ~ exists_in w name /\ exists_in w' name
  | NDeleted name => exists_in w name /\ ~ exists_in w' name
  | NUpdated name | NReloaded name => exists_in w name /\ exists_in w' name
  end.
Fixpoint all_true (w : world) (l : list (list note * world)) : Prop :=
  match l with
  | [] => True
  | (notes, w') :: t => Forall (is_true_of w w') notes /\ all_true w' t
  end.

(* the default namespace of a new server *)
Definition knows_default : confset := cput (str "default") (Some (fresh_conf (str "default"))) (fun _ => None).

(* what is told for the command c naming this namespace, by its answer *)
Definition notes_of (c : cmd) (name rep : bytes) : list note :=
  if bseqb rep (enc_reply ROk) then
    match c with CNsnew => [NCreated name] | CNsdel => [NDeleted name] | CNsset => [NUpdated name] | CReload => [NReloaded name] | _ => [] end
  else [].
