(* SPEC vocabulary: the index files written over, and what INDEX DIRTY lists. *)
From Coq Require Import Strings.String Strings.Byte List NArith Bool.
From Verif Require Import Bytes Layout Store Text Commands System SpecKV Machine CrashModel.
Import ListNotations.
Open Scope N_scope.

(* the index files in which a list of writes changes bytes that are already there;
   fs: the index and data files before *)
Fixpoint overwrites (fs : list bytes * list bytes) (ws : list dwrite) : list nat :=
  match ws with
  | [] => []
  | w :: t =>
      match w with
      | WrI f off _ =>
          match nth_error (fst fs) (N.to_nat f) with
          | Some b => if off <? blen b then [N.to_nat f] else []
          | None => []
          end
      | _ => []
      end ++ overwrites (apply_write w fs) t
  end.

(* the index files written over between two states of a namespace *)
Definition overwritten (s s' : est) : list nat :=
  overwrites (dk_i (dk s), dk_d (dk s)) (new_writes (dk s) (dk s')).

(* one run of the process: any requests and INDEX commands, no failing write *)
Inductive up : est -> est -> Prop :=
| up_here s : up s s
| up_request g p now q c s s' : up (snd (run_req g p now q c s)) s' -> up s s'
| up_index p argv r s s1 s' : command_index p argv s = Some (r, s1) -> up s1 s' -> up s s'.

(* the same with requests only *)
Inductive serves : est -> est -> Prop :=
| sv_here s : serves s s
| sv_request g p now q c s s' : serves (snd (run_req g p now q c s)) s' -> serves s s'.

(* the namespace has just been loaded without failing writes, or INDEX DIRTY RESET has just been
   answered, in one run of the process *)
Inductive just_reset : est -> Prop :=
| jr_loaded mode n t d s : dk_io d = [] -> store_open mode n t d = Some s -> just_reset s
| jr_reset mode n t d s0 s1 p s : dk_io d = [] -> store_open mode n t d = Some s0 -> up s0 s1 ->
    command_index p [str "INDEX"; str "DIRTY"; str "RESET"] s1 = Some (hardsend "+OK", s) -> just_reset s.

(* INDEX DIRTY of an administrator answers with the list l, and changes nothing *)
Definition lists (s : est) (l : list nat) : Prop :=
  command_index (mkPerm true true) [str "INDEX"; str "DIRTY"] s =
    Some (arrayhdr (N.of_nat (List.length l)) ++ concat (map (fun f => intreply (N.of_nat f)) l), s).

(* a copy of the files old, in which the files chosen are replaced by those of new *)
Fixpoint refreshed (f : nat) (copy : nat -> Prop) (old new kept : list bytes) : Prop :=
  match new, kept with
  | [], [] => True
  | b :: new', k :: kept' =>
      ((copy f /\ k = b) \/ (~ copy f /\ nth_error old f = Some k)) /\ refreshed (S f) copy old new' kept'
  | _, _ => False
  end.
