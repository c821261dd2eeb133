(* SPECIFICATION of a backup kept by the hook program. *)
From Coq Require Import Strings.String Strings.Byte List NArith Bool.
From Verif Require Import Bytes Layout Store Text Commands System SpecKV Machine SpecDirty JumpHook.
Import ListNotations.
Open Scope N_scope.

(* the numbers in a text, separated by spaces: the digits at its beginning, and the rest *)
Fixpoint number (l : bytes) (acc : N) : N * bytes :=
  match l with
  | [] => (acc, [])
  | b :: t => if Byte.eqb b x20 then (acc, t) else number t (acc * 10 + (Byte.to_N b - 48))
  end.
Fixpoint numbers (fuel : nat) (l : bytes) : list N :=
  match l, fuel with
  | _ :: _, S m => let '(n, t) := number l 0 in n :: numbers m t
  | _, _ => []
  end.
Definition told (r : jreport) : list N := numbers (List.length (r_dirty r)) (r_dirty r).

(* the copies the program has, by the number of the index file *)
Definition copies : Type := N -> option bytes.
Definition copy (fs : list N) (r : jreport) (b : copies) : copies :=
  fun f => if existsb (N.eqb f) fs then nth_error (r_files r) (N.to_nat f) else b f.

(* A history: events, each with the exit code the program ends with if it is called, and the
   files it copies then. *)
Definition history : Type := list (bevent * (N * list N)).
Fixpoint follow (h : history) (s : est) (b : copies) : option (est * copies) :=
  match h with
  | [] => Some (s, b)
  | (e, (code, fs)) :: t =>
      match bstep e code s with
      | None => None
      | Some (o, s1) => follow t s1 (match o with Some r => copy fs r b | None => b end)
      end
  end.

(* The program always copies the file just closed, and does not say that it succeeded unless
   it has copied all the files it was told of. *)
Definition careful (code : N) (fs : list N) (r : jreport) : Prop :=
  In (r_closed r) fs /\ (code = 0 -> forall f, In f (told r) -> In f fs).
Fixpoint all_careful (h : history) (s : est) : Prop :=
  match h with
  | [] => True
  | (e, (code, fs)) :: t =>
      match bstep e code s with
      | None => True
      | Some (o, s1) => match o with Some r => careful code fs r | None => True end /\ all_careful t s1
      end
  end.

(* nobody asks for INDEX DIRTY RESET *)
Definition no_reset (x : bevent * (N * list N)) : Prop :=
  match fst x with BIndex _ argv => List.length argv <> 3%nat | _ => True end.

(* the file has a good copy *)
Definition saved (s : est) (b : copies) (f : nat) : Prop := b (N.of_nat f) = nth_error (dk_i (dk s)) f.
