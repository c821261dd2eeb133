(* SPECIFICATION.  What the other clients do while a program copies a namespace. *)
From Coq Require Import List NArith Bool Strings.Byte Strings.String.
From Verif Require Import Bytes Layout Store Text Commands SpecKV Machine Reach SpecScan DbSync.
Import ListNotations.
Open Scope N_scope.

(* requests only: nobody changes the settings of the namespace, and no server restarts
   (the program would lose its connection) *)
Definition is_request (e : event) : Prop := match e with EReq _ _ q => req_wf q | _ => False end.

(* the events of the others at the source and at the target *)
Definition at_source (ws : list pass) : list event := flat_map (fun w => p_src w ++ flat_map t_src (p_turns w)) ws.
Definition at_target (ws : list pass) : list event := flat_map (fun w => flat_map t_dst (p_turns w)) ws.

(* the number of keys that can be copied *)
Definition copies (ws : list pass) : N := nlen (flat_map p_turns ws).

(* nobody else asks to write or to delete k *)
Definition left_alone (k : bytes) (es : list event) : Prop := forall e, In e es -> ~ asks k e.

(* what GET says of k *)
Definition get_of (g : settings) (k : bytes) (st : nscfg * est) : bytes :=
  fst (run_req g (mkPerm false false) 0 (QGet k) (fst st) (snd st)).
