(* SPECIFICATION for C57: two histories which differ only in passwords. *)
From Coq Require Import Strings.String Strings.Byte List NArith ZArith Bool.
From Verif Require Import Bytes Layout Store Text Commands Dispatch Namespace System Resp Server SpecAuth.
Import ListNotations.
Open Scope N_scope.

(* both have a password, or none has one *)
Definition both {A} (o o' : option A) : Prop := match o, o' with Some _, Some _ | None, None => True | _, _ => False end.

Definition same_conf (c c' : nscfg) : Prop :=
  n_name c' = n_name c /\ n_public c' = n_public c /\ n_worm c' = n_worm c /\ n_maxsize c' = n_maxsize c /\ n_lock c' = n_lock c /\
  both (n_pass c) (n_pass c').

(* the descriptor, which holds the password, is not compared *)
Definition same_rec (o o' : option nsrec) : Prop :=
  match o, o' with
  | Some r, Some r' => same_conf (r_cfg r) (r_cfg r') /\ r_ix r' = r_ix r /\ r_dt r' = r_dt r /\ r_dk r' = r_dk r
  | None, None => True
  | _, _ => False
  end.

Definition same_state (w w' : world) : Prop :=
  w_tb w' = w_tb w /\ w_eff w' = w_eff w /\ w_clients w' = w_clients w /\ Forall2 same_rec (w_slots w) (w_slots w').

Definition same_server (g g' : server) : Prop :=
  v_set g' = v_set g /\ v_protect g' = v_protect g /\ v_release g' = v_release g /\ v_rotate g' = v_rotate g /\ both (v_adminpwd g) (v_adminpwd g').

Definition means (x : bytes) (c : cmd) : Prop := exists h, lookup_handler x = Some (h, c).

(* words which differ in a password, or in the digest of one, only *)
Inductive same_words : list bytes -> list bytes -> Prop :=
| sw_same a : same_words a a
| sw_auth x p p' : means x CAuth -> same_words [x; p] [x; p']
| sw_digest x y p p' : means x CAuth -> ~ abbreviates p (str "CHALLENGE") -> ~ abbreviates p' (str "CHALLENGE") -> same_words [x; y; p] [x; y; p']
| sw_select x y p p' : means x CSelect -> same_words [x; y; p] [x; y; p']
| sw_secure x y z p p' : means x CSelect -> same_words [x; y; z; p] [x; y; z; p']
| sw_nsset x y z p p' : means x CNsset -> text z = str "password" -> (text p = str "*" <-> text p' = str "*") -> same_words [x; y; z; p] [x; y; z; p'].

(* what is found by a start: descriptors which differ in the password only *)
Definition same_stored (x x' : stored) : Prop :=
  fst (fst x') = fst (fst x) /\ snd x' = snd x /\
  match descriptor_load (fst (fst x)) (snd (fst x)), descriptor_load (fst (fst x)) (snd (fst x')) with
  | Some (c, _), Some (c', _) => same_conf c c'
  | None, None => True
  | _, _ => False
  end.

Definition is_master (fd : N) (w : world) : bool := match client_at fd w with Some cl => c_master cl | None => false end.

(* the last word of a replication master is not part of the request *)
Definition same_event (e e' : sevent) (w : world) : Prop :=
  match e, e' with
  | SRequest fd v a, SRequest fd' v' a' => fd' = fd /\ v' = v /\
      if is_master fd w then a' = a \/ exists b b' x, a = b ++ [x] /\ a' = b' ++ [x] /\ same_words b b' else same_words a a'
  | SRestart l, SRestart l' => Forall2 same_stored l l'
  | _, _ => e' = e
  end.

(* the requests whose answer tells about a password *)
Definition asks (e : sevent) : Prop :=
  match e with SRequest _ _ (x :: _) => means x CAuth \/ means x CSelect \/ means x CNsset | _ => False end.

(* the first message is the answer to the client of the request *)
Definition answer (out : list (N * bytes)) : bytes := match out with (_, b) :: _ => b | [] => [] end.

(* the two histories are alike, and the requests which ask are answered alike *)
Fixpoint alike (g g' : server) (es es' : list sevent) (w w' : world) : Prop :=
  match es, es' with
  | [], [] => True
  | e :: r, e' :: r' => same_event e e' w /\
      match run_sevent g e w, run_sevent g' e' w' with
      | SDone out _ w1, SDone out' _ w1' => (asks e -> answer out' = answer out) /\ alike g g' r r' w1 w1'
      | _, _ => True
      end
  | _, _ => False
  end.

(* what clients other than masters and mirrors receive, and whether a request ends the
   session or the server *)
Definition ordinary (w : world) (m : N * bytes) : bool :=
  match client_at (fst m) w with Some cl => negb (c_master cl) && negb (c_mirror cl) | None => true end.

Fixpoint received (g : server) (es : list sevent) (w : world) : list (list (N * bytes) * status) :=
  match es with
  | [] => []
  | e :: r => match run_sevent g e w with SUndef => [] | SDone out st w1 => (filter (ordinary w1) out, st) :: received g r w1 end
  end.
