(* SPECIFICATION of the command line: which lines start a server, and with which
   settings.  Independent of how the options are read one after the other. *)
From Coq Require Import Strings.String Strings.Byte List NArith ZArith Bool.
From Verif Require Import Bytes Layout Store Text Commands Namespace System Server SpecServer Options.
Import ListNotations.
Open Scope N_scope.

(* the value of a number *)
Definition number (ds : bytes) : N := fold_left (fun n d => n * 10 + (b2n d - 48)) ds 0.

(* what may follow a number, and what it means; the text after the letter is ignored *)
Inductive unit_is : bytes -> N -> Prop :=
| u_none : unit_is [] 1
| u_k t : unit_is (x6b :: t) 1024
| u_m t : unit_is (x4d :: t) (1024 * 1024)
| u_g t : unit_is (x47 :: t) (1024 * 1024 * 1024)
| u_t t : unit_is (x54 :: t) (1024 * 1024 * 1024 * 1024).

(* the text s is a size of n bytes *)
Definition is_size (s : bytes) (n : N) : Prop :=
  exists sp ds t u, s = sp ++ ds ++ t /\ Forall blank sp /\ ds <> [] /\ forallb is_digit ds = true /\ unit_is t u /\ n = number ds * u.

(* the last one of the options for which f gives something *)
Fixpoint last_of {A} (f : opt -> option A) (l : list opt) : option A :=
  match l with
  | [] => None
  | o :: t => match last_of f t with Some x => Some x | None => f o end
  end.
Definition or_else {A} (d : A) (x : option A) : A := match x with Some a => a | None => d end.
Definition given (l : list opt) (f : opt -> bool) : bool := existsb f l.

Definition is_mode (s : bytes) (m : N) : Prop :=
  (s = str "user" /\ m = MODE_KV) \/ (s = str "seq" /\ m = MODE_SEQ) \/ (s = str "direct" /\ m = MODE_SEQ).

(* an option with which the server may start *)
Definition fine (o : opt) : Prop :=
  match o with
  | OMode s => exists m, is_mode s m
  | ODatasize s => exists n, is_size s n /\ 512 * 1024 <= n < 4294967295
  | OVersion | OHelp | OUnknown => False
  | _ => True
  end.

(* the settings asked for: of options given twice, the last one *)
Definition wanted (l : list opt) (a : args) : Prop :=
  a_data a = or_else (str "./zdb-data") (last_of (fun o => match o with OData s => Some s | _ => None end) l) /\
  a_index a = or_else (str "./zdb-index") (last_of (fun o => match o with OIndex s => Some s | _ => None end) l) /\
  a_listen a = (if given l (fun o => match o with OSocket _ => true | _ => false end) && negb (given l (fun o => match o with ODualnet => true | _ => false end))
    then None else Some (or_else (str "::") (last_of (fun o => match o with OListen s => Some s | _ => None end) l))) /\
  a_port a = or_else (str "9900") (last_of (fun o => match o with OPort s => Some s | _ => None end) l) /\
  a_socket a = last_of (fun o => match o with OSocket s => Some s | _ => None end) l /\
  a_dualnet a = given l (fun o => match o with ODualnet => true | _ => false end) /\
  a_verbose a = given l (fun o => match o with OVerbose => true | _ => false end) /\
  a_background a = given l (fun o => match o with OBackground => true | _ => false end) /\
  a_logfile a = last_of (fun o => match o with OLogfile s => Some s | _ => None end) l /\
  a_dump a = given l (fun o => match o with ODump => true | _ => false end) /\
  a_sync a = given l (fun o => match o with OSync => true | _ => false end) /\
  a_synctime a = or_else 0%Z (last_of (fun o => match o with OSynctime s => Some (z_int (atoll s)) | _ => None end) l) /\
  a_secure a = given l (fun o => match o with OSecure => true | _ => false end) /\
  a_hook a = last_of (fun o => match o with OHook s => Some s | _ => None end) l /\
  a_admin a = last_of (fun o => match o with OAdmin s => Some s | _ => None end) l /\
  a_protect a = given l (fun o => match o with OProtect => true | _ => false end) /\
  a_maxsize a = or_else 0 (last_of (fun o => match o with OMaxsize s => Some (z_u64 (atoll s)) | _ => None end) l) /\
  match last_of (fun o => match o with OMode s => Some s | _ => None end) l with None => a_mode a = MODE_MIX | Some s => is_mode s (a_mode a) end /\
  a_rotate a = or_else 0%Z (last_of (fun o => match o with ORotate s => Some (z_int (atoll s)) | _ => None end) l) /\
  match last_of (fun o => match o with ODatasize s => Some s | _ => None end) l with None => a_datasize a = 256 * 1024 * 1024 | Some s => is_size s (a_datasize a) end.

(* --protect needs --admin *)
Definition coherent (l : list opt) : Prop :=
  In OProtect l -> exists s, In (OAdmin s) l.
