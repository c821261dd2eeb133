(* MODEL.  utilities/db-sync/db-sync.c: a program that copies a namespace of one
   server to a namespace of another server.  utilities/db-replicate has the same loop. *)
From Coq Require Import List NArith Bool Strings.Byte Strings.String.
From Verif Require Import Bytes Layout Store Text Commands SpecKV Machine Scan.
Import ListNotations.
Open Scope N_scope.

(* a reply as hiredis gives it (redisReply; db-sync.c:177-185, 224-232 and 242 use its
   type, str, len, element and integer).  hiredis is not in /repo: this is the RESP
   grammar, with numbers left as text. *)
Inductive rrep :=
| PStatus (b : bytes)
| PError (b : bytes)
| PInteger (b : bytes)
| PNil
| PString (b : bytes)
| PArray (l : list rrep).

(* hiredis, seekNewline: the text up to CRLF and what follows *)
Fixpoint line (b : bytes) : option (bytes * bytes) :=
  match b with
  | [] => None
  | x :: t =>
      match t with
      | y :: u =>
          if (b2n x =? 13) && (b2n y =? 10) then Some ([], u)
          else option_map (fun p => (x :: fst p, snd p)) (line t)
      | [] => None
      end
  end.

(* hiredis, readLongLong (negative numbers are seen by the callers) *)
Definition count_of (l : bytes) : option N :=
  match l with
  | [] => None
  | _ => if forallb is_digit l then Some (parse_digits l 0) else None
  end.

(* n replies in a row; the fuel is the number of bytes, and each reply takes some *)
Fixpoint many (one : bytes -> option (rrep * bytes)) (fuel : nat) (n : N) (b : bytes) : option (list rrep * bytes) :=
  if n =? 0 then Some ([], b)
  else match fuel with
       | O => None
       | S fuel =>
           match one b with
           | None => None
           | Some (r, b') => option_map (fun p => (r :: fst p, snd p)) (many one fuel (n - 1) b')
           end
       end.

(* hiredis, redisReaderGetReply: depth is the number of nested arrays allowed.  None:
   not a whole reply (the call waits for the rest: db-sync.c:177). *)
Fixpoint parse (depth : nat) (b : bytes) : option (rrep * bytes) :=
  match depth with
  | O => None
  | S depth =>
      match line b with
      | None => None
      | Some ([], _) => None
      | Some (c :: l, r) =>
          if b2n c =? 43 then Some (PStatus l, r)
          else if b2n c =? 45 then Some (PError l, r)
          else if b2n c =? 58 then Some (PInteger l, r)
          else if b2n c =? 36 then
            if bseqb l (str "-1") then Some (PNil, r)
            else match count_of l with
                 | None => None
                 | Some n => if n + 2 <=? blen r then Some (PString (firstn (N.to_nat n) r), skipn (N.to_nat (n + 2)) r) else None
                 end
          else if b2n c =? 42 then
            match count_of l with
            | None => None
            | Some n => option_map (fun p => (PArray (fst p), snd p)) (many (parse depth) (List.length r) n r)
            end
          else None
      end
  end.

(* one reply, hiredis nests up to seven levels *)
Definition hiredis (b : bytes) : option rrep := option_map fst (parse 7 b).

(* db-sync.c:185: input->str and input->len (no string: no byte is sent) *)
Definition text_of (r : rrep) : bytes :=
  match r with PStatus b | PError b | PString b => b | _ => [] end.

(* db-sync.c:227-232: item->element[0]->str of each item; None: a null pointer *)
Fixpoint keys_of_items (l : list rrep) : option (list bytes) :=
  match l with
  | [] => Some []
  | PArray (r :: _) :: t => option_map (cons (text_of r)) (keys_of_items t)
  | _ => None
  end.

(* one server with one namespace: its settings and its state *)
Definition server1 : Type := nscfg * est.

(* what the other clients do while the program copies one key: before its GET is
   executed at the source, and before its SET is executed at the target, at a time *)
Record turn := mkTurn { t_src : list event; t_dst : list event; t_now : N }.

(* one pass of the loop: what the other clients do at the source before the SCAN, the
   number of entries the source has time for, and the turns of the keys copied after it *)
Record pass := mkPass { p_src : list event; p_room : nat; p_turns : list turn }.

Definition served (g : settings) (es : list event) (st : server1) : option (list bytes * server1) := run_events g es st.

(* db-sync.c:173-202, fetchsync: the replies of the GETs are read one by one and each is
   sent to the target with SET; the reply of the target is not looked at.  The GETs were
   put in a buffer (line 231) that is sent here. *)
Fixpoint fetchsync (gs gt : settings) (ps pt : perm) (keys : list bytes) (ts : list turn) (src dst : server1)
    : option (server1 * server1) :=
  match keys with
  | [] => Some (src, dst)
  | k :: keys =>
      match ts with
      | [] => None
      | t :: ts =>
          match served gs (t_src t) src with
          | None => None
          | Some (_, src1) =>
              match served gs [EReq ps (t_now t) (QGet k)] src1 with
              | Some ([r], src2) =>
                  match hiredis r with
                  | None => None
                  | Some input =>
                      match served gt (t_dst t ++ [EReq pt (t_now t) (QSet k (text_of input) None)]) dst with
                      | None => None
                      | Some (_, dst1) => fetchsync gs gt ps pt keys ts src2 dst1
                      end
                  end
              | _ => None
              end
          end
      end
  end.

(* db-sync.c:204-254, synchronize, from a call of SCAN on: the reply is read, then the
   keys of the reply before it are copied.  Some: "database synchronized" is printed.
   None: the program failed, or was not given enough passes.  The statistics (warmup,
   percentages) are left out. *)
Fixpoint synchronize (gs gt : settings) (ps pt : perm) (ws : list pass) (cur : option bytes) (keys : list bytes)
    (src dst : server1) : option (server1 * server1) :=
  match ws with
  | [] => None
  | w :: ws =>
      match served gs (p_src w) src with
      | None => None
      | Some (_, src1) =>
          match command_scan (p_room w) (str "SCAN" :: match cur with None => [] | Some b => [b] end) (fst src1) (snd src1) with
          | None => None
          | Some r =>
              match hiredis r with
              | None => None
              | Some reply =>
                  match fetchsync gs gt ps pt keys (p_turns w) src1 dst with
                  | None => None
                  | Some (src2, dst2) =>
                      match reply with
                      | PArray (c :: PArray items :: _) =>
                          match keys_of_items items with
                          | None => None
                          | Some keys2 => synchronize gs gt ps pt ws (Some (text_of c)) keys2 src2 dst2
                          end
                      | PArray _ => None
                      | _ => Some (src2, dst2)
                      end
                  end
              end
          end
      end
  end.

(* db-sync.c:221: the first SCAN has no cursor, and nothing is to be copied yet *)
Definition db_sync (gs gt : settings) (ps pt : perm) (ws : list pass) (src dst : server1) : option (server1 * server1) :=
  synchronize gs gt ps pt ws None [] src dst.
