(* SPEC.  What a client sees of a SCAN or RSCAN walk.  The rows are the keys with
   their values and timestamps, in the order of the walk. *)
From Coq Require Import List NArith Bool Strings.Byte Strings.String.
From Verif Require Import Bytes Layout Text Commands SpecKV SpecSeq.
Import ListNotations.
Open Scope N_scope.

(* a 32-bit number as printed by %d *)
Definition print_int32 (n : N) : bytes :=
  if n <? 2 ^ 31 then dec n else str "-" ++ dec (2 ^ 32 - n).

(* key, length of the value, timestamp *)
Definition scan_row (r : bytes * (bytes * N)) : bytes :=
  let '(k, (v, ts)) := r in
  str "*3" ++ CRLF ++ bulk k ++ str ":" ++ dec (blen v) ++ CRLF ++ str ":" ++ print_int32 ts ++ CRLF.

(* one reply: the end, or a 17-byte cursor and the rows *)
Definition scan_reply (rows : kv) (r : bytes) : Prop :=
  match rows with
  | [] => r = hardsend "-No more data"
  | _ => exists cur, blen cur = 17 /\
         r = arrayhdr 2 ++ bulk cur ++ arrayhdr (nlen rows) ++ flat_map scan_row rows
  end.

(* the cursor of a reply, as a client reads it *)
Definition next_cursor (r : bytes) : option bytes :=
  if bseqb (firstn 9 r) (str "*2" ++ CRLF ++ str "$17" ++ CRLF) then Some (firstn 17 (skipn 9 r)) else None.

(* a client following the cursors until no cursor comes; slices gives, for each
   call, the number of entries the server has time for *)
Fixpoint follow (call : nat -> list bytes -> option bytes) (cmd : bytes) (cur : option bytes)
    (slices : list nat) : option (list bytes) :=
  match slices with
  | [] => Some []
  | n :: rest =>
      match call n (cmd :: match cur with None => [] | Some k => [k] end) with
      | None => None
      | Some r =>
          match next_cursor r with
          | None => Some [r]
          | Some k => option_map (cons r) (follow call cmd (Some k) rest)
          end
      end
  end.

(* the rows of each reply: the first call has one more (the one it starts from) *)
Fixpoint chunks (first : bool) (slices : list nat) (rows : kv) : list kv :=
  match slices with
  | [] => []
  | n :: rest =>
      let k := if first then S n else n in
      match firstn k rows with
      | [] => [[]]
      | c => c :: chunks false rest (skipn k rows)
      end
  end.

(* a client that follows the cursors gets the rows, however the server cuts the walk *)
Definition walks (call : nat -> list bytes -> option bytes) (cmd : bytes) (cur : option bytes) (first : bool) (rows : kv) : Prop :=
  forall slices, exists rs, follow call cmd cur slices = Some rs /\ Forall2 scan_reply (chunks first slices rows) rs.

(* no index file is empty (a header is 29 bytes), or there is a single one *)
Definition all_used (files : list bytes) : Prop := nlen files = 1 \/ forall f, In f files -> 29 < blen f.

(* k starts with p *)
Definition starts (p k : bytes) : bool := bseqb (firstn (List.length p) k) p.

(* the reply of KSCAN for the keys ks *)
Definition kscan_reply (ks : list bytes) : bytes :=
  match ks with
  | [] => hardsend "-No keys match"
  | _ => arrayhdr 2 ++ bulk (str "0") ++ arrayhdr (nlen ks) ++ flat_map bulk ks
  end.

(* every bucket number once *)
Definition all_buckets (b : list N) : Prop := NoDup b /\ forall h, In h b <-> h < 2 ^ 24.

(* a client following the cursors while other requests are executed: steps gives, for
   each call, the number of entries the server has time for and the events executed
   after it *)
Fixpoint mixed {St} (call : nat -> list bytes -> St -> option bytes) (run : list event -> St -> option St)
    (cmd : bytes) (cur : option bytes) (steps : list (nat * list event)) (st : St) : option (list bytes) :=
  match steps with
  | [] => Some []
  | (n, es) :: rest =>
      match call n (cmd :: match cur with None => [] | Some k => [k] end) st with
      | None => None
      | Some r =>
          match next_cursor r with
          | None => Some [r]
          | Some k =>
              match run es st with
              | None => None
              | Some st' => option_map (cons r) (mixed call run cmd (Some k) rest st')
              end
          end
      end
  end.

(* the settings and the map at the time of each call *)
Fixpoint moments (steps : list (nat * list event)) (st : nscfg * kv) : list (nscfg * kv) :=
  match steps with
  | [] => []
  | (_, es) :: rest => st :: moments rest (snd (kv_run es st))
  end.

(* e asks to write or to delete the key k *)
Definition asks (k : bytes) (e : event) : Prop :=
  exists p now ts, (exists v, e = EReq p now (QSet k v ts)) \/ e = EReq p now (QDel k ts).

(* the rows of a walk (one list per reply) with the key k *)
Definition rows_of (k : bytes) (rowss : list kv) : kv := filter (fun r => bseqb (fst r) k) (List.concat rowss).

(* all that is executed during the walk *)
Definition all_events (steps : list (nat * list event)) : list event := List.concat (map snd steps).

(* the last reply said that there is no more data *)
Definition ended (rowss : list kv) : Prop := exists a, rowss = a ++ [[]].

(* ---- the same in a sequential namespace ---- *)
Fixpoint sq_moments (steps : list (nat * list event)) (st : nscfg * sqs) : list (nscfg * sqs) :=
  match steps with
  | [] => []
  | (_, es) :: rest => st :: sq_moments rest (snd (sq_run es st))
  end.

(* e asks to write the key k *)
Definition writes (k : bytes) (e : event) : Prop := exists p now v ts, e = EReq p now (QSet k v ts).

(* the key of the last row was written before the next call *)
Definition cut_short (steps : list (nat * list event)) (rowss : list kv) : Prop :=
  exists a rows k r n es e, rowss = a ++ [rows ++ [(k, r)]] /\ nth_error steps (List.length a) = Some (n, es) /\ In e es /\ writes k e.
