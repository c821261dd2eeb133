(* SPEC vocabulary: what may happen to the files of a namespace. *)
From Coq Require Import List NArith Bool Strings.Byte Strings.String.
From Verif Require Import Bytes Crc32 Layout Store Text Commands System SpecKV Machine CrashModel.
Import ListNotations.
Open Scope N_scope.

(* every file of ds is still there in ds', unchanged except for bytes added at its end *)
Definition grown (ds ds' : list bytes) : Prop :=
  forall f b, nth_error ds f = Some b -> exists x, nth_error ds' f = Some (b ++ x).

(* the writes to come turn out as io says *)
Definition with_outcomes (io : list wout) (s : est) : est :=
  mkEst (tb s) (ix s) (dt s) (mkDisk (dk_i (dk s)) (dk_d (dk s)) (dk_log (dk s)) io).

(* the life of a namespace with nothing excluded: any request under any settings,
   permission and clock, reloads, writes that fail in any way, processes that die
   anywhere *)
Inductive life : est -> est -> Prop :=
| l_here s : life s s
| l_request g p now q c s s' : life (snd (run_req g p now q c s)) s' -> life s s'
| l_reload g s s1 s' : reopen g s = Some s1 -> life s1 s' -> life s s'
| l_died g p now q j n c s s1 s' : crash_req g p now q j n c s = Some s1 -> life s1 s' -> life s s'
| l_outcomes io s s' : life (with_outcomes io s) s' -> life s s'.

(* ---- the data files as a log ---- *)

(* one record: a value stored under a key, or the deletion of the key *)
Record wrote := mkWrote { w_key : bytes; w_value : bytes; w_ts : N; w_gone : bool }.

(* the reply says that the request changed something: not an error and not nil *)
Definition accepted (q : req) (r : bytes) : bool :=
  match q with
  | QSet _ _ _ => match r with x24 :: _ => negb (bseqb r (hardsend "$-1")) | _ => false end
  | QDel _ _ => bseqb r (hardsend "+OK")
  | _ => false
  end.

(* what a request and its reply say was written; a SET without key is answered with
   the 8-byte identifier chosen by the server *)
Definition written (now : N) (q : req) (r : bytes) : list wrote :=
  if accepted q r then
    match q with
    | QSet k v ts => [mkWrote (match k with [] => nfirst 8 (nskip 4 r) | _ => k end) v (stamp ts now) false]
    | QDel k ts => [mkWrote k [] (stamp ts now) true]
    | _ => []
    end
  else [].

Fixpoint written_by (es : list event) (o : list bytes) : list wrote :=
  match es, o with
  | EReq _ now q :: es', r :: o' => written now q r ++ written_by es' o'
  | EReq _ _ _ :: _, [] => []
  | _ :: es', _ => written_by es' o
  | [], _ => []
  end.

(* one record on disk; prev is the place of the record before it *)
Definition rec_bytes (prev : N) (w : wrote) : bytes :=
  le 1 (blen (w_key w)) ++ le 4 (blen (w_value w)) ++ le 4 prev
  ++ le 4 (if w_gone w then 0 else zdb_crc32 (w_value w)) ++ le 1 (if w_gone w then 1 else 0)
  ++ le 4 (w_ts w) ++ w_key w ++ w_value w.

Definition rec_size (w : wrote) : N := 18 + blen (w_key w) + blen (w_value w).

Fixpoint recs_size (rows : list (N * wrote)) : N :=
  match rows with [] => 0 | (_, w) :: t => rec_size w + recs_size t end.

Definition file_header (f : N) : bytes := str "DAT0" ++ le 4 3 ++ le 8 0 ++ le 8 0 ++ le 4 f.

Fixpoint recs_bytes (rows : list (N * wrote)) : bytes :=
  match rows with [] => [] | (p, w) :: t => rec_bytes p w ++ recs_bytes t end.

(* the data files, numbered from f *)
Fixpoint files_bytes (f : N) (files : list (list (N * wrote))) : list bytes :=
  match files with
  | [] => []
  | rows :: t => (file_header f ++ recs_bytes rows) :: files_bytes (f + 1) t
  end.

(* every record after the first says where the one before it is *)
Fixpoint linked (off : N) (rows : list (N * wrote)) : Prop :=
  match rows with
  | (_, w) :: (((p, _) :: _) as t) => p = off /\ linked (off + rec_size w) t
  | _ => True
  end.

(* the data files hold the records ws, oldest first *)
Definition log_of (ds : list bytes) (files : list (list (N * wrote))) (ws : list wrote) : Prop :=
  ds = files_bytes 0 files /\ map snd (List.concat files) = ws /\ Forall (linked 28) files.

(* DATA RAW file offset, as an administrator sends it *)
Definition ask_raw (s : est) (f off : N) : option bytes :=
  command_data (mkPerm true true) [str "DATA"; str "RAW"; dec f; dec off] s.

(* 0xAABBCCDD *)
Definition hex_digit (n : N) : byte := nth (N.to_nat n) (str "0123456789abcdef") x00.
Definition hex_word (n : N) : bytes :=
  str "0x" ++ map (fun i => hex_digit (N.land (N.shiftr n i) 15)) [28; 24; 20; 16; 12; 8; 4; 0].

Definition raw_reply (prev : N) (w : wrote) : bytes :=
  str "*6" ++ CRLF ++ bulk (w_key w) ++ intreply (prev mod 2 ^ 32)
  ++ bulk (hex_word (zdb_crc32 (w_value w))) ++ intreply 0 ++ intreply (w_ts w) ++ bulk (w_value w).

(* what DATA RAW answers at the place of a record, and after the end of a file *)
Definition raw_answers (s : est) (files : list (list (N * wrote))) : Prop :=
  (forall f l1 p w l2, nth_error files f = Some (l1 ++ (p, w) :: l2) ->
     (w_gone w = true -> 28 + recs_size l1 < 2 ^ 63) ->
     ask_raw s (N.of_nat f) (28 + recs_size l1) =
     Some (if w_gone w then hardsend "-Unexpected Internal Error"
           else match w_value w with [] => hardsend "-Invalid Request" | _ => raw_reply p w end)) /\
  (forall f rows off, nth_error files f = Some rows -> 28 + recs_size rows <= off -> off < 2 ^ 63 ->
     ask_raw s (N.of_nat f) off = Some (hardsend "-EOF")).
