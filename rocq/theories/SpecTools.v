(* SPEC vocabulary of the tools: damage of a data file, the directories of a server. *)
From Coq Require Import Strings.String Strings.Byte List NArith Bool.
From Verif Require Import Bytes Crc32 Layout Store Text Commands System SpecKV Machine Reach SpecFiles SpecCheck Tools.
Import ListNotations.
Open Scope N_scope.

(* the header and the key of a record *)
Definition rec_front (p : N) (w : wrote) : bytes := nfirst (18 + blen (w_key w)) (rec_bytes p w).

(* damage rows b k: b are the bytes of the records rows, with the values of k of them
   changed within four consecutive bytes *)
Inductive damage : list (N * wrote) -> bytes -> N -> Prop :=
| dm_end : damage [] [] 0
| dm_keep p w t b k : damage t b k -> damage ((p, w) :: t) (rec_bytes p w ++ b) k
| dm_hit p w v t b k : burst (w_value w) v -> damage t b k -> damage ((p, w) :: t) ((rec_front p w ++ v) ++ b) (k + 1).

(* the directories of a namespace of the server *)
Definition server_data (ds : list bytes) : dir := named data_name 0 ds.
Definition server_index (is_ : list bytes) : dir := named index_name 0 is_.

(* what integrity-check says of a data file f whose records are rows *)
Definition counts_damage (f : N) (rows : list (N * wrote)) : Prop :=
  forall b k, damage rows b k -> data_integrity (file_header f ++ b) = KReturn k.

(* a password that can be given on a command line *)
Definition plain_pass (p : bytes) : Prop := blen p <= 255 /\ ~ In x00 p.

(* the settings that the usage text of namespace-editor announces: what is left out gets
   its default value; an empty password is no password *)
Definition announced (name : bytes) (pass : option bytes) (max : option N) (public worm : option bool) (c : nscfg) : Prop :=
  n_name c = name /\ n_pass c = match pass with Some [] => None | p => p end /\
  n_maxsize c = match max with Some m => m | None => 0 end /\
  n_public c = match public with Some false => false | _ => true end /\
  n_worm c = match worm with Some true => true | _ => false end.

(* a line of index-dump about the value v stored under k at time t *)
Definition tells (x : bytes * (bytes * N)) (r : shown) : Prop :=
  let '(k, (v, t)) := x in
  sh_key r = k /\ sh_idlen r = blen k /\ sh_len r = blen v /\ sh_crc r = zdb_crc32 v /\ sh_ts r = t.

(* it does not bear the flag of deletion *)
Definition not_deleted (r : shown) : bool := negb (N.odd (sh_flags r)).

(* the lines of one file are numbered from 1, and every line but the last tells where the
   next one is *)
Fixpoint numbered (nr off : N) (l : list shown) : Prop :=
  match l with
  | [] => True
  | r :: t => sh_nr r = nr /\ sh_at r = off /\ numbered (nr + 1) (off + 34 + sh_idlen r) t
  end.

(* the values written, without the deletions *)
Definition values_of (ws : list wrote) : list (bytes * (bytes * N)) :=
  map (fun w => (w_key w, (w_value w, w_ts w))) (filter (fun w => negb (w_gone w)) ws).

(* a record of which nothing but the key and the time is left *)
Definition emptied_bytes (prev : N) (k : bytes) (t : N) : bytes :=
  le 1 (blen k) ++ le 4 0 ++ le 4 prev ++ le 4 0 ++ le 1 DATA_ENTRY_TRUNCATED ++ le 4 t ++ k.

Definition squeezed1 (prev : N) (row : bool * (bytes * (bytes * N))) : bytes :=
  let '(current, (k, (v, t))) := row in
  if current && (0 <? blen v) then rec_bytes prev (mkWrote k v t false) else emptied_bytes prev k t.

(* the values of a log, each with a mark that says whether it is current: the current
   ones are kept, the others emptied *)
Fixpoint squeezed (prev off : N) (rows : list (bool * (bytes * (bytes * N)))) : bytes :=
  match rows with
  | [] => []
  | row :: t => let b := squeezed1 prev row in b ++ squeezed off (off + blen b) t
  end.

(* several files: a record is linked to the one before, also to one in the file before *)
Fixpoint last_at (prev off : N) (rows : list (bool * (bytes * (bytes * N)))) : N :=
  match rows with
  | [] => prev
  | row :: t => last_at off (off + blen (squeezed1 prev row)) t
  end.
Fixpoint squeezed_files (f prev : N) (files : list (list (bool * (bytes * (bytes * N))))) : list (bytes * bytes) :=
  match files with
  | [] => []
  | rows :: t => (legacy_data_name f, file_header f ++ squeezed prev 28 rows) :: squeezed_files (f + 1) (last_at prev 28 rows) t
  end.

(* a SET was accepted of a key that did not exist, and then there was more than one data file *)
Definition new_later (g : settings) (n : N) (c0 : nscfg) (es : list event) : Prop :=
  exists es1 p now k v t es2 o1 c1 s1,
    es = es1 ++ EReq p now (QSet k v t) :: es2 /\
    kget k (kv_of c0 es1) = None /\ kget k (kv_of c0 (es1 ++ [EReq p now (QSet k v t)])) <> None /\
    reached g n c0 (es1 ++ [EReq p now (QSet k v t)]) o1 c1 s1 /\ 1 < nlen (dk_d (dk s1)).

(* the files with the names of the server instead of the old ones *)
Definition renamed (d : dir) (name : N -> bytes) : dir := named name 0 (map snd d).
