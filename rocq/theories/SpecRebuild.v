(* SPEC vocabulary: the database that a list of records stands for. *)
From Coq Require Import List NArith Bool Strings.Byte Strings.String.
From Verif Require Import Bytes Layout Store Text Commands SpecKV Machine Reach SpecFiles.
Import ListNotations.
Open Scope N_scope.

Definition replay1 (m : kv) (w : wrote) : kv :=
  if w_gone w then kdel (w_key w) m else kput (w_key w) (w_value w) (w_ts w) m.
Definition replay (ws : list wrote) : kv := fold_left replay1 ws [].

(* timestamps never go back *)
Fixpoint in_order (ws : list wrote) : Prop :=
  match ws with
  | a :: ((b :: _) as t) => w_ts a <= w_ts b /\ in_order t
  | _ => True
  end.

(* the records made at time limit or before; 0 means no limit *)
Definition until (limit : N) (ws : list wrote) : list wrote :=
  filter (fun w => (limit =? 0) || (w_ts w <=? limit)) ws.

(* what clients read in s is what the map m says *)
Definition shows (s : est) (m : kv) : Prop :=
  (forall k, read_all s k =
     map (fun q => enc_reply (fst (kv_step (mkPerm false false) 0 open_cfg q m)))
       [QGet k; QExists k; QLength k; QKeytime k; QCheck k]) /\
  x_entries (ix s) = kcount m mod 2 ^ 64 /\ x_datasize (ix s) = ksize m mod 2 ^ 64.

(* a table that holds no entry of namespace n *)
Definition clear_of (n : N) (t : table) : Prop := forall h e, In e (t h) -> e_ns e <> n.

(* the server of settings g loads namespace number n from index files and data
   files, which stay as they are *)
Definition loads (g : settings) (n : N) (t : table) (idx data : list bytes) (s : est) : Prop :=
  store_open (g_mode g) n t (mkDisk idx data [] []) = Some s /\ dk_i (dk s) = idx /\ dk_d (dk s) = data.

(* both states answer every history of requests and restarts in the same way *)
Definition same_future (g : settings) (s s' : est) : Prop :=
  forall es c, Forall event_wf es -> files_fit g es (c, s) -> files_fit g es (c, s') ->
  exists o c1 s1 s1', run_events g es (c, s) = Some (o, (c1, s1)) /\ run_events g es (c, s') = Some (o, (c1, s1')) /\
    same_reads s1 s1'.
