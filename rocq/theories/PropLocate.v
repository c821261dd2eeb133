(* PROPERTIES of the places of records in sequential mode (user mode: PropKV.v). *)
From Coq Require Import List NArith Bool Strings.Byte Strings.String.
From Verif Require Import Bytes BytesFacts Layout Store Text Commands SpecKV SpecSeq Machine Reach
  CrashModel SeqReach UserReq KvFacts PropKV PropSeq SeqLocate.
Import ListNotations.
Open Scope N_scope.

(* where the next record goes, in the data file and in the index file *)
Theorem C12_offsets_fit_sequential : forall g n c0 es o c s v, sreached g n c0 es o c s -> blen v <= 8388608 ->
  nlen (dk_i (dk s)) < 2 ^ 32 ->
  let s1 := if g_datasize g <? dsize (dk s) (d_dataid (dt s)) + blen v then jump_next s else s in
  dsize (dk s1) (d_dataid (dt s1)) < 2 ^ 32 /\ isize (dk s1) (x_indexid (ix s1)) < 2 ^ 32.
Proof. exact soffsets_fit. Qed.
Print Assumptions C12_offsets_fit_sequential.

(* the location found for an identifier is the place of the value that GET answers *)
Theorem C12_locations_are_exact_sequential : forall g n c0 es o c s k v p now,
  sreached g n c0 es o c s -> key_asked (x_nextentry (ix s)) k -> fst (run_req g p now (QGet k) c s) = bulk v ->
  exists e file, index_get s k = Some e /\ dfile (dk s) (e_dataid e) = Some file /\
    fread file (e_off e + 18) (blen k) = k /\ fread file (e_off e + 18 + blen k) (e_len e) = v /\
    e_off e < 2 ^ 32 /\ e_idxoff e < 2 ^ 32.
Proof. exact slocated. Qed.
Print Assumptions C12_locations_are_exact_sequential.

(* an identifier of the first file whose value was last written in the second *)
Definition loc_view (x : list bytes * (nscfg * est)) : bool * bool * bytes * option (N * N) :=
  let s := snd (snd x) in
  (nlen (dk_i (dk s)) <? 2 ^ 32, 3 <? x_nextentry (ix s), fst (run_req ex_g ro 9 (QGet (ident 3)) (fst (snd x)) s),
   option_map (fun e => (e_dataid e, e_indexid e)) (index_get s (ident 3))).

Definition loc_es : list event :=
  [sq_ins "one"; sq_ins "two"; sq_upd 0 "uno"; sq_ins "three"; sq_jump; sq_ins "four"; sq_upd 3 "tres"; ERestart].

Example C12_sequential_example : exists o c s, sreached ex_g 5 ex_c (plain loc_es) o c s /\
  nlen (dk_i (dk s)) < 2 ^ 32 /\ key_asked (x_nextentry (ix s)) (ident 3) /\
  loc_view (o, (c, s)) = (true, true, bulk (str "tres"), Some (1, 0)).
Proof.
  destruct (sreached_ex (plain loc_es)) as (o & c & s & R & E); [vm_compute; reflexivity|]. exists o, c, s. split; [exact R|].
  assert (V : loc_view (o, (c, s)) = (true, true, bulk (str "tres"), Some (1, 0))).
  { refine (sq_probe loc_view _ _ _ _ _ E _). vm_compute. reflexivity. }
  pose proof (f_equal (fun v => fst (fst (fst v))) V) as V1.
  unfold loc_view in V1. cbn [fst snd] in V1.
  split; [now apply N.ltb_lt|]. split; [|exact V]. intros _. right. reflexivity.
Qed.
