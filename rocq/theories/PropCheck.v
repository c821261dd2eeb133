(* PROPERTIES of the CHECK command.  Vocabulary: SpecCheck.v. *)
From Coq Require Import List NArith Bool Strings.Byte Strings.String.
From Verif Require Import Bytes BytesFacts Layout Store Crc32 Text Commands SpecKV SpecSeq Machine Reach CrashModel SeqReach
  SpecCheck KvFacts SeqRun SeqFacts PropKV PropSeq Api SpecApi ApiFacts PropApi CheckCmd.
Import ListNotations.
Open Scope N_scope.

(* Whatever happened before, the value that GET answers is somewhere in a data file,
   CHECK answers 1, and it answers 0 once the bytes of the value have been damaged
   within four consecutive bytes. *)
Theorem C25_check_user : forall g n c0 es o c s p now k v, reached g n c0 es o c s ->
  fst (run_req g p now (QGet k) c s) = bulk v -> checks g p now c s k v.
Proof. exact check_user. Qed.
Print Assumptions C25_check_user.

(* The same for zdb_api_check of the library, under the hypotheses of C36. *)
Theorem C36_check_partial : forall g n max cs s0 os s k v, settings_ok g -> g_mode g = MODE_KV -> created g n s0 ->
  Forall call_ok cs -> no_collisions max [] cs -> nlen cs < 2 ^ 32 - 1 -> api_run g max cs s0 = Some (os, s) ->
  key_ok k -> zdb_api_get k s = AEntry k v ->
  exists f off file, nget f (dk_d (dk s)) = Some file /\ fread file off (blen v) = v /\ zdb_api_check k s = ATrue /\
    forall v', blen v' = blen v -> let s' := with_dfile f (fwrite file off v') s in
      zdb_api_get k s' = AEntry k v' /\ (burst v v' -> zdb_api_check k s' = AFalse).
Proof. exact api_check_damaged. Qed.
Print Assumptions C36_check_partial.

(* the other hypotheses are met as in C36_ex_hyp *)
Example C36_check_example : ap_replies ap_g [KSet 1 (str "b") (str "ten"); KGet (str "b"); KCheck (str "b")]
  = Some [ABuffer (str "b"); AEntry (str "b") (str "ten"); ATrue] /\ key_ok (str "b").
Proof. split; [vm_compute; reflexivity|]. unfold key_ok. vm_compute. split; [reflexivity|discriminate]. Qed.

(* histories may contain crashes; identifiers as in C05 *)
Theorem C25_check_sequential : forall g n c0 es o c s p now k v, sreached g n c0 es o c s ->
  key_asked (x_nextentry (ix s)) k ->
  fst (run_req g p now (QGet k) c s) = bulk v -> checks g p now c s k v.
Proof. exact check_seq. Qed.
Print Assumptions C25_check_sequential.

Example C25_check_user_example : exists o c s, reached ex_g 5 ex_c ex_es o c s /\
  fst (run_req ex_g ro 9 (QGet (str "a")) c s) = bulk (str "two!").
Proof.
  destruct ex_run as (o & c & s & R). exists o, c, s. split; [exact R|].
  destruct (reached_inv _ _ _ _ _ _ _ R) as (_ & Hc & _).
  assert (HC : c = ex_c) by (rewrite Hc; reflexivity). subst c.
  destruct (reached_req _ _ _ _ _ _ _ ro 9 (QGet (str "a")) R I) as (? & ? & ? & ? & _ & _ & E & _).
  rewrite E. vm_compute. reflexivity.
Qed.

Example C25_check_sequential_example : exists o c s, sreached ex_g 5 ex_c (plain sq_es) o c s /\
  key_asked (x_nextentry (ix s)) (ident 3) /\
  fst (run_req ex_g ro 9 (QGet (ident 3)) c s) = bulk (str "tres").
Proof.
  destruct sq_ex as (o & c & s & R & E). exists o, c, s. split; [exact R|]. split; [intros _; right; reflexivity|].
  refine (sq_probe (fun x => fst (run_req ex_g ro 9 (QGet (ident 3)) (fst (snd x)) (snd (snd x)))) _ _ _ _ _ E _).
  vm_compute. reflexivity.
Qed.

Example C25_burst_example : burst (str "two!") (str "tWO!").
Proof. exists (str "t"), (str "wo"), (str "WO"), (str "!"). repeat split; try discriminate. cbn. auto. Qed.

(* four is the limit: with five bytes there are changes that CHECK does not see *)
Definition zero5 : bytes := repeat x00 5.
Definition gen5 : bytes := [xf1; x76; xec; x05; x01].
Example C25_five_bytes_pass : gen5 <> zero5 /\ zdb_crc32 gen5 = zdb_crc32 zero5.
Proof. split; [discriminate|vm_compute; reflexivity]. Qed.
