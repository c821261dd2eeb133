(* namespace-editor and namespace-dump: lemmas. *)
From Coq Require Import Strings.String Strings.Byte List NArith ZArith Bool Lia ZifyBool ZifyN ZifyNat.
From Verif Require Import Bytes BytesFacts Layout LayoutFacts Store Text TextFacts Commands Namespace SrvInv Tools SpecTools.
Import ListNotations.
Open Scope N_scope.
Local Notation length := List.length.
Ltac Zify.zify_post_hook ::= Z.div_mod_to_equations.

Lemma cstr_plain p : ~ In x00 p -> cstr p = p.
Proof.
  induction p as [|b p IH]; cbn [cstr In]; auto. intros H. destruct (N.eqb_spec (b2n b) 0) as [E|E].
  - exfalso. apply H. left. destruct b; try discriminate E. reflexivity.
  - rewrite IH; auto.
Qed.

Lemma edit_loads name f c f0 pass max public worm : blen name <= 255 -> descriptor_load name f = Some (c, f0) ->
  match pass with Some p => plain_pass p | None => True end -> match max with Some m => m < 2 ^ 63 | None => True end ->
  exists f1 c1, namespace_edit name (mkEdits pass (option_map dec max) public worm) f = Some f1 /\
    descriptor_load name f1 = Some (c1, f1) /\ announced name pass max public worm c1.
Proof.
  intros Hn L Hp Hm. unfold namespace_edit. rewrite L.
  set (e := mkEdits pass (option_map dec max) public worm). set (x := edited name e).
  assert (P : n_pass x = pass).
  { unfold x, edited, e. cbn [n_pass ed_pass]. destruct pass as [p|]; [|reflexivity]. cbn [option_map]. f_equal. apply cstr_plain, Hp. }
  assert (M : n_maxsize x = match max with Some m => m | None => 0 end).
  { unfold x, edited, e. cbn [n_maxsize ed_max]. destruct max as [m|]; [|reflexivity]. cbn [option_map].
    rewrite atoll_digits by (apply dec_nonempty || apply dec_all). rewrite parse_dec.
    change (2 ^ 63) with 9223372036854775808 in Hm. unfold z_u64. rewrite Z.min_r by lia. rewrite Z.mod_small by lia. apply N2Z.id. }
  pose proof (commit_loads_wide x f0) as W. change (n_name x) with name in W.
  eexists. eexists. split; [reflexivity|]. split.
  - apply W; [exact Hn| |].
    + rewrite M. destruct max; [|reflexivity]. change (2 ^ 63) with 9223372036854775808 in Hm. change (2 ^ 64) with 18446744073709551616. lia.
    + rewrite P. destruct pass as [p|]; [|exact I]. split; [apply Hp|]. apply cstr_plain, Hp.
  - unfold announced. cbn [n_name n_pass n_maxsize n_public n_worm]. rewrite P, M. split; [reflexivity|]. split; [destruct pass as [[|]|]; reflexivity|].
    split; [reflexivity|]. unfold x, edited, e. cbn [n_public n_worm ed_public ed_worm].
    split; [destruct public as [[|]|]|destruct worm as [[|]|]]; reflexivity.
Qed.

Lemma edit_start name f pass max public worm smode i d t t1 r1 : blen name <= 255 ->
  namespace_load smode i name f d t = Some (t1, r1) ->
  match pass with Some p => plain_pass p | None => True end -> match max with Some m => m < 2 ^ 63 | None => True end ->
  exists f1 r2, namespace_edit name (mkEdits pass (option_map dec max) public worm) f = Some f1 /\
    namespace_load smode i name f1 d t = Some (t1, r2) /\
    r_ix r2 = r_ix r1 /\ r_dt r2 = r_dt r1 /\ r_dk r2 = r_dk r1 /\
    announced name pass max public worm (r_cfg r2).
Proof.
  intros Hn L Hp Hm. unfold namespace_load in L. destruct (descriptor_load name f) as [[c f0]|] eqn:D; [|discriminate].
  destruct (store_open smode i t d) as [s|] eqn:S; [|discriminate]. injection L as <- <-.
  destruct (edit_loads name f c f0 pass max public worm Hn D Hp Hm) as (f1 & c1 & E1 & E2 & E3).
  exists f1, (mkNs c1 f1 (ix s) (dt s) (dk s)). split; [exact E1|]. unfold namespace_load. rewrite E2, S. repeat split; apply E3.
Qed.

Lemma edit_dump name f c f0 pass max public worm : blen name <= 255 -> descriptor_load name f = Some (c, f0) ->
  match pass with Some p => plain_pass p | None => True end -> match max with Some m => m < 2 ^ 63 | None => True end ->
  exists f1 c1, namespace_edit name (mkEdits pass (option_map dec max) public worm) f = Some f1 /\
    announced name pass max public worm c1 /\
    namespace_dump name f1 = Some (n_name c1, n_pass c1, n_public c1, n_worm c1, n_maxsize c1).
Proof.
  intros Hn D Hp Hm. destruct (edit_loads name f c f0 pass max public worm Hn D Hp Hm) as (f1 & c1 & E1 & E2 & E3).
  exists f1, c1. split; [exact E1|]. split; [exact E3|]. unfold namespace_dump. now rewrite E2.
Qed.
