(* PROPERTIES of namespace-editor and namespace-dump (C50).  Vocabulary: SpecTools.v. *)
From Coq Require Import Strings.String Strings.Byte List NArith Bool Lia.
From Verif Require Import Bytes Layout Store Text Commands Namespace CrashModel System SpecTools EditFacts Tools.
Import ListNotations.
Open Scope N_scope.

(* ---- C50 ---- *)

(* A namespace that the server can load is still loaded after its descriptor was edited:
   with the same contents, and with the settings that the usage text announces. *)
Theorem C50_edited_settings_apply : forall name f pass max public worm smode i d t t1 r1, blen name <= 255 ->
  namespace_load smode i name f d t = Some (t1, r1) ->
  match pass with Some p => plain_pass p | None => True end -> match max with Some m => m < 2 ^ 63 | None => True end ->
  exists f1 r2, namespace_edit name (mkEdits pass (option_map dec max) public worm) f = Some f1 /\
    namespace_load smode i name f1 d t = Some (t1, r2) /\
    r_ix r2 = r_ix r1 /\ r_dt r2 = r_dt r1 /\ r_dk r2 = r_dk r1 /\
    announced name pass max public worm (r_cfg r2).
Proof. exact edit_start. Qed.
Print Assumptions C50_edited_settings_apply.

(* namespace-dump then prints these settings. *)
Theorem C50_dump_prints_settings : forall name f c f0 pass max public worm, blen name <= 255 -> descriptor_load name f = Some (c, f0) ->
  match pass with Some p => plain_pass p | None => True end -> match max with Some m => m < 2 ^ 63 | None => True end ->
  exists f1 c1, namespace_edit name (mkEdits pass (option_map dec max) public worm) f = Some f1 /\
    announced name pass max public worm c1 /\
    namespace_dump name f1 = Some (n_name c1, n_pass c1, n_public c1, n_worm c1, n_maxsize c1).
Proof. exact edit_dump. Qed.
Print Assumptions C50_dump_prints_settings.

(* a namespace with a password, private, with a limit *)
Definition old_desc : bytes := namespace_commit (mkCfg (str "box") (Some (str "old")) false true 77 NS_LOCK_UNLOCKED) [].

(* The editor does not keep what it is not asked to change: to set a limit takes the
   password away and makes the namespace public, as the usage text warns. *)
Example C50_ex :
  descriptor_load (str "box") old_desc = Some (mkCfg (str "box") (Some (str "old")) false true 77 NS_LOCK_UNLOCKED, old_desc) /\
  option_map fst (match namespace_edit (str "box") (mkEdits (Some (str "new")) (Some (str "123")) None (Some true)) old_desc with
    | Some f => descriptor_load (str "box") f | None => None end) =
    Some (mkCfg (str "box") (Some (str "new")) true true 123 NS_LOCK_UNLOCKED) /\
  match namespace_edit (str "box") (mkEdits None (Some (str "123")) None None) old_desc with
    | Some f => namespace_dump (str "box") f | None => None end = Some (str "box", None, true, false, 123) /\
  match namespace_load MODE_MIX 3 (str "box") old_desc empty_disk empty_table with Some _ => true | None => false end = true.
Proof. vm_compute. repeat split; reflexivity. Qed.

(* FINDING.  The length of the password is kept in one byte.  A password of 256 bytes is
   accepted and leaves the namespace without any; of one of 257 bytes only the first
   byte counts. *)
Theorem C50_long_password_refuted : exists name f c f0 p f1 c1, descriptor_load name f = Some (c, f0) /\ n_pass c <> None /\
  blen p = 256 /\ ~ In x00 p /\
  namespace_edit name (mkEdits (Some p) None None None) f = Some f1 /\
  descriptor_load name f1 = Some (c1, f1) /\ n_pass c1 = None.
Proof.
  exists (str "box"), old_desc, (mkCfg (str "box") (Some (str "old")) false true 77 NS_LOCK_UNLOCKED), old_desc, (repeat x61 256).
  eexists (namespace_commit (edited (str "box") (mkEdits (Some (repeat x61 256)) None None None)) old_desc), (mkCfg (str "box") None true false 0 NS_LOCK_UNLOCKED).
  split; [vm_compute; reflexivity|]. split; [discriminate|]. split; [vm_compute; reflexivity|].
  split. { intros I. apply repeat_spec in I. discriminate I. }
  split; [vm_compute; reflexivity|]. split; [vm_compute; reflexivity|reflexivity].
Qed.
Print Assumptions C50_long_password_refuted.

Theorem C50_cut_password_refuted : exists name f c f0 p f1 c1, descriptor_load name f = Some (c, f0) /\
  blen p = 257 /\ ~ In x00 p /\
  namespace_edit name (mkEdits (Some p) None None None) f = Some f1 /\
  descriptor_load name f1 = Some (c1, f1) /\ n_pass c1 = Some (str "a").
Proof.
  exists (str "box"), old_desc, (mkCfg (str "box") (Some (str "old")) false true 77 NS_LOCK_UNLOCKED), old_desc, (repeat x61 257).
  eexists (namespace_commit (edited (str "box") (mkEdits (Some (repeat x61 257)) None None None)) old_desc), (mkCfg (str "box") (Some (str "a")) true false 0 NS_LOCK_UNLOCKED).
  split; [vm_compute; reflexivity|]. split; [vm_compute; reflexivity|].
  split. { intros I. apply repeat_spec in I. discriminate I. }
  split; [vm_compute; reflexivity|]. split; [vm_compute; reflexivity|reflexivity].
Qed.
Print Assumptions C50_cut_password_refuted.
