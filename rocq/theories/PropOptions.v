(* PROPERTIES: C65, the command line of the server. *)
From Coq Require Import Strings.String Strings.Byte List NArith ZArith Bool Lia.
From Verif Require Import Bytes Layout Store Text Commands Namespace System Server SpecServer Options SpecOptions OptionFacts.
Import ListNotations.
Open Scope N_scope.

(* Exactly these command lines start a server: all options are fine on their own, and
   --protect comes with --admin.  The settings are those asked for, the last one where an
   option is repeated, whatever the order of different options. *)
Theorem C65_starts : forall l a, zdbd_main l = Starts a <-> Forall fine l /\ coherent l /\ wanted l a.
Proof. exact starts_iff. Qed.
Print Assumptions C65_starts.

(* It ends with success, without a server, only for --version, before anything wrong. *)
Theorem C65_version : forall l, zdbd_main l = Leaves 0 <-> exists l1 l2, l = l1 ++ OVersion :: l2 /\ Forall fine l1.
Proof. exact (fun l => version_iff l defaults). Qed.
Print Assumptions C65_version.

(* The sizes that are understood, among decimal integers. *)
Theorem C65_sizes : forall s n, human_readable_parse s = SzSome n <-> is_size s n /\ n < 18446744073709551616.
Proof. exact size_iff. Qed.
Print Assumptions C65_sizes.

(* Whatever the command line, data files are between 512 KB and 4 GB. *)
Theorem C65_range : forall l a, zdbd_main l = Starts a -> 512 * 1024 <= a_datasize a < 4294967295.
Proof. exact range. Qed.
Print Assumptions C65_range.

(* The settings of every server that was started meet the hypothesis of the theorems on
   servers, as long as the data files are not asked to be larger than 2 GB. *)
Theorem C65_server_ok : forall l a r, zdbd_main l = Starts a -> a_datasize a <= 2 ^ 31 -> server_ok (server_of r a).
Proof. exact start_ok. Qed.
Print Assumptions C65_server_ok.

(* The start on any files changes the default namespace only: its password is the one of
   the administrator with --protect, its limit the one of --maxsize if there is one; its
   contents and what is stored of its settings are as found. *)
Theorem C65_default : forall r a l w, proceed r a l = Some w ->
  exists w0, boot (server_of r a) l = Some w0 /\
  (forall i, i <> 0 -> slot i w = slot i w0) /\ w_tb w = w_tb w0 /\ w_eff w = w_eff w0 /\ w_clients w = w_clients w0 /\
  forall r0, slot 0 w0 = Some r0 -> exists r1, slot 0 w = Some r1 /\ r_ix r1 = r_ix r0 /\ r_dt r1 = r_dt r0 /\ r_dk r1 = r_dk r0 /\ r_desc r1 = r_desc r0 /\
    r_cfg r1 = mkCfg (n_name (r_cfg r0)) (match a_protect a, a_admin a with true, Some pw => Some pw | _, _ => n_pass (r_cfg r0) end)
      (n_public (r_cfg r0)) (n_worm (r_cfg r0)) (if a_maxsize a =? 0 then n_maxsize (r_cfg r0) else a_maxsize a) (n_lock (r_cfg r0)).
Proof. exact default_start. Qed.
Print Assumptions C65_default.

(* the hypotheses are met *)
Definition line : list opt :=
  [OMode (str "user"); ODatasize (str "64M"); OAdmin (str "one"); OProtect; OSocket (str "/tmp/zdb.sock"); OMode (str "seq");
   OMaxsize (str "1000000"); OAdmin (str "two"); ORotate (str "60")].
Definition line_args : args :=
  mkArgs (str "./zdb-data") (str "./zdb-index") None (str "9900") (Some (str "/tmp/zdb.sock")) false false false None false false 0%Z false
    None (Some (str "two")) true 1000000 MODE_SEQ 60%Z 67108864.
Definition line_world : option world := proceed true line_args [(str "default", [], empty_disk)].
Definition default_of (w : option world) : option (option bytes * N) :=
  match w with Some w => match slot 0 w with Some r => Some (n_pass (r_cfg r), n_maxsize (r_cfg r)) | None => None end | None => None end.
Example C65_ex : zdbd_main line = Starts line_args /\ a_datasize line_args <= 2 ^ 31 /\
  zdbd_main [ODualnet; OVersion; OUnknown] = Leaves 0 /\
  zdbd_main [OUnknown; OVersion] = Leaves 1 /\ zdbd_main [OProtect] = Leaves 1 /\ zdbd_main [OMode (str "block")] = Leaves 1 /\
  zdbd_main [ODatasize (str "4G")] = Leaves 1 /\ zdbd_main [ODatasize (str "64m")] = Leaves 1 /\ zdbd_main [ODatasize (str "511k")] = Leaves 1 /\
  default_of line_world = Some (Some (str "two"), 1000000).
Proof.
  split; [vm_compute; reflexivity|]. split; [vm_compute; discriminate|]. split; [vm_compute; reflexivity|]. split; [vm_compute; reflexivity|].
  split; [vm_compute; reflexivity|]. split; [vm_compute; reflexivity|]. split; [vm_compute; reflexivity|]. split; [vm_compute; reflexivity|].
  split; [vm_compute; reflexivity|]. vm_compute. reflexivity.
Qed.

(* FINDING.  --maxsize does not know the units of --datasize: the same text is 64 MB for
   one and 64 bytes for the other (zdbd/zdbd.c:400, atol). *)
Theorem C65_units_refuted : exists l a s, zdbd_main l = Starts a /\ l = [ODatasize s; OMaxsize s] /\ a_datasize a = 64 * 1024 * 1024 /\ a_maxsize a = 64.
Proof.
  exists [ODatasize (str "64M"); OMaxsize (str "64M")],
    (match zdbd_main [ODatasize (str "64M"); OMaxsize (str "64M")] with Starts a => a | _ => defaults end), (str "64M").
  split; [vm_compute; reflexivity|]. split; [reflexivity|]. split; vm_compute; reflexivity.
Qed.
Print Assumptions C65_units_refuted.

(* FINDING.  A limit that is not a number is no limit at all, without a word. *)
Theorem C65_maxsize_refuted : exists a, zdbd_main [OMaxsize (str "unlimited?")] = Starts a /\ a_maxsize a = 0.
Proof. exists defaults. split; vm_compute; reflexivity. Qed.
Print Assumptions C65_maxsize_refuted.

(* FINDING.  What follows the unit is ignored (libzdb/libzdb.c:81): a slip of the pen gives
   another size instead of an error. *)
Theorem C65_trailing_refuted : exists a, zdbd_main [ODatasize (str "1M024k")] = Starts a /\ a_datasize a = 1024 * 1024.
Proof.
  exists (match zdbd_main [ODatasize (str "1M024k")] with Starts a => a | _ => defaults end). split; vm_compute; reflexivity.
Qed.
Print Assumptions C65_trailing_refuted.

(* FINDING.  A size of 2^64 bytes or more is converted to size_t, which is undefined,
   before it is compared with the maximum (libzdb/libzdb.c:87). *)
Theorem C65_undefined_refuted : exists l, zdbd_main l = OUndef.
Proof. exists [ODatasize (str "16777216T")]. vm_compute. reflexivity. Qed.
Print Assumptions C65_undefined_refuted.
