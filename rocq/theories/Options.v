(* MODEL.  The command line of zdbd: main and proceed (zdbd/zdbd.c), and the reading of
   sizes (libzdb/libzdb.c).

   The options are taken as getopt_long_only (a library function) gives them.  Arguments
   hold no NUL.  Messages are left out, and the way from the settings to the sockets. *)
From Coq Require Import Strings.String Strings.Byte List NArith ZArith Bool.
From Verif Require Import Bytes Layout Store Text Commands Namespace System Server.
Import ListNotations.
Open Scope N_scope.

(* zdbd/zdbd.c:35-59, long_options; OUnknown is '?': an unknown or ambiguous option, or
   one without its argument *)
Inductive opt :=
| OData (s : bytes) | OIndex (s : bytes) | OListen (s : bytes) | OPort (s : bytes) | OSocket (s : bytes) | ODualnet | OVerbose
| OSync | OSynctime (s : bytes) | ODump | OMode (s : bytes) | OBackground | OLogfile (s : bytes) | OAdmin (s : bytes)
| OHook (s : bytes) | ODatasize (s : bytes) | OMaxsize (s : bytes) | OProtect | OSecure | ORotate (s : bytes)
| OVersion | OHelp | OUnknown.

(* the fields of zdbd/zdbd.h zdbd_settings_t and libzdb/libzdb.h zdb_settings_t that the
   options set *)
Record args := mkArgs {
  a_data : bytes;
  a_index : bytes;
  a_listen : option bytes;
  a_port : bytes;
  a_socket : option bytes;
  a_dualnet : bool;
  a_verbose : bool;
  a_background : bool;
  a_logfile : option bytes;
  a_dump : bool;
  a_sync : bool;
  a_synctime : Z;
  a_secure : bool;
  a_hook : option bytes;
  a_admin : option bytes;
  a_protect : bool;
  a_maxsize : N;
  a_mode : N;
  a_rotate : Z;
  a_datasize : N
}.

(* zdbd/zdbd.c:22-33, zdbd_rootsettings, and libzdb/bootstrap.c:28-69, zdb_initialize
   (secure, which is not set there, is static and zero); libzdb/data.h:5 *)
Definition defaults : args :=
  mkArgs (str "./zdb-data") (str "./zdb-index") (Some (str "::")) (str "9900") None false false false None false false 0%Z false
    None None false 0 MODE_MIX 0%Z 268435456.

(* outcome of libzdb/libzdb.c:71-90, zdb_human_readable_parse *)
Inductive size_res :=
| SzNone            (* NULL *)
| SzSome (n : N)
| SzUndef           (* the conversion to size_t is undefined *)
| SzOther.          (* outside of the model *)

Fixpoint digits_of (s : bytes) : bytes * bytes :=
  match s with
  | b :: t => if is_digit b then let (d, r) := digits_of t in (b :: d, r) else ([], s)
  | [] => ([], [])
  end.

(* strchr(human_readable_suffix, *endp), which also finds the NUL at the end *)
Definition suffix_shift (rest : bytes) : option N :=
  match rest with
  | [] => Some 0
  | c :: _ => let n := b2n c in
      if n =? 107 then Some 10 else if n =? 77 then Some 20 else if n =? 71 then Some 30 else if n =? 84 then Some 40 else None
  end.

(* libzdb/libzdb.c:71-90.  strtold is modelled for decimal integers below 2^64, which a
   long double of x86-64 holds, as it holds their product with the unit.  What else
   strtold may read is outside of the model: a sign, a fraction, an exponent, hexadecimal
   numbers, infinity and nan. *)
Definition human_readable_parse (s : bytes) : size_res :=
  let t := skip_space s in
  match digits_of t with
  | ([], []) => SzNone
  | ([], b :: _) => let n := b2n b in
      if (n =? 43) || (n =? 45) || (n =? 46) || (n =? 105) || (n =? 73) || (n =? 110) || (n =? 78) then SzOther else SzNone
  | (ds, rest) =>
      let c := match rest with b :: _ => b2n b | [] => 0 end in
      if (c =? 46) || (c =? 101) || (c =? 69) || (c =? 120) || (c =? 88) then SzOther
      else
        match suffix_shift rest with
        | None => SzNone
        | Some shift =>
            let value := parse_digits ds 0 in
            if 18446744073709551616 <=? value then SzOther
            else if 18446744073709551616 <=? value * 2 ^ shift then SzUndef else SzSome (value * 2 ^ shift)
        end
  end.

(* atoi: the conversion of a long to an int *)
Definition z_int (z : Z) : Z := ((z + 2147483648) mod 4294967296 - 2147483648)%Z.

Inductive took :=
| Go (a : args)
| Stop (code : N)
| TUndef
| TOther.

(* zdbd/zdbd.c:330-480, the switch *)
Definition option_step (o : opt) (a : args) : took :=
  match o with
  | OVersion => Stop 0
  | OData s => Go (mkArgs s (a_index a) (a_listen a) (a_port a) (a_socket a) (a_dualnet a) (a_verbose a) (a_background a) (a_logfile a) (a_dump a) (a_sync a) (a_synctime a) (a_secure a) (a_hook a) (a_admin a) (a_protect a) (a_maxsize a) (a_mode a) (a_rotate a) (a_datasize a))
  | OIndex s => Go (mkArgs (a_data a) s (a_listen a) (a_port a) (a_socket a) (a_dualnet a) (a_verbose a) (a_background a) (a_logfile a) (a_dump a) (a_sync a) (a_synctime a) (a_secure a) (a_hook a) (a_admin a) (a_protect a) (a_maxsize a) (a_mode a) (a_rotate a) (a_datasize a))
  | OListen s => Go (mkArgs (a_data a) (a_index a) (Some s) (a_port a) (a_socket a) (a_dualnet a) (a_verbose a) (a_background a) (a_logfile a) (a_dump a) (a_sync a) (a_synctime a) (a_secure a) (a_hook a) (a_admin a) (a_protect a) (a_maxsize a) (a_mode a) (a_rotate a) (a_datasize a))
  | OPort s => Go (mkArgs (a_data a) (a_index a) (a_listen a) s (a_socket a) (a_dualnet a) (a_verbose a) (a_background a) (a_logfile a) (a_dump a) (a_sync a) (a_synctime a) (a_secure a) (a_hook a) (a_admin a) (a_protect a) (a_maxsize a) (a_mode a) (a_rotate a) (a_datasize a))
  | OVerbose => Go (mkArgs (a_data a) (a_index a) (a_listen a) (a_port a) (a_socket a) (a_dualnet a) true (a_background a) (a_logfile a) (a_dump a) (a_sync a) (a_synctime a) (a_secure a) (a_hook a) (a_admin a) (a_protect a) (a_maxsize a) (a_mode a) (a_rotate a) (a_datasize a))
  | OBackground => Go (mkArgs (a_data a) (a_index a) (a_listen a) (a_port a) (a_socket a) (a_dualnet a) (a_verbose a) true (a_logfile a) (a_dump a) (a_sync a) (a_synctime a) (a_secure a) (a_hook a) (a_admin a) (a_protect a) (a_maxsize a) (a_mode a) (a_rotate a) (a_datasize a))
  | OLogfile s => Go (mkArgs (a_data a) (a_index a) (a_listen a) (a_port a) (a_socket a) (a_dualnet a) (a_verbose a) (a_background a) (Some s) (a_dump a) (a_sync a) (a_synctime a) (a_secure a) (a_hook a) (a_admin a) (a_protect a) (a_maxsize a) (a_mode a) (a_rotate a) (a_datasize a))
  | ODump => Go (mkArgs (a_data a) (a_index a) (a_listen a) (a_port a) (a_socket a) (a_dualnet a) (a_verbose a) (a_background a) (a_logfile a) true (a_sync a) (a_synctime a) (a_secure a) (a_hook a) (a_admin a) (a_protect a) (a_maxsize a) (a_mode a) (a_rotate a) (a_datasize a))
  | OSync => Go (mkArgs (a_data a) (a_index a) (a_listen a) (a_port a) (a_socket a) (a_dualnet a) (a_verbose a) (a_background a) (a_logfile a) (a_dump a) true (a_synctime a) (a_secure a) (a_hook a) (a_admin a) (a_protect a) (a_maxsize a) (a_mode a) (a_rotate a) (a_datasize a))
  | OSecure => Go (mkArgs (a_data a) (a_index a) (a_listen a) (a_port a) (a_socket a) (a_dualnet a) (a_verbose a) (a_background a) (a_logfile a) (a_dump a) (a_sync a) (a_synctime a) true (a_hook a) (a_admin a) (a_protect a) (a_maxsize a) (a_mode a) (a_rotate a) (a_datasize a))
  | OHook s => Go (mkArgs (a_data a) (a_index a) (a_listen a) (a_port a) (a_socket a) (a_dualnet a) (a_verbose a) (a_background a) (a_logfile a) (a_dump a) (a_sync a) (a_synctime a) (a_secure a) (Some s) (a_admin a) (a_protect a) (a_maxsize a) (a_mode a) (a_rotate a) (a_datasize a))
  | OSynctime s => Go (mkArgs (a_data a) (a_index a) (a_listen a) (a_port a) (a_socket a) (a_dualnet a) (a_verbose a) (a_background a) (a_logfile a) (a_dump a) (a_sync a) (z_int (atoll s)) (a_secure a) (a_hook a) (a_admin a) (a_protect a) (a_maxsize a) (a_mode a) (a_rotate a) (a_datasize a))
  | OAdmin s => Go (mkArgs (a_data a) (a_index a) (a_listen a) (a_port a) (a_socket a) (a_dualnet a) (a_verbose a) (a_background a) (a_logfile a) (a_dump a) (a_sync a) (a_synctime a) (a_secure a) (a_hook a) (Some s) (a_protect a) (a_maxsize a) (a_mode a) (a_rotate a) (a_datasize a))
  | OProtect => Go (mkArgs (a_data a) (a_index a) (a_listen a) (a_port a) (a_socket a) (a_dualnet a) (a_verbose a) (a_background a) (a_logfile a) (a_dump a) (a_sync a) (a_synctime a) (a_secure a) (a_hook a) (a_admin a) true (a_maxsize a) (a_mode a) (a_rotate a) (a_datasize a))
  | OMaxsize s => Go (mkArgs (a_data a) (a_index a) (a_listen a) (a_port a) (a_socket a) (a_dualnet a) (a_verbose a) (a_background a) (a_logfile a) (a_dump a) (a_sync a) (a_synctime a) (a_secure a) (a_hook a) (a_admin a) (a_protect a) (z_u64 (atoll s)) (a_mode a) (a_rotate a) (a_datasize a))
  | OMode s =>
      if bseqb s (str "user") then Go (mkArgs (a_data a) (a_index a) (a_listen a) (a_port a) (a_socket a) (a_dualnet a) (a_verbose a) (a_background a) (a_logfile a) (a_dump a) (a_sync a) (a_synctime a) (a_secure a) (a_hook a) (a_admin a) (a_protect a) (a_maxsize a) MODE_KV (a_rotate a) (a_datasize a))
      else if bseqb s (str "seq") then Go (mkArgs (a_data a) (a_index a) (a_listen a) (a_port a) (a_socket a) (a_dualnet a) (a_verbose a) (a_background a) (a_logfile a) (a_dump a) (a_sync a) (a_synctime a) (a_secure a) (a_hook a) (a_admin a) (a_protect a) (a_maxsize a) MODE_SEQ (a_rotate a) (a_datasize a))
      else if bseqb s (str "direct") then Go (mkArgs (a_data a) (a_index a) (a_listen a) (a_port a) (a_socket a) (a_dualnet a) (a_verbose a) (a_background a) (a_logfile a) (a_dump a) (a_sync a) (a_synctime a) (a_secure a) (a_hook a) (a_admin a) (a_protect a) (a_maxsize a) MODE_SEQ (a_rotate a) (a_datasize a))
      else Stop 1
  | OSocket s => Go (mkArgs (a_data a) (a_index a) (a_listen a) (a_port a) (Some s) (a_dualnet a) (a_verbose a) (a_background a) (a_logfile a) (a_dump a) (a_sync a) (a_synctime a) (a_secure a) (a_hook a) (a_admin a) (a_protect a) (a_maxsize a) (a_mode a) (a_rotate a) (a_datasize a))
  | ODualnet => Go (mkArgs (a_data a) (a_index a) (a_listen a) (a_port a) (a_socket a) true (a_verbose a) (a_background a) (a_logfile a) (a_dump a) (a_sync a) (a_synctime a) (a_secure a) (a_hook a) (a_admin a) (a_protect a) (a_maxsize a) (a_mode a) (a_rotate a) (a_datasize a))
  | ORotate s => Go (mkArgs (a_data a) (a_index a) (a_listen a) (a_port a) (a_socket a) (a_dualnet a) (a_verbose a) (a_background a) (a_logfile a) (a_dump a) (a_sync a) (a_synctime a) (a_secure a) (a_hook a) (a_admin a) (a_protect a) (a_maxsize a) (a_mode a) (z_int (atoll s)) (a_datasize a))
  | ODatasize s =>
      match human_readable_parse s with
      | SzNone => Stop 1
      | SzUndef => TUndef
      | SzOther => TOther
      | SzSome size =>
          if 4294967295 <=? size then Stop 1
          else if size <? 524288 then Stop 1
          else Go (mkArgs (a_data a) (a_index a) (a_listen a) (a_port a) (a_socket a) (a_dualnet a) (a_verbose a) (a_background a) (a_logfile a) (a_dump a) (a_sync a) (a_synctime a) (a_secure a) (a_hook a) (a_admin a) (a_protect a) (a_maxsize a) (a_mode a) (a_rotate a) size)
      end
  | OHelp | OUnknown => Stop 1
  end.

Inductive outcome :=
| Starts (a : args)
| Leaves (code : N)
| OUndef
| OOther.

(* zdbd/zdbd.c:483-486 and 514-517, after the options *)
Definition options_done (a : args) : outcome :=
  if a_protect a && match a_admin a with None => true | Some _ => false end then Leaves 1
  else Starts (if match a_socket a with Some _ => true | None => false end && negb (a_dualnet a)
    then mkArgs (a_data a) (a_index a) None (a_port a) (a_socket a) (a_dualnet a) (a_verbose a) (a_background a) (a_logfile a) (a_dump a) (a_sync a) (a_synctime a) (a_secure a) (a_hook a) (a_admin a) (a_protect a) (a_maxsize a) (a_mode a) (a_rotate a) (a_datasize a) else a).

(* zdbd/zdbd.c:311-521, main, up to the call of proceed *)
Fixpoint options_run (l : list opt) (a : args) : outcome :=
  match l with
  | [] => options_done a
  | o :: t =>
      match option_step o a with
      | Go a' => options_run t a'
      | Stop code => Leaves code
      | TUndef => OUndef
      | TOther => OOther
      end
  end.
Definition zdbd_main (l : list opt) : outcome := options_run l defaults.

(* the settings on which the commands depend; release is a choice of the build *)
Definition server_of (release : bool) (a : args) : server :=
  mkServer (mkSettings (a_mode a) (a_datasize a)) (a_admin a) (a_protect a) release (negb (a_rotate a =? 0)%Z).

(* zdbd/zdbd.c:248-252 *)
Definition limit_default (size : N) (w : world) : world :=
  match slot 0 w with
  | None => w
  | Some r =>
      let c := r_cfg r in
      put_slot 0 (Some (mkNs (mkCfg (n_name c) (n_pass c) (n_public c) (n_worm c) size (n_lock c))
                          (r_desc r) (r_ix r) (r_dt r) (r_dk r))) w
  end.

(* zdbd/zdbd.c:228-257, proceed, up to the sockets: zdb_open on what is stored, then the
   password and the limit of the default namespace, in memory only *)
Definition proceed (release : bool) (a : args) (l : list stored) : option world :=
  match boot (server_of release a) l with
  | None => None
  | Some w =>
      let w1 := match a_protect a, a_admin a with true, Some pw => protect_default pw w | _, _ => w end in
      Some (if a_maxsize a =? 0 then w1 else limit_default (a_maxsize a) w1)
  end.
