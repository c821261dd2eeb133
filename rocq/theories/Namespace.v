(* MODEL.  libzdb/namespace.c: descriptor of a namespace, loading, change of mode. *)
From Coq Require Import Strings.String Strings.Byte List NArith Bool.
From Verif Require Import Bytes Layout Store Text Commands.
Import ListNotations.
Open Scope N_scope.

(* libzdb/namespace.h:8-20 *)
Definition NAMESPACE_DEFAULT : bytes := str "default".
Definition NAMESPACE_MAX_LENGTH : N := 128.
Definition NAMESPACE_CURRENT_VERSION : N := 1.

(* libzdb/namespace.h:39-54, namespace_t with its descriptor file, its index, its
   data and its directories *)
Record nsrec := mkNs { r_cfg : nscfg; r_desc : bytes; r_ix : index; r_dt : dataroot; r_dk : disk }.

(* libzdb/namespace.c:252-262: the settings before the descriptor is read *)
Definition default_cfg (name : bytes) : nscfg := mkCfg name None true false 0 NS_LOCK_UNLOCKED.

(* libzdb/namespace.c:73-86: the lengths are uint8_t *)
Definition descriptor_header (c : nscfg) : nshdr :=
  mkNshdr NAMESPACE_CURRENT_VERSION (u8 (blen (n_name c)))
    (u8 (match n_pass c with Some p => blen p | None => 0 end)) (n_maxsize c)
    (4 + (if n_public c then 1 else 0) + (if n_worm c then 2 else 0)).

(* libzdb/namespace.c:70-100, namespace_descriptor_update on a file whose offset is
   off: three writes, one after the other (assumed to succeed) *)
Definition descriptor_update (c : nscfg) (off : N) (f : bytes) : bytes :=
  let h := descriptor_header c in
  let f1 := fwrite f off (enc_nshdr h) in
  let f2 := fwrite f1 (off + 15) (nfirst (nh_namelen h) (n_name c)) in
  match n_pass c with
  | Some p => fwrite f2 (off + 15 + nh_namelen h) (nfirst (nh_passlen h) p)
  | None => f2
  end.

(* libzdb/namespace.c:119-165, namespace_descriptor_load: the settings and the file
   afterwards; None for an unsupported version.  After a short read the file offset
   is the end of the file. *)
Definition descriptor_load (name f : bytes) : option (nscfg * bytes) :=
  let hd := fread f 0 15 in
  if negb (blen hd =? 15) then Some (default_cfg name, descriptor_update (default_cfg name) (blen hd) f)
  else
    let h := dec_nshdr hd in
    if negb (nh_version h =? NAMESPACE_CURRENT_VERSION) then None
    else
      let pass := if nh_passlen h =? 0 then None
                  else Some (cstr (fread f (15 + nh_namelen h) (nh_passlen h))) in
      Some (mkCfg name pass (negb (N.land (nh_flags h) 1 =? 0)) (negb (N.land (nh_flags h) 2 =? 0))
              (nh_maxsize h) NS_LOCK_UNLOCKED, f).

(* libzdb/namespace.c:179-194, namespace_commit: the file is opened again, so its
   offset is 0; it is not truncated *)
Definition namespace_commit (c : nscfg) (f : bytes) : bytes := descriptor_update c 0 f.

(* libzdb/namespace.c:367-380 *)
Definition namespace_valid_name (name : bytes) : bool :=
  negb (bseqb name (str ".") || bseqb name (str "..")) &&
  negb (existsb (fun b => b2n b =? 47) name) &&
  negb (bseqb name NAMESPACE_DEFAULT).

(* libzdb/namespace.c:228-289, namespace_load: the namespace of slot i with the given
   descriptor file and directories.  None when it is not loaded or the process does
   not survive. *)
Definition namespace_load (smode i : N) (name desc : bytes) (d : disk) (t : table) : option (table * nsrec) :=
  match descriptor_load name desc with
  | None => None
  | Some (c, desc') =>
      match store_open smode i t d with
      | None => None
      | Some s => Some (tb s, mkNs c desc' (ix s) (dt s) (dk s))
      end
  end.

(* libzdb/namespace.c:570-587 *)
Definition namespace_is_fresh (x : index) : bool :=
  (x_nextentry x =? 0) && (x_nextid x =? 0) && (x_indexid x =? 0).

(* libzdb/index_loader.c:657-691, index_switch_mode: the header of the first index
   file is rewritten with the mode of the index; its errors are ignored by the caller *)
Definition index_switch_mode (x : index) (d : disk) : disk :=
  match ifile d 0 with
  | None => d
  | Some f =>
      if blen (fread f 0 29) =? 29 then
        let h := dec_ihdr (fread f 0 29) in
        snd (try_write (WrI 0 0 (enc_ihdr (mkIhdr (ih_magic h) (ih_version h) (ih_created h)
                                   (ih_opened h) (ih_fileid h) (x_mode x)))) d)
      else d
  end.

(* zdbd/commands_namespace.c:446-457 *)
Definition namespace_set_mode (mode : N) (s : est) : est :=
  let x := x_set_mode mode (ix s) in
  mkEst (tb s) (index_rehash x) (dt s) (index_switch_mode x (dk s)).
