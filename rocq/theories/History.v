(* MODEL of the HISTORY command: zdbd/commands_history.c.  A None means that the code
   reads through a null pointer. *)
From Coq Require Import Strings.String Strings.Byte List NArith Bool.
From Verif Require Import Bytes Layout Store Text Commands Scan.
Import ListNotations.
Open Scope N_scope.

(* zdbd/commands_history.c:52-97, history_send_array: the packed index_ekey_t of the
   previous version, or nil; the timestamp; the payload *)
Definition history_send_array (k : ekey) (ts : N) (payload : bytes) : bytes :=
  str "*3" ++ CRLF ++
  (if negb (ek_indexid k =? 0) || negb (ek_offset k =? 0)
   then str "$8" ++ CRLF ++ enc_ekey k else str "$-1") ++ CRLF ++
  str "$" ++ dec (blen (dec ts)) ++ CRLF ++ dec ts ++ CRLF ++
  str "$" ++ dec (blen payload) ++ CRLF ++ payload ++ CRLF.

(* zdbd/commands_history.c:99-128 *)
Definition history_send (d : disk) (it : item) (k : ekey) : bytes :=
  match data_get d (it_off it) (it_len it) (it_dataid it) (it_idlen it) with
  | None => hardsend "-Internal Error"
  | Some p => history_send_array k (it_ts it) p
  end.

(* the conversion of a length to the uint8_t idlength of index_get and of
   commands_history.c:195 *)
Definition u8_key (id : bytes) : bytes := firstn (N.to_nat (blen id mod 256)) id.

(* zdbd/commands_history.c:133-224, command_history *)
Definition command_history (argv : list bytes) (c : nscfg) (s : est) : option bytes :=
  if negb (argc argv =? 2) && negb (argc argv =? 3) then Some (hardsend "-Invalid arguments")
  else if is_frozen c then Some error_frozen
  else if argc argv =? 2 then
    match index_get s (u8_key (arg 1 argv)) with
    | None => Some (hardsend "-Key not found")
    | Some e =>
        match index_item_get_disk (dk s) (e_indexid e) (e_idxoff e) (blen (e_id e)) with
        | None => None
        | Some it => Some (history_send (dk s) it (mkEkey (e_pid e) (e_poff e)))
        end
    end
  else if negb (blen (arg 2 argv) =? 8) then Some (hardsend "-Invalid arguments")
  else
    let k := dec_ekey (arg 2 argv) in
    if (ek_indexid k =? 0) && (ek_offset k =? 0) then Some (hardsend "-No more history")
    else
      let key := u8_key (arg 1 argv) in
      match index_item_get_disk (dk s) (ek_indexid k) (ek_offset k) (blen key) with
      | None => Some (hardsend "-Invalid arguments (index query)")
      | Some it =>
          if bseqb (nfirst (blen key) (it_id it)) key
          then Some (history_send (dk s) it (mkEkey (it_pid it) (it_poff it)))
          else Some (hardsend "-Invalid arguments (invalid key)")
      end.
