(* MODEL.  The command table and the choice of a handler (zdbd/commands.c:108-208). *)
From Coq Require Import Strings.String Strings.Byte List NArith Bool.
From Verif Require Import Bytes Layout.
Import ListNotations.
Open Scope N_scope.

(* the handlers named in the table *)
Inductive cmd :=
  | CAsterisk | CWait | CMirror | CMaster
  | CPing | CTime | CAuth | CHooks | CIndex | CData
  | CSet | CGet | CMget | CDel | CExists | CCheck | CScan | CRscan | CKscan
  | CHistory | CKeycur | CLength | CKeytime
  | CInfo | CStop
  | CDbsize | CNsnew | CNsdel | CNslist | CNsset | CNsinfo | CNsjump | CSelect | CReload | CFlush.

(* zdbd/commands.c:111-158 *)
Definition commands_handlers : list (string * cmd) :=
  [ ("*", CAsterisk); ("WAIT", CWait); ("MIRROR", CMirror); ("MASTER", CMaster);
    ("PING", CPing); ("TIME", CTime); ("AUTH", CAuth); ("HOOKS", CHooks); ("INDEX", CIndex); ("DATA", CData);
    ("SET", CSet); ("SETX", CSet); ("GET", CGet); ("MGET", CMget); ("DEL", CDel); ("EXISTS", CExists);
    ("CHECK", CCheck); ("SCAN", CScan); ("SCANX", CScan); ("RSCAN", CRscan); ("KSCAN", CKscan);
    ("HISTORY", CHistory); ("KEYCUR", CKeycur); ("LENGTH", CLength); ("KEYTIME", CKeytime);
    ("INFO", CInfo); ("STOP", CStop);
    ("DBSIZE", CDbsize); ("NSNEW", CNsnew); ("NSDEL", CNsdel); ("NSLIST", CNslist); ("NSSET", CNsset);
    ("NSINFO", CNsinfo); ("NSJUMP", CNsjump); ("SELECT", CSelect); ("RELOAD", CReload); ("FLUSH", CFlush) ]%string.

(* tolower of the C locale *)
Definition tolower (b : byte) : byte :=
  let n := b2n b in if (65 <=? n) && (n <=? 90) then n2b (n + 32) else b.

(* strncasecmp(key, name, keylength) == 0, where name is a C string without its
   final NUL: at most keylength characters are compared, and both strings may end
   earlier together *)
Fixpoint ncase_eq (key name : bytes) : bool :=
  match key, name with
  | [], _ => true
  | k :: _, [] => beqb k x00
  | k :: kr, c :: cr => beqb (tolower k) (tolower c) && ncase_eq kr cr
  end.

(* the loop at zdbd/commands.c:186-197 and 224-229: the first entry of the table
   which matches *)
Fixpoint find_handler (key : bytes) (i : N) (l : list (string * cmd)) : option (N * cmd) :=
  match l with
  | [] => None
  | (name, h) :: r => if ncase_eq key (str name) then Some (i, h) else find_handler key (i + 1) r
  end.

Definition lookup_handler (key : bytes) : option (N * cmd) := find_handler key 0 commands_handlers.

(* the name of an entry of the table (zdbd/redis.c:1159) *)
Definition handler_name (i : N) : string :=
  match nget i commands_handlers with Some (name, _) => name | None => ""%string end.
Definition handler_cmd (i : N) : option cmd := option_map snd (nget i commands_handlers).
