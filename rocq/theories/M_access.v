(** Model of the tables of commands of the kinds of data sets, with the access flags of
    src/core/sis_method.h 30-38; how they are used is in M_server (sisdb_server.c 411-485,
    sisdb_sys.c 106-132). *)
From Coq Require Import ZArith List Bool String.
From Verif Require Import Base S_server M_server S_memdb M_memdb S_access.
Import ListNotations.
Open Scope list_scope.
Open Scope Z_scope.

Definition flagged (f : Z) (l : list string) : list (str * Z) := map (fun n => (bs n, f)) l.
(** sisdb_methods, workers/sisdb/sisdb.c:14-42 *)
Definition sisdb_methods : list (str * Z) :=
  flagged 1 ["show"]%string ++ flagged 3 ["create"]%string ++ flagged 1 ["get"]%string ++
  flagged 3 ["set"; "bset"; "del"; "drop"]%string ++ flagged 1 ["gets"; "keys"]%string ++ flagged 7 ["dels"]%string ++
  flagged 1 ["sub"; "hsub"; "unsub"; "psub"; "unpsub"; "read"]%string ++ flagged (Z.lor 7 0x200) ["save"; "pack"]%string ++
  flagged 0x100 ["init"; "open"; "close"; "rlog"; "wlog"; "clear"]%string.
(** frwdb_methods, workers/frwdb/frwdb.c:15-33 *)
Definition frwdb_methods : list (str * Z) :=
  flagged 3 ["create"; "setdb"; "start"; "set"; "bset"; "stop"; "save"; "merge"]%string ++
  flagged 1 ["sub"; "unsub"; "get"]%string ++ flagged 0x100 ["init"]%string ++ flagged 0 ["rlog"; "wlog"]%string.
(** snodb_methods, workers/snodb/snodb.c:15-31 *)
Definition snodb_methods : list (str * Z) :=
  flagged 0x100 ["init"]%string ++ flagged 3 ["set"; "start"; "stop"]%string ++ flagged 0x100 ["ipub"]%string ++
  flagged 3 ["pub"]%string ++ flagged 0x100 ["zpub"]%string ++ flagged 1 ["sub"; "unsub"; "get"]%string ++
  flagged 0x100 ["clear"]%string ++ flagged 0 ["rlog"; "wlog"]%string.
(** subdb_methods, workers/subdb/subdb.c:9-18 *)
Definition subdb_methods : list (str * Z) :=
  flagged 0x100 ["init"]%string ++ flagged 3 ["set"; "start"; "stop"; "pub"]%string ++ flagged 1 ["sub"; "unsub"]%string ++
  flagged 0 ["wlog"]%string.
Definition methods_of (k : kind) : list (str * Z) :=
  match k with
  | KTables => sisdb_methods
  | KDays => frwdb_methods
  | KStream => snodb_methods
  | KPublish => subdb_methods
  | KTexts => memdb_methods
  end.
