(** Specification of what the commands of the kinds of data sets do, after their names and the
    comments beside them: whether they read, change, or are meant for calls inside the process.
    Mentions nothing of the program. *)
From Coq Require Import ZArith List Bool String.
From Verif Require Import Base S_server.
Import ListNotations.
Open Scope list_scope.
Open Scope Z_scope.

Inductive kind := KTables | KDays | KStream | KPublish | KTexts.
Inductive effect := Reads | Changes | Inside.

Definition all (e : effect) (l : list string) : list (str * effect) := map (fun n => (bs n, e)) l.
Definition commands (k : kind) : list (str * effect) :=
  match k with
  | KTables => all Reads ["show"; "get"; "gets"; "keys"; "sub"; "hsub"; "unsub"; "psub"; "unpsub"; "read"]%string ++
               all Changes ["create"; "set"; "bset"; "del"; "drop"; "dels"; "save"; "pack"]%string ++
               all Inside ["init"; "open"; "close"; "rlog"; "wlog"; "clear"]%string
  | KDays => all Reads ["sub"; "unsub"; "get"]%string ++
             all Changes ["create"; "setdb"; "start"; "set"; "bset"; "stop"; "save"; "merge"]%string ++
             all Inside ["init"; "rlog"; "wlog"]%string
  | KStream => all Reads ["sub"; "unsub"; "get"]%string ++ all Changes ["set"; "start"; "stop"; "pub"]%string ++
               all Inside ["init"; "ipub"; "zpub"; "clear"; "rlog"; "wlog"]%string
  | KPublish => all Reads ["sub"; "unsub"]%string ++ all Changes ["set"; "start"; "stop"; "pub"]%string ++
                all Inside ["init"; "wlog"]%string
  | KTexts => all Reads ["get"; "sub"; "hsub"; "unsub"]%string ++ all Changes ["set"; "pub"]%string ++ all Inside ["init"]%string
  end.
(** the command [c], in whatever case, is one of the kind and does [e] *)
Definition does (k : kind) (c : str) (e : effect) : Prop := exists n, In (n, e) (commands k) /\ ci_eq c n.
