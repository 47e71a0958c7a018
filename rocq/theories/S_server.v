(** Specification of request handling: requests, what becomes visible of them, and what the
    properties C29-C32 demand.  Nothing here mentions the model. *)
From Verif Require Import Base.
From Coq Require Import String Ascii.

(** C strings as bytes *)
Definition str := list Z.
Fixpoint bs (s : string) : str :=
  match s with EmptyString => [] | String c s' => Z.of_nat (nat_of_ascii c) :: bs s' end.

(** equal up to the case of ASCII letters *)
Definition lower (c : Z) : Z := if (65 <=? c) && (c <=? 90) then c + 32 else c.
Definition ci_eq (a b : str) : Prop := map lower a = map lower b.

(** method flags, sis_method.h:30-38 *)
Definition FL_READ : Z := 1.
Definition FL_WRITE : Z := 2.
Definition FL_DEL : Z := 4.
Definition FL_NONET : Z := 0x100.
Definition FL_NOLOG : Z := 0x200.
Definition has (flags f : Z) : Prop := Z.land flags f <> 0.

(** user levels, sisdb_sys.h:9-13 *)
Definition LV_READ : Z := 1.
Definition LV_WRITE : Z := 3.
Definition LV_WORKER : Z := 7.
Definition LV_ADMIN : Z := 15.

(** what a level may call, after the comments of sisdb_sys.h:15-18: readers nothing that
    writes or deletes, writers nothing that deletes; nobody what is reserved for calls inside
    the process *)
Definition permitted (level flags : Z) : Prop :=
  ~ has flags FL_NONET /\
  (level = LV_READ -> ~ has flags FL_WRITE /\ ~ has flags FL_DEL) /\
  (level = LV_WRITE -> ~ has flags FL_DEL).

(** the content of a request: nothing, bytes that are not JSON, or JSON of which the fields
    "username", "password" and "access" matter here *)
Inductive rinfo :=
| RNoInfo
| RBadInfo
| RJson (name pw level : option str).

Record req := mkreq { r_service : option str; r_cmd : option str; r_info : rinfo }.

(** what happens outside *)
Inductive sevent :=
| EOpen (cid : Z)        (* a client connects and gets this connection number *)
| ERecv (cid : Z) (r : req)
| EProc                  (* the reader thread handles the oldest waiting request *)
| EBad (cid : Z)         (* unreadable bytes arrive on this connection *)
| EClose (cid : Z).      (* the client disconnects *)

(** what becomes visible; the first number identifies the connection (counting from the start
    of the server), the second is its connection number *)
Inductive tev :=
| TLogin (k : nat) (cid : Z) (name pw : str)
| TLog (k : nat) (cid : Z) (r : req)
| TExec (k : nat) (cid : Z) (flags : Z) (r : req)
| TRefuse (k : nat) (cid : Z) (r : req).

Definition is_auth (r : req) : Prop := exists c, r_cmd r = Some c /\ ci_eq c (bs "auth").

(** the event shows a request being logged or executed *)
Definition ran (e : tev) (k : nat) (c : Z) (r : req) : Prop :=
  e = TLog k c r \/ exists fl, e = TExec k c fl r.

(** no connection number is given to two connections *)
Fixpoint opened (es : list sevent) : list Z :=
  match es with [] => [] | EOpen c :: es' => c :: opened es' | _ :: es' => opened es' end.

(** requests appended to the log, and requests executed on a data set by methods that write and
    are not exempt from logging, each in order *)
Fixpoint logged (t : list tev) : list (nat * Z * req) :=
  match t with
  | [] => []
  | TLog k c r :: t' => (k, c, r) :: logged t'
  | _ :: t' => logged t'
  end.
Fixpoint written (t : list tev) : list (nat * Z * req) :=
  match t with
  | [] => []
  | TExec k c fl r :: t' =>
    if negb (Z.land fl FL_WRITE =? 0) && (Z.land fl FL_NOLOG =? 0) && (match r_service r with Some _ => true | None => false end)
    then (k, c, r) :: written t' else written t'
  | _ :: t' => written t'
  end.
