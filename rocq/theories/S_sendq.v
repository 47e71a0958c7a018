(** What a server's clients may observe of its send queue.  A session is one connection, numbered
    from 0 in the order of connecting; the trace is what happened, in order. *)
From Coq Require Import ZArith List Bool Lia.
Import ListNotations.
Open Scope Z_scope.

Inductive sev : Type :=
  | Sent (k : Z) (b : list Z)     (* the program handed bytes over for session k *)
  | Got (k : Z) (b : list Z)      (* the bytes of a write to session k went out *)
  | Asked (k : Z)                 (* the peer of the session left *)
  | Failed (k : Z)                (* a write to session k failed *)
  | Closed (k : Z).               (* the server closed session k *)

(** all bytes handed over for a session, in order *)
Fixpoint sent (tr : list sev) (k : Z) : list Z :=
  match tr with
  | [] => []
  | Sent j b :: t => if j =? k then b ++ sent t k else sent t k
  | _ :: t => sent t k
  end.

(** all bytes that went out to a session, in order *)
Fixpoint got (tr : list sev) (k : Z) : list Z :=
  match tr with
  | [] => []
  | Got j b :: t => if j =? k then b ++ got t k else got t k
  | _ :: t => got t k
  end.

Definition begins (a b : list Z) : Prop := exists c, b = a ++ c.

(** every session receives its own bytes, in order, none twice *)
Definition faithful (tr : list sev) : Prop := forall k, begins (got tr k) (sent tr k).

(** a session is closed only for its own reasons *)
Definition justified (tr : list sev) : Prop :=
  forall k, In (Closed k) tr -> In (Asked k) tr \/ In (Failed k) tr.

(** nothing is waiting for a session that is still open *)
Definition settled (tr : list sev) : Prop :=
  forall k, ~ In (Closed k) tr -> got tr k = sent tr k.

(** the number of writes that went out *)
Fixpoint writes (tr : list sev) : nat :=
  match tr with
  | [] => 0
  | Got _ _ :: t => S (writes t)
  | _ :: t => writes t
  end.

(** the session was served in the trace *)
Definition served (tr : list sev) (k : Z) : Prop := exists b, In (Got k b) tr.

Definition closes (tr : list sev) : Prop := exists k, In (Closed k) tr.

(** every session bytes were handed over for is in the list *)
Definition covers (l : list Z) (tr : list sev) : Prop := forall k b, In (Sent k b) tr -> In k l.
