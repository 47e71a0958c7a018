(** Specification of an ordered series of records held in memory, and of what a save hands to the
    disk (C16, C17, C18).  [mi x] is the time of the record [x]. *)
From Verif Require Import Base.
From Coq Require Export Sorting.Sorted Sorting.Permutation.

Section Spec.
Context {R : Type}.
Variable mi : R -> Z.

Definition in_order (l : list R) : Prop := StronglySorted Z.le (map mi l).

(** the records whose time lies in the closed interval, in order *)
Definition window (start stop : Z) (l : list R) : list R := filter (fun x => (start <=? mi x) && (mi x <=? stop)) l.

(** a negative start counts records from the end; a negative stop is the end; stop 0 is the start *)
Definition first_time (l : list R) (start : Z) : Z :=
  if start <? 0 then nth (Z.to_nat (Z.max 0 (Z.of_nat (length l) + start))) (map mi l) 0 else start.
Definition last_time (l : list R) (start stop : Z) : Z :=
  if stop <? 0 then last (map mi l) 0 else if stop =? 0 then start else stop.

(** a query that falls back on the record before [start] if no record has exactly that time *)
Definition window_prev (start stop : Z) (l : list R) : list R :=
  let before := filter (fun x => mi x <? start) l in
  let rest := filter (fun x => start <=? mi x) l in
  let tail := match before with [] => [] | b :: bs => [last bs b] end in
  filter (fun x => mi x <=? stop) (if existsb (fun x => mi x =? start) l then rest else tail ++ rest).

(** what a query answers: nothing, or [n] records from position [i] on *)
Definition answers (q : option (Z * Z)) (l w : list R) : Prop :=
  match q with
  | None => w = []
  | Some (i, n) => 0 <= i /\ 0 < n /\ i + n <= Z.of_nat (length l) /\ firstn (Z.to_nat n) (skipn (Z.to_nat i) l) = w
  end.

(** one record put somewhere, or put in place of one that agrees with it on the unique fields *)
Definition put_in (x : R) (l l' : list R) : Prop := exists a b, l = a ++ b /\ l' = a ++ x :: b.
Definition put_over (same : R -> R -> bool) (x : R) (l l' : list R) : Prop :=
  exists a y b, l = a ++ y :: b /\ same x y = true /\ l' = a ++ x :: b.
End Spec.

(** calls of a save to the writer of the disk file: store records, erase all records of a block *)
Inductive dcall (R : Type) := Stored (l : list R) | Erased (sign : Z).
Arguments Stored {R}. Arguments Erased {R}.

(** a record is on disk after the calls: it was stored and its block not erased afterwards *)
Definition kept {R : Type} (sign : R -> Z) (calls : list (dcall R)) (x : R) : Prop :=
  exists c l c', calls = c ++ Stored l :: c' /\ In x l /\ ~ In (Erased (sign x)) c'.

(** records put in one after the other *)
Inductive puts_in {R : Type} : list R -> list R -> list R -> Prop :=
| puts_none : forall l, puts_in [] l l
| puts_more : forall x xs l l1 l2, put_in x l l1 -> puts_in xs l1 l2 -> puts_in (x :: xs) l l2.
