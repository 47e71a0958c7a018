(** Specification of the struct array: operations on plain sequences. *)
From Verif Require Import Base.

Section Seqs.
Context {A : Type}.

Definition seq_get (l : list A) (i : Z) : option A :=
  if i <? 0 then None else nth_error l (Z.to_nat i).

Definition seq_update (l : list A) (i : Z) (x : A) : list A :=
  if (0 <=? i) && (i <? Z.of_nat (length l))
  then firstn (Z.to_nat i) l ++ x :: skipn (S (Z.to_nat i)) l else l.

(** where an insertion request lands: below 0 at the front, past the end at the end *)
Definition seq_place (l : list A) (i : Z) : nat :=
  Nat.min (Z.to_nat i) (length l).

Definition seq_insert (l : list A) (i : Z) (xs : list A) : list A :=
  firstn (seq_place l i) l ++ xs ++ skipn (seq_place l i) l.

(** deletion of [c] elements from [s]; a request that is not wholly inside does nothing *)
Definition seq_can_delete (l : list A) (s c : Z) : bool :=
  (0 <=? s) && (1 <=? c) && (s + c <=? Z.of_nat (length l)).

Definition seq_delete (l : list A) (s c : Z) : list A :=
  if seq_can_delete l s c then firstn (Z.to_nat s) l ++ skipn (Z.to_nat (s + c)) l else l.

(** the last [n] elements; a limit below 1 is ignored *)
Definition seq_last (l : list A) (n : Z) : list A :=
  if n <? 1 then l else skipn (length l - Z.to_nat n) l.

(** histories of calls, and what a call returns *)
Inductive slop :=
| LPushs (xs : list A) | LUpdate (i : Z) (x : A) | LInserts (i : Z) (xs : list A)
| LDelete (s c : Z) | LPop | LClear | LLimit (n : Z) | LRect (n : Z) | LPack
| LSet (xs : list A) | LGet (i : Z).

Inductive lres := RInt (z : Z) | RElem (o : option A) | RUnit.

(** what each call does to a plain sequence, and returns *)
Definition seq_step (l : list A) (op : slop) : list A * lres :=
  match op with
  | LPushs xs => (l ++ xs, RInt (Z.of_nat (length (l ++ xs)) - 1))
  | LUpdate i x => (seq_update l i x, RInt (if (0 <=? i) && (i <? Z.of_nat (length l)) then i else -1))
  | LInserts i xs =>
    (seq_insert l i xs,
     RInt (if (i >=? Z.of_nat (length l)) || (length l =? 0)%nat
           then Z.of_nat (length (l ++ xs)) - 1 else Z.max i 0))
  | LDelete s c => (seq_delete l s c, RInt (if seq_can_delete l s c then c else 0))
  | LPop => (tl l, RElem (hd_error l))
  | LClear => ([], RUnit)
  | LLimit n => (seq_last l n, RUnit)
  | LRect n => (seq_last l n, RUnit)
  | LPack => (l, RInt (Z.of_nat (length l)))
  | LSet xs => (match xs with [] => l | _ => xs end, RInt (Z.of_nat (length xs)))
  | LGet i => (l, RElem (seq_get l i))
  end.

Fixpoint seq_run (l : list A) (ops : list (slop)) : list A * list (lres) :=
  match ops with
  | [] => (l, [])
  | op :: ops' => let (l1, r) := seq_step l op in let (l2, rs) := seq_run l1 ops' in (l2, r :: rs)
  end.

End Seqs.
Arguments slop : clear implicits.
Arguments lres : clear implicits.
