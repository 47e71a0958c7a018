(** Specification of a queue with many producers (C33). *)
From Verif Require Import Base.

(** What an observer sees: for every thread the objects it has called push with, in order; the objects
    taken out so far, each with its producer and whether it was given to the consumer (true) or
    discarded by a call of clear (false); and whether freed memory was touched. *)
Record fview := mkfv { fv_calls : list (list Z); fv_taken : list (nat * Z * bool); fv_bad : bool }.

Definition taken_by (i : nat) (taken : list (nat * Z * bool)) : list Z :=
  map (fun x => snd (fst x)) (filter (fun x => Nat.eqb (fst (fst x)) i) taken).
(** nothing freed is touched; what was taken out comes from the threads, and of every thread exactly
    the first objects it pushed, in its order *)
Definition fifo_ok (v : fview) : Prop :=
  fv_bad v = false /\
  (forall x, In x (fv_taken v) -> (fst (fst x) < length (fv_calls v))%nat) /\
  forall i calls, nth_error (fv_calls v) i = Some calls -> exists rest, calls = taken_by i (fv_taken v) ++ rest.
(** nothing is left *)
Definition all_taken (v : fview) : Prop :=
  forall i calls, nth_error (fv_calls v) i = Some calls -> calls = taken_by i (fv_taken v).
