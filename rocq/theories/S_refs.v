(** Specification of reference counting (C40).

    Several holders (threads) share one object.  Each counts the references it owns.  [Take] and
    [Release] start an operation of the code under test, [Go] lets it make its next access to
    memory, [Use] reads the object, [Give j] hands one owned reference to holder [j] (for instance
    through a queue). *)
From Verif Require Import Base.

Inductive act := Take | Release | Go | Use | Give (j : nat).

(** What an observer sees of a state: references owned by each holder, whether a holder is inside
    an operation, how often the object was freed, and whether freed memory was touched. *)
Record view := mkview { v_owned : list nat; v_busy : list bool; v_frees : nat; v_bad : bool }.

Definition owned_sum (v : view) : nat := list_sum (v_owned v).
Definition busy_count (v : view) : nat := List.length (filter (fun b => b) (v_busy v)).

(** never touched after being freed, freed at most once, never while owned, and freed once
    nobody owns it and all operations have finished *)
Definition counted_well (v : view) : Prop :=
  v_bad v = false /\ (v_frees v <= 1)%nat /\
  ((0 < owned_sum v)%nat -> v_frees v = 0%nat) /\
  (owned_sum v = 0%nat -> busy_count v = 0%nat -> v_frees v = 1%nat).
