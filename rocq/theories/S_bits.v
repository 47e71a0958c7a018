(** Specification side of the bit stream properties: how bits are numbered, and what a
    text field means.  Nothing here mentions the model. *)
From Verif Require Import Base.

(** Bit [i] of a byte string, most significant bit of each byte first. *)
Definition bitat (d : list Z) (i : nat) : bool :=
  Z.testbit (nth (i / 8) d 0) (7 - Z.of_nat (i mod 8)).

(** Two byte strings have the same bits at positions a..b-1. *)
Definition same_bits (d1 d2 : list Z) (a b : nat) : Prop :=
  forall i, (a <= i < b)%nat -> bitat d1 i = bitat d2 i.

(** The text in a fixed-width field: the bytes before the first zero byte, or all. *)
Fixpoint text (l : list Z) : list Z :=
  match l with
  | [] => []
  | c :: l' => if c =? 0 then [] else c :: text l'
  end.
