(** Specification side of the table compressor properties: which bytes of a record belong
    to integer fields, and when two records hold the same field values. *)
From Verif Require Import Base.

(** An integer column: [c_count] consecutive little-endian words of [c_len] bytes. *)
Record column := mkcol { c_off : nat; c_len : nat; c_count : nat }.

(** byte position [p] belongs to column [c] *)
Definition in_column (c : column) (p : nat) : Prop :=
  (c_off c <= p < c_off c + c_count c * c_len c)%nat.

Definition covered (cs : list column) (p : nat) : Prop := exists c, In c cs /\ in_column c p.

(** two records hold the same values in all columns *)
Definition same_values (cs : list column) (a b : list Z) : Prop :=
  length a = length b /\ forall p, covered cs p -> nth_error a p = nth_error b p.

(** the [n]-byte little-endian unsigned word at byte position [p] of record [r] *)
Definition word (r : list Z) (p n : nat) : Z := le_val (firstn n (skipn p r)).

(** From one record to the next no 8-byte word moves by exactly 2^63 modulo 2^64. *)
Definition step_ok (cs : list column) (prev cur : list Z) : Prop :=
  forall c i, In c cs -> c_len c = 8%nat -> (i < c_count c)%nat ->
    (word cur (c_off c + i * 8) 8 - word prev (c_off c + i * 8) 8) mod 2 ^ 64 <> 2 ^ 63.

Fixpoint steps_ok (cs : list column) (prev : list Z) (recs : list (list Z)) : Prop :=
  match recs with
  | [] => True
  | r :: recs' => step_ok cs prev r /\ steps_ok cs r recs'
  end.
