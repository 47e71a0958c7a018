(** Specification of a store of blocks (C57, C58). *)
From Verif Require Import Base.

(** A block: one byte that describes it and its data. *)
Record block := mkblock { b_head : Z; b_data : list Z }.
Definition block_ok (b : block) : Prop := is_byte (b_head b) /\ Z.of_nat (length (b_data b)) < 2 ^ 64.
(** the upper five bits of the head say what the block is; two values are special *)
Definition kind (b : block) : Z := b_head b / 8.
Definition is_data (b : block) : Prop := 1 <= kind b <= 30.
