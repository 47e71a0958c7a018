(** Specification of a queue that hands out one object at a time (C34). *)
From Verif Require Import Base.

(** What an observer sees: the objects pushed, in the order of the calls; those handed out so far, in
    order; how many of these have been reported as processed; and whether freed memory was touched. *)
Record wview := mkwv { wv_pushed : list Z; wv_given : list Z; wv_done : nat; wv_bad : bool }.

Definition one_at_a_time (v : wview) : Prop := (wv_done v <= length (wv_given v) <= wv_done v + 1)%nat.
Definition in_push_order (v : wview) : Prop := exists rest, wv_pushed v = wv_given v ++ rest.
Definition hand_out_ok (v : wview) : Prop := wv_bad v = false /\ one_at_a_time v /\ in_push_order v.
