(** Specification of a pool of numbered handles (C48). *)
From Verif Require Import Base.

(** the handles held by each thread *)
Definition held_once (l : list (list Z)) : Prop := NoDup (concat l).
Definition in_pool (cap : Z) (l : list (list Z)) : Prop := forall h, In h (concat l) -> 0 <= h < cap.
