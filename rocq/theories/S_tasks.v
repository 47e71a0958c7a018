(** Specification of worker threads (C71): tasks are numbers, keys are texts. *)
From Verif Require Import Base.

(** [a] is the beginning of [b] *)
Definition begins {A} (a b : list A) : Prop := exists c, b = a ++ c.
(** the tasks of one key, in their order *)
Definition of_key (k : list Z) (l : list (list Z * Z)) : list Z :=
  map snd (filter (fun p => if list_eq_dec Z.eq_dec (fst p) k then true else false) l).
(** tasks that add no tasks *)
Definition nospawn (t : Z) : list (list Z * Z) := [].
