(** Specification of a log of records that may be cut by a crash (C26, C27, C28). *)
From Verif Require Import Base.

(** The records that lie wholly in the first [n] bytes, when a record [r] takes [size r] bytes. *)
Fixpoint whole (size : list Z -> nat) (n : nat) (rs : list (list Z)) : list (list Z) :=
  match rs with
  | [] => []
  | r :: rs' => if (size r <=? n)%nat then r :: whole size (n - size r) rs' else []
  end.

(** where each record starts, the first at [o] *)
Fixpoint starts (size : list Z -> nat) (o : nat) (rs : list (list Z)) : list (nat * list Z) :=
  match rs with
  | [] => []
  | r :: rs' => (o, r) :: starts size (o + size r) rs'
  end.

(** Bytes [o], ..., [o + n - 1] of a file read in pieces of [ch] bytes come in one piece. *)
Definition in_one_piece (ch o n : nat) : Prop := (o / ch = (o + n - 1) / ch)%nat.

Definition prefix_of {A} (a b : list A) : Prop := exists c, b = a ++ c.
