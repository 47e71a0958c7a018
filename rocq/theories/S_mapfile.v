(** Specification of the list of contents of a store (C63). *)
From Verif Require Import Base.

(** a place: the number of a key, the number of a table (None: a key without table), a date or year *)
Record place := mkplace { p_key : nat; p_tab : option nat; p_date : Z }.
Inductive change := Added (p : place) | Removed (p : place) | Reopened.
Definition place_eqb (a b : place) : bool :=
  Nat.eqb (p_key a) (p_key b) && (p_date a =? p_date b) &&
  match p_tab a, p_tab b with Some x, Some y => Nat.eqb x y | None, None => true | _, _ => false end.
(** what is there after a history: it was added and not removed since *)
Fixpoint there (h : list change) (p : place) (now : bool) : bool :=
  match h with
  | [] => now
  | Added q :: h' => there h' p (if place_eqb q p then true else now)
  | Removed q :: h' => there h' p (if place_eqb q p then false else now)
  | Reopened :: h' => there h' p now
  end.
(** keys and tables that are told apart by the text "key.table" *)
Definition label (keys tabs : list (list Z)) (k : nat) (t : option nat) : option (list Z) :=
  match nth_error keys k, t with
  | Some kn, None => Some kn
  | Some kn, Some j => match nth_error tabs j with Some tn => Some (kn ++ 46 :: tn) | None => None end
  | None, _ => None
  end.
Definition labels_clear (keys tabs : list (list Z)) : Prop :=
  (forall k t n, label keys tabs k t = Some n -> (List.length n <= 254)%nat) /\
  (forall k t k' t' n, label keys tabs k t = Some n -> label keys tabs k' t' = Some n -> k = k' /\ t = t').
Definition known (keys tabs : list (list Z)) (p : place) : Prop :=
  (exists n, label keys tabs (p_key p) (p_tab p) = Some n) /\ 0 <= p_date p < 2 ^ 31.
