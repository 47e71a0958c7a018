(** Specification of files that keep the order of arrival of records of many series (C66). *)
From Verif Require Import Base S_server S_sub.

(** one record: key, table, bytes *)
Record row := mkrow { r_key : list Z; r_tab : list Z; r_data : list Z }.
(** what a writer does: some records of a series (bytes one after the other), the end of one writing and the start of the next,
    a new structure of a table with another size of records *)
Inductive act := Put (k t : nat) (data : list Z) | Cut | Resize (t : nat) (n : nat).
(** pieces of [n] bytes; [fuel] bounds their number *)
Fixpoint pieces (fuel n : nat) (l : list Z) : list (list Z) :=
  match fuel, l with
  | O, _ | _, [] => []
  | S f, _ => firstn n l :: pieces f n (skipn n l)
  end.
(** the records of a history, in order of arrival *)
Definition rows_of (keys tabs : list (list Z)) (size : nat -> nat) (a : act) : list row :=
  match a with
  | Put k t data => map (mkrow (nth k keys []) (nth t tabs [])) (pieces (List.length data) (size t) data)
  | _ => []
  end.
Definition resize (size : nat -> nat) (a : act) : nat -> nat :=
  match a with Resize t n => fun j => if Nat.eqb j t then n else size j | _ => size end.
Fixpoint arrived (keys tabs : list (list Z)) (size : nat -> nat) (h : list act) : list row :=
  match h with
  | [] => []
  | a :: h' => rows_of keys tabs size a ++ arrived keys tabs (resize size a) h'
  end.
(** what a writer may do: known keys and tables, whole records *)
Definition act_ok (keys tabs : list (list Z)) (size : nat -> nat) (a : act) : Prop :=
  match a with
  | Put k t data => (k < List.length keys)%nat /\ (t < List.length tabs)%nat /\ Nat.modulo (List.length data) (size t) = 0%nat
  | Cut => True
  | Resize _ _ => False
  end.
(** the text "key.table" tells series apart and is short *)
Definition series_clear (keys tabs : list (list Z)) : Prop :=
  (forall k t kn tn, nth_error keys k = Some kn -> nth_error tabs t = Some tn -> (List.length (kn ++ 46%Z :: tn) <= 254)%nat) /\
  (forall k t k' t' kn tn kn' tn', nth_error keys k = Some kn -> nth_error tabs t = Some tn -> nth_error keys k' = Some kn' ->
     nth_error tabs t' = Some tn' -> kn ++ 46 :: tn = kn' ++ 46 :: tn' -> k = k' /\ t = t').
(** the rows of a subscription: one of the keys is a beginning of the key, one of the tables is the table (ignoring case) *)
Definition asked (ks ts : list Z) (r : row) : bool := side_covers true ks (r_key r) && side_covers false ts (r_tab r).
