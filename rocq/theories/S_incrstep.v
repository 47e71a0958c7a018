(** Specification side of the step-wise compressor property: a history of accepted calls,
    the records it should deliver, and the histories the format can carry. *)
From Verif Require Import Base S_incrzip.

Inductive event :=
| EBag (k s : nat) (recs : list (list Z))   (* records appended to table s of key k *)
| EReset.                                   (* previous-value memory forgotten *)

(** every record, tagged with its key and table, in order *)
Fixpoint delivered (evs : list event) : list (nat * nat * list Z) :=
  match evs with
  | [] => []
  | EBag k s recs :: evs' => map (fun r => (k, s, r)) recs ++ delivered evs'
  | EReset :: evs' => delivered evs'
  end.

(** two delivered records agree: same key, same table, same field values *)
Definition same_item (cols : nat -> list column) (a b : nat * nat * list Z) : Prop :=
  fst a = fst b /\ same_values (cols (snd (fst a))) (snd a) (snd b).

Definition put {A} (f : nat -> nat -> A) (k s : nat) (v : A) : nat -> nat -> A :=
  fun k' s' => if (Nat.eqb k' k && Nat.eqb s' s)%bool then v else f k' s'.

(** [prev k s] is the last record of table [s] of key [k], if any since the last reset.
    The history must (1) not give more than one record to a (key, table) pair that has no
    previous record, and (2) move no 8-byte word by 2^63. *)
Fixpoint hist_ok (cols : nat -> list column) (size : nat -> nat)
  (prev : nat -> nat -> option (list Z)) (evs : list event) : Prop :=
  match evs with
  | [] => True
  | EReset :: evs' => hist_ok cols size (fun _ _ => None) evs'
  | EBag k s recs :: evs' =>
    Forall (fun r => length r = size s /\ Forall is_byte r) recs
    /\ (prev k s = None -> (length recs <= 1)%nat)
    /\ steps_ok (cols s) (match prev k s with Some r => r | None => repeat 0 (size s) end) recs
    /\ hist_ok cols size
         (put prev k s (match recs with [] => prev k s | r :: recs' => Some (last recs' r) end)) evs'
  end.
