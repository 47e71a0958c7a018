(** Specification of calendar days (C39). *)
From Verif Require Import Base.

Record date := mkdate { dy : Z; dm : Z; dd : Z }.
Definition leap (y : Z) : bool := (y mod 4 =? 0) && (negb (y mod 100 =? 0) || (y mod 400 =? 0)).
Definition month_days (y m : Z) : Z :=
  if m =? 2 then (if leap y then 29 else 28) else if (m =? 4) || (m =? 6) || (m =? 9) || (m =? 11) then 30 else 31.
Definition valid (x : date) : Prop := 1 <= dm x <= 12 /\ 1 <= dd x <= month_days (dy x) (dm x).
Definition next_date (x : date) : date :=
  if dd x <? month_days (dy x) (dm x) then mkdate (dy x) (dm x) (dd x + 1)
  else if dm x <? 12 then mkdate (dy x) (dm x + 1) 1
  else mkdate (dy x + 1) 1 1.
Fixpoint later (n : nat) (x : date) : date := match n with O => x | S n' => next_date (later n' x) end.
(** [y] is [k] days after [x] (before it if [k] is negative) *)
Definition days_after (k : Z) (x y : date) : Prop :=
  if 0 <=? k then y = later (Z.to_nat k) x else x = later (Z.to_nat (- k)) y.
(** 0 = Sunday; 1970-01-01 was a Thursday *)
Definition weekday (x : date) (w : Z) : Prop := exists k, days_after k (mkdate 1970 1 1) x /\ w = (4 + k) mod 7.
Definition working (x : date) : Prop := exists w, weekday x w /\ 1 <= w <= 5.
(** the number yyyymmdd *)
Definition idate (x : date) : Z := dy x * 10000 + dm x * 100 + dd x.
