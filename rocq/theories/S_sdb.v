(** Specification of stored time series (C62). *)
From Verif Require Import Base S_time S_table.

(** a record: the value of its time field, and the rest *)
Definition srec : Type := (Z * list Z)%type.
(** what the time field counts *)
Inductive unit_of_time := Seconds | Milliseconds | Minutes | Days.
(** the second at which a record's time begins, for the first three *)
Definition secs (u : unit_of_time) (v : Z) : Z :=
  match u with Seconds => v | Milliseconds => v / 1000 | Minutes => v * 60 | Days => 0 end.
(** the number of the local day: 0 is 1970-01-01 *)
Definition day_no (zone s : Z) : Z := (s + zone) / 86400.
Definition year_of_no (n y : Z) : Prop := exists x, valid x /\ days_after n (mkdate 1970 1 1) x /\ dy x = y.

(** times do not go back *)
Fixpoint nondecr (l : list Z) : Prop :=
  match l with a :: ((b :: _) as l') => a <= b /\ nondecr l' | _ => True end.
(** each batch holds records, in order of time, and begins later than the one before ends *)
Fixpoint in_order (bs : list (list srec)) : Prop :=
  match bs with
  | [] => True
  | b :: bs' =>
    b <> [] /\ nondecr (map fst b) /\
    match bs' with
    | [] => True
    | [] :: _ => False
    | ((t, _) :: _) :: _ => last (map fst b) 0 < t
    end /\ in_order bs'
  end.
(** a result: nothing is not the same as an empty list *)
Definition some_of {A} (l : list A) : option (list A) := match l with [] => None | _ => Some l end.

(** the style of the time field *)
Definition kind_of (u : unit_of_time) : Z := match u with Seconds => K_TSEC | Milliseconds => K_MSEC | Minutes => K_MINU | Days => K_DATE end.
(** times that the code can handle: below 2038 in seconds *)
Definition fits (u : unit_of_time) (v : Z) : Prop :=
  match u with Seconds | Minutes | Days => 0 < v < 2 ^ 31 | Milliseconds => 1000 <= v < 2 ^ 50 end.
(** records of one local day *)
Definition one_day (zone : Z) (u : unit_of_time) (b : list srec) : Prop :=
  forall r r', In r b -> In r' b -> day_no zone (secs u (fst r)) = day_no zone (secs u (fst r')).
(** in milliseconds a batch lies in one day *)
Definition good_batch (zone : Z) (u : unit_of_time) (b : list srec) : Prop :=
  Forall (fun r => fits u (fst r)) b /\ (u = Milliseconds -> one_day zone u b).

