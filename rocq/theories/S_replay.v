(** Specification of the replay of stored series (C68). *)
From Verif Require Import Base S_time S_sdb.

(** a series: what the time field of its table counts (None, the table has no time field), and its blocks of records *)
Record series := mkser { s_unit : option unit_of_time; s_blocks : list (list srec) }.
Definition s_recs (s : series) : list srec := concat (s_blocks s).

(** what the subscriber is told: the start, a record of a series, a block of a series is used up, the end *)
Inductive event := Begin | Rec (i : nat) (r : srec) | Used (i : nat) | Over.
Definition recs_of (l : list event) : list (nat * srec) :=
  flat_map (fun e => match e with Rec i r => [(i, r)] | _ => [] end) l.
Definition of_series (i : nat) (l : list event) : list srec :=
  flat_map (fun e => match e with Rec j r => if Nat.eqb i j then [r] else [] | _ => [] end) l.
(** the blocks used up, per series *)
Definition used (i : nat) (l : list event) : nat :=
  length (filter (fun e => match e with Used j => Nat.eqb i j | _ => false end) l).

(** the last millisecond of the time that a record stands for; a record without time comes before all others *)
Definition ends (zone : Z) (u : option unit_of_time) (v e : Z) : Prop :=
  match u with
  | None => e = 0
  | Some Milliseconds => e = v
  | Some Seconds => e = v * 1000 + 999
  | Some Minutes => e = v * 60000 + 59999
  | Some Days => exists x n, valid x /\ v = idate x /\ days_after n (mkdate 1970 1 1) x /\ e = (n + 1) * 86400000 - zone * 1000 - 1
  end.
(** the records come in the order of these times, at equal times in the order of the series *)
Definition in_time (zone : Z) (l : list series) (out : list (nat * srec)) : Prop :=
  ForallOrdPairs (fun a b => forall s t ea eb, nth_error l (fst a) = Some s -> nth_error l (fst b) = Some t ->
    ends zone (s_unit s) (fst (snd a)) ea -> ends zone (s_unit t) (fst (snd b)) eb ->
    ea < eb \/ (ea = eb /\ (fst a <= fst b)%nat)) out.

(** a time that is in the range of the code *)
Definition right_time (u : option unit_of_time) (v : Z) : Prop :=
  match u with
  | None => True
  | Some Days => exists x, valid x /\ 1971 <= dy x < 2038 /\ v = idate x
  | Some u => fits u v
  end.
Definition sorted_series (s : series) : Prop := nondecr (map fst (s_recs s)) /\ Forall (fun r => right_time (s_unit s) (fst r)) (s_recs s).
Definition has_unit (u : unit_of_time) (l : list series) : Prop := exists s, In s l /\ s_unit s = Some u.
(** the number of all records *)
Definition total (l : list series) : nat := list_sum (map (fun s => length (s_recs s)) l).
