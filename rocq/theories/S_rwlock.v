(** Specification of a lock for many readers or one writer (C49). *)
From Verif Require Import Base.

(** what every thread holds *)
Inductive hold := HNone | HRead | HWrite.
Definition writers (l : list hold) : nat := length (filter (fun h => match h with HWrite => true | _ => false end) l).
Definition readers (l : list hold) : nat := length (filter (fun h => match h with HRead => true | _ => false end) l).
(** one writer and nobody else, or no writer *)
Definition exclusive (l : list hold) : Prop := writers l = 0%nat \/ (writers l = 1%nat /\ readers l = 0%nat).
Definition nobody (l : list hold) : Prop := Forall (fun h => h = HNone) l.
