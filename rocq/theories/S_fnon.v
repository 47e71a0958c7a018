(** Specification of a key whose records have no time (C47): a sequence that grows by the batches written. *)
From Verif Require Import Base.

Section Spec.
Context {R : Type}.
Inductive nop := NWrite (b : list R) | NRead (start cnt : Z).

(** [cnt] records from the position [start] on; a negative position counts from the end *)
Definition slice (l : list R) (start cnt : Z) : list R :=
  let pos := if start <? 0 then Z.max 0 (Z.of_nat (length l) + start) else start in
  firstn (Z.to_nat cnt) (skipn (Z.to_nat pos) l).

(** the answers to the reads of a history of a key that holds [l] *)
Fixpoint expected (l : list R) (ops : list nop) : list (list R) :=
  match ops with
  | [] => []
  | NWrite b :: r => expected (l ++ b) r
  | NRead s n :: r => slice l s n :: expected l r
  end.

Definition reads (ops : list nop) : nat := length (filter (fun o => match o with NRead _ _ => true | _ => false end) ops).
(** all reads count from the end, for some records *)
Definition from_end (ops : list nop) : Prop := forall s n, In (NRead s n) ops -> s < 0 <= n.
End Spec.
Arguments nop : clear implicits. Arguments NWrite {R}. Arguments NRead {R}.
