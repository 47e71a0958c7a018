(** Specification of the chunked queue, the sorted map and the bounded ranking. *)
From Verif Require Import Base S_list.

(** ** queue *)
Section Queue.
Context {A : Type}.

Inductive qop := QPush (x : A) | QPop | QGet (i : Z).

Definition q_step (l : list A) (op : qop) : list A * option A :=
  match op with
  | QPush x => (l ++ [x], None)
  | QPop => (tl l, hd_error l)
  | QGet i => (l, seq_get l i)
  end.

Fixpoint q_run (l : list A) (ops : list qop) : list A * list (option A) :=
  match ops with
  | [] => (l, [])
  | op :: ops' => let (l1, r) := q_step l op in let (l2, rs) := q_run l1 ops' in (l2, r :: rs)
  end.

(** no pop finds the queue empty, and no read goes further than twice the rest of the
    oldest chunk while that chunk is partly consumed; [d] = elements popped so far *)
Fixpoint q_tame (nc : nat) (l : list A) (d : Z) (ops : list qop) : Prop :=
  match ops with
  | [] => True
  | op :: ops' =>
    match op with
    | QPop => l <> []
    | QGet i => d mod Z.of_nat nc = 0 \/ i < 2 * (Z.of_nat nc - d mod Z.of_nat nc)
    | QPush _ => True
    end /\ q_tame nc (fst (q_step l op)) (match op with QPop => d + 1 | _ => d end) ops'
  end.
End Queue.
Arguments qop : clear implicits.

(** ** sorted map *)
Section Map.
Context {V : Type}.
Inductive kop := KSet (key : Z) (v : V) | KDel (key : Z).

(** value of [key] after a history: that of the last set, unless deleted since *)
Fixpoint last_set (ops : list kop) (key : Z) (cur : option V) : option V :=
  match ops with
  | [] => cur
  | KSet k v :: ops' => last_set ops' key (if k =? key then Some v else cur)
  | KDel k :: ops' => last_set ops' key (if k =? key then None else cur)
  end.

(** keys in strictly increasing (asc) or decreasing order *)
Definition key_ordered (asc : bool) (ks : list Z) : Prop :=
  forall i j a b, (i < j)%nat -> nth_error ks i = Some a -> nth_error ks j = Some b ->
    if asc then a < b else b < a.

(** ** bounded ranking: the best [n] keys *)
Definition better (asc : bool) (a b : Z) : bool := if asc then a <? b else b <? a.

Fixpoint rank_insert (asc : bool) (key : Z) (v : V) (l : list (Z * V)) : list (Z * V) :=
  match l with
  | [] => [(key, v)]
  | (k, w) :: l' =>
    if k =? key then (key, v) :: l'
    else if better asc key k then (key, v) :: l else (k, w) :: rank_insert asc key v l'
  end.

Definition rank_step (asc : bool) (n : nat) (l : list (Z * V)) (op : kop) : list (Z * V) :=
  match op with
  | KSet key v => firstn n (rank_insert asc key v l)
  | KDel key => filter (fun kw => negb (fst kw =? key)) l
  end.

Definition rank_run (asc : bool) (n : nat) (ops : list kop) : list (Z * V) :=
  fold_left (rank_step asc n) ops [].
End Map.
Arguments kop : clear implicits.
