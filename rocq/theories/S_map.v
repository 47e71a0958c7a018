(** Specification of the named list (C36): names and values in order of first insertion. *)
From Verif Require Import Base S_server.

Notation name := (list Z) (only parsing).
Inductive mop :=
| MSet (k : name) (v : Z)    (* v: a pointer; 0 = NULL *)
| MGet (k : name)
| MIndex (k : name)
| MAt (i : Z)
| MSize
| MClear.

Definition same_name (a b : name) : bool := if list_eq_dec Z.eq_dec (map lower a) (map lower b) then true else false.

Fixpoint position (l : list (name * Z)) (k : name) : option nat :=
  match l with
  | [] => None
  | (k', _) :: l' => if same_name k k' then Some O else option_map S (position l' k)
  end.
Fixpoint put_at (l : list (name * Z)) (i : nat) (v : Z) : list (name * Z) :=
  match l, i with
  | [], _ => []
  | (k, _) :: l', O => (k, v) :: l'
  | x :: l', S i' => x :: put_at l' i' v
  end.
Definition value_at (l : list (name * Z)) (i : nat) : Z := nth i (map snd l) 0.
Definition nonnull (vs : list Z) : list Z := filter (fun v => negb (v =? 0)) vs.

(** new contents, answer, values released *)
Definition mspec (l : list (name * Z)) (o : mop) : list (name * Z) * Z * list Z :=
  match o with
  | MSet k v =>
    match position l k with
    | Some i => (put_at l i v, Z.of_nat i, nonnull [value_at l i])
    | None => (l ++ [(k, v)], Z.of_nat (length l), [])
    end
  | MGet k => (l, match position l k with Some i => value_at l i | None => 0 end, [])
  | MIndex k => (l, match position l k with Some i => Z.of_nat i | None => -1 end, [])
  | MAt i => (l, if (0 <=? i) && (i <? Z.of_nat (length l)) then value_at l (Z.to_nat i) else 0, [])
  | MSize => (l, Z.of_nat (length l), [])
  | MClear => ([], 0, nonnull (map snd l))
  end.
Fixpoint mspec_run (l : list (name * Z)) (os : list mop) : list (name * Z) * list Z * list Z :=
  match os with
  | [] => (l, [], [])
  | o :: os' =>
    let '(l1, x, r) := mspec l o in
    let '(l2, xs, rs) := mspec_run l1 os' in (l2, x :: xs, r ++ rs)
  end.

(** values handed over by the operations *)
Fixpoint given (os : list mop) : list Z :=
  match os with [] => [] | MSet _ v :: os' => v :: given os' | _ :: os' => given os' end.
