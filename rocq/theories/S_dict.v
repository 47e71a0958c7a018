(** Specification of the dictionary (C43): an association list up to a key equality. *)
From Verif Require Import Base.

Section Dict.
Context {K V : Type}.
Variable keq : K -> K -> bool.

Inductive dop :=
| DFind (k : K)
| DAdd (k : K) (v : V)
| DReplace (k : K) (v : V)
| DDelete (k : K)
| DEmpty
| DResize              (* shrink to fit *)
| DExpand (n : Z)      (* reserve *)
| DCanResize (b : bool)
| DIterOpen            (* an iteration begins or ends: no entries are moved meanwhile *)
| DIterClose.

Inductive dout :=
| RVal (v : option V)
| RBool (b : bool)
| RNone.

Fixpoint lookup (l : list (K * V)) (k : K) : option V :=
  match l with
  | [] => None
  | (k', v) :: l' => if keq k k' then Some v else lookup l' k
  end.
Fixpoint update (l : list (K * V)) (k : K) (v : V) : list (K * V) :=
  match l with
  | [] => []
  | (k', v') :: l' => if keq k k' then (k', v) :: l' else (k', v') :: update l' k v
  end.
Fixpoint remove (l : list (K * V)) (k : K) : list (K * V) :=
  match l with
  | [] => []
  | (k', v') :: l' => if keq k k' then l' else (k', v') :: remove l' k
  end.
Definition mem_key (l : list (K * V)) (k : K) : bool :=
  match lookup l k with Some _ => true | None => false end.

(** the map after an operation and the answer: found value; added?; new key?; deleted? *)
Definition spec_step (l : list (K * V)) (o : dop) : list (K * V) * dout :=
  match o with
  | DFind k => (l, RVal (lookup l k))
  | DAdd k v => if mem_key l k then (l, RBool false) else ((k, v) :: l, RBool true)
  | DReplace k v => if mem_key l k then (update l k v, RBool false) else ((k, v) :: l, RBool true)
  | DDelete k => if mem_key l k then (remove l k, RBool true) else (l, RBool false)
  | DEmpty => ([], RNone)
  | _ => (l, RNone)
  end.
Fixpoint spec_run (l : list (K * V)) (os : list dop) : list (K * V) * list dout :=
  match os with
  | [] => (l, [])
  | o :: os' => let '(l1, x) := spec_step l o in let '(l2, xs) := spec_run l1 os' in (l2, x :: xs)
  end.

(** what the body of a loop may do while the entry of key [c] is being visited: look up, add,
    overwrite, and delete that entry *)
Definition body_op (c : K) (o : dop) : Prop :=
  match o with
  | DFind _ | DAdd _ _ | DReplace _ _ | DResize | DCanResize _ => True
  | DExpand n => n <= 2 ^ 62
  | DDelete k => keq k c = true
  | DEmpty | DIterOpen | DIterClose => False
  end.
Definition deletes (k : K) (o : dop) : bool := match o with DDelete k' => keq k k' | _ => false end.
(** how often a key was delivered *)
Definition visits (k : K) (es : list (K * V)) : nat := length (filter (fun e => keq k (fst e)) es).

(** a key equality and a hash fit for a dictionary *)
Definition key_ok (hash : K -> Z) : Prop :=
  (forall a, keq a a = true) /\ (forall a b, keq a b = keq b a) /\
  (forall a b c, keq a b = true -> keq b c = true -> keq a c = true) /\
  (forall a b, keq a b = true -> hash a = hash b) /\ (forall a, 0 <= hash a).
End Dict.
Arguments dop : clear implicits.
Arguments dout : clear implicits.
