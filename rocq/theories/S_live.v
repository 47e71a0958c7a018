(** Specification of the live stream of a day as its subscribers see it (C67).  Mentions nothing of
    the program. *)
From Coq Require Import ZArith List Bool Lia.
From Verif Require Import Base S_server S_sub.
Import ListNotations.
Open Scope Z_scope.

(** a record: number of its key, number of its table, content *)
Definition lrec : Type := nat * nat * Z.
(** a published block; [b_init]: it can be unpacked without the blocks before it *)
Record lblock := mkblk { b_init : bool; b_recs : list lrec }.
(** a record with the names of its key and its table *)
Definition named : Type := str * str * Z.
Definition name_rec (ks ss : list str) (r : lrec) : option named :=
  let '(i, j, p) := r in
  match nth_error ks i, nth_error ss j with Some k, Some s => Some (k, s, p) | _, _ => None end.
Fixpoint name_all (ks ss : list str) (l : list lrec) : option (list named) :=
  match l with
  | [] => Some []
  | r :: l' =>
    match name_rec ks ss r, name_all ks ss l' with Some x, Some xs => Some (x :: xs) | _, _ => None end
  end.

(** what a subscriber is sent *)
Inductive msg :=
| MStart (d : Z)                        (* the day begins *)
| MKeys (ks : list str)                 (* the names of the keys, in the order of their numbers *)
| MSdbs (ss : list str)                 (* the names of the tables *)
| MZip (init : bool) (l : list lrec)    (* a packed block *)
| MPub (r : named)                      (* a single record *)
| MStop (d : Z).                        (* the day is over *)

(** which records the subscription 'keys.tables' asks for: keys by their beginning, tables by name *)
Definition asks (kpat spat : str) (r : named) : bool :=
  let '(k, s, _) := r in side_covers true kpat k && side_covers false spat s.
(** it asks for some key of the day *)
Definition asks_some (kpat : str) (keys : list str) : Prop :=
  same kpat [STAR] = true \/ exists k, In k keys /\ names_cover true kpat k = true.
(** block [i] can be unpacked by itself *)
Definition starts_at (pubs : list lblock) (i : nat) : Prop := exists b, nth_error pubs i = Some b /\ b_init b = true.
(** the blocks from [n] up to but without [m] *)
Definition range (n m : nat) (pubs : list lblock) : list lblock := firstn (m - n) (skipn n pubs).
Definition recs_of (bs : list lblock) : list lrec := concat (map b_recs bs).
Definition zips (data : list (bool * list lrec)) : list msg := map (fun p => MZip (fst p) (snd p)) data.

(** The messages [inbox] of a subscriber who asked for [kpat].[spat] and [head] (everything still
    held, from [avail] on), while [pubs] were published for day [d] under the names [keys] and [sdbs]:
    the start, the names, and then, packed, exactly the records asked for of the blocks from [n] to
    [m]; the first packet and block [n] can be unpacked by themselves; [closed]: at the end the day is
    over.  [caught]: the subscriber has seen all that was published. *)
Definition stream_ok (kpat spat : str) (head : bool) (d : Z) (keys sdbs : list str) (avail : nat)
  (pubs : list lblock) (closed caught : bool) (inbox : list msg) : Prop :=
  exists ks ss data n m all got,
    inbox = MStart d :: MKeys ks :: MSdbs ss :: zips data ++ (if closed then [MStop d] else []) /\
    (avail <= n)%nat /\ (n <= m <= length pubs)%nat /\ ((n < m)%nat -> starts_at pubs n) /\
    (forall p t, data = p :: t -> fst p = true) /\
    name_all keys sdbs (recs_of (range n m pubs)) = Some all /\
    name_all ks ss (concat (map snd data)) = Some got /\
    got = filter (asks kpat spat) all /\
    (head = true -> forall j, (avail <= j < n)%nat -> ~ starts_at pubs j) /\
    (caught = true -> m = length pubs /\ (n = m -> forall j, (avail <= j)%nat -> ~ starts_at pubs j)).

(** names of a dictionary: no commas, no two the same *)
Definition good_names (l : list str) : Prop := NoDup (map (map lower) l) /\ Forall (fun k => has COMMA k = false) l.
