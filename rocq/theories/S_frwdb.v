(** Specification of the store for one day at a time (C75): what has been accepted, under which key and table, and what a day
    contains.  Mentions nothing of the program. *)
From Coq Require Import String.
From Verif Require Import Base S_server S_map S_sub.
Open Scope list_scope. Open Scope Z_scope.

Inductive cmd :=
| Create (s : list Z) (n : nat)                       (* a table with records of [n] bytes *)
| Start (d : Z)                                       (* begin the day [d] *)
| Put (text : bool) (subject b : list Z)              (* records for key.table, given as a text or as bytes *)
| Stop                                                (* end the day *)
| Save.
(** what has been accepted; [e_first]: on a running day and the first of its key ever *)
Record entry := mke { e_key : list Z; e_tab : list Z; e_bytes : list Z; e_first : bool }.
Record day := mkd { d_open : bool; d_date : Z; d_tabs : list (list Z * nat); d_keys : list (list Z); d_now : list entry }.
Definition day0 (tabs : list (list Z * nat)) : day := mkd false 0 tabs [] [].

Fixpoint size_of (tabs : list (list Z * nat)) (s : list Z) : option nat :=
  match tabs with [] => None | (s', n) :: r => if same_name s s' then Some n else size_of r s end.
Definition seen (ks : list (list Z)) (k : list Z) : bool := existsb (same_name k) ks.
(** whole records only *)
Definition whole (n : nat) (b : list Z) : list Z := firstn (List.length b / n * n) b.

Definition day_step (d : day) (c : cmd) : day :=
  match c with
  | Create s n => mkd (d_open d) (d_date d) ((s, n) :: d_tabs d) (d_keys d) (d_now d)
  | Start x =>
    if d_open d then
      if (x =? d_date d) || (d_date d <=? 0) then d else mkd true x (d_tabs d) (d_keys d) []
    else mkd true x (d_tabs d) (d_keys d) (d_now d)
  | Put text subject b =>
    let k := before_dot subject in let s := after_dot subject in
    match size_of (d_tabs d) s, b with
    | Some n, _ :: _ =>
      if d_open d then mkd true (d_date d) (d_tabs d) (k :: d_keys d) (d_now d ++ [mke k s (whole n b) (negb (seen (d_keys d) k))])
      else if text then d
      else mkd false (d_date d) (d_tabs d) (k :: d_keys d) (d_now d ++ [mke k s (whole n b) false])
    | _, _ => d
    end
  | Stop => if d_open d then mkd false 0 (d_tabs d) (d_keys d) [] else d
  | Save => d
  end.
Definition day_run (d : day) (cs : list cmd) : day := fold_left day_step cs d.

(** the bytes for a key and a table among some entries *)
Definition of_entry (k s : list Z) (e : entry) : list Z := if same_name k (e_key e) && same_name s (e_tab e) then e_bytes e else [].
Definition content (es : list entry) (k s : list Z) : list Z := List.concat (map (of_entry k s) es).
(** without the first ones of their keys *)
Definition later (es : list entry) : list entry := filter (fun e => negb (e_first e)) es.

(** names that fit *)
Definition fits (c : cmd) : Prop :=
  match c with
  | Put _ subject _ => (List.length subject < 128)%nat /\ has DOT subject = true
  | Create s n => (0 < n)%nat
  | _ => True
  end.
(** no table changes the size of its records *)
Definition steady_tab (tabs : list (list Z * nat)) (c : cmd) : Prop :=
  match c with Create s n => forall m, size_of tabs s = Some m -> m = n | _ => True end.
Fixpoint steady (tabs : list (list Z * nat)) (cs : list cmd) : Prop :=
  match cs with
  | [] => True
  | c :: r => steady_tab tabs c /\ steady (match c with Create s n => (s, n) :: tabs | _ => tabs end) r
  end.
