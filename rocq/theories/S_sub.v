(** Specification of subscriptions: which published names a pattern covers, and which
    subscriptions are in force after a history.  Mentions nothing of the program. *)
From Coq Require Import ZArith List Bool Lia.
From Verif Require Import Base S_server.
Import ListNotations.
Open Scope Z_scope.

Definition COMMA : Z := 44.
Definition DOT : Z := 46.
Definition STAR : Z := 42.

Definition has (c : Z) (l : str) : bool := existsb (Z.eqb c) l.
(** the parts of a list of names separated by commas *)
Fixpoint parts (l : str) : list str :=
  match l with
  | [] => [[]]
  | c :: t =>
    match parts t with
    | [] => [[c]]
    | p :: q => if c =? COMMA then [] :: p :: q else (c :: p) :: q
    end
  end.
(** what stands before and after the first dot *)
Fixpoint before_dot (l : str) : str :=
  match l with [] => [] | c :: t => if c =? DOT then [] else c :: before_dot t end.
Fixpoint after_dot (l : str) : str :=
  match l with [] => [] | c :: t => if c =? DOT then t else after_dot t end.

(** equality and beginning, ignoring the case of letters *)
Definition same (a b : str) : bool := if list_eq_dec Z.eq_dec (map lower a) (map lower b) then true else false.
Definition begins (p s : str) : bool := same p (firstn (List.length p) s).
(** one name of a pattern covers [s]: by its beginning when the subscription is by heads *)
Definition name_covers (head : bool) (e s : str) : bool :=
  match e with [] => false | _ => if head then begins e s else same e s end.
(** a list of names covers [s] when one of them does; an empty name covers nothing *)
Definition names_cover (head : bool) (p s : str) : bool := existsb (fun e => name_covers head e s) (parts p).
(** one side of 'keys.tables': the star covers everything *)
Definition side_covers (head : bool) (p s : str) : bool := same p [STAR] || names_cover head p s.
(** a pattern covers the published name [s] *)
Definition covers (head : bool) (p s : str) : bool :=
  if same p [STAR] || same p [STAR; DOT; STAR] then true
  else if has DOT p then
    has DOT s && side_covers head (before_dot p) (before_dot s) && side_covers head (after_dot p) (after_dot s)
  else names_cover head p s.

(** what clients ask for *)
Inductive sreq :=
| RSub (cid : Z) (head : bool) (pattern : str)  (* subscribe *)
| RUnsub (cid : Z)                              (* give up all subscriptions of a client; -1: of all clients *)
| RGone (cid : Z).                              (* the client's connection is closed *)

(** a subscription in force: client, by heads or exact, pattern in lower case *)
Definition asub : Type := Z * bool * str.
Definition asub_eqb (a b : asub) : bool :=
  let '(c, h, p) := a in let '(c', h', p') := b in (c =? c') && Bool.eqb h h' && same p p'.
Definition drop_client (c : Z) (A : list asub) : list asub := filter (fun a => negb (fst (fst a) =? c)) A.
Definition in_force_step (A : list asub) (r : sreq) : list asub :=
  match r with
  | RSub c h p =>
    match p with [] => A | _ => if existsb (asub_eqb (c, h, p)) A then A else A ++ [(c, h, map lower p)] end
  | RUnsub c => if c =? -1 then [] else drop_client c A
  | RGone c => drop_client c A
  end.
Definition in_force (rs : list sreq) : list asub := fold_left in_force_step rs [].
(** how many subscriptions of client [c] cover the published name [s] *)
Definition wanted (A : list asub) (c : Z) (s : str) : nat :=
  List.length (filter (fun a => let '(c', h, p) := a in (c' =? c) && covers h p s) A).
(** the answer to a request: how many subscriptions it added or ended *)
Definition answer (A : list asub) (r : sreq) : Z :=
  Z.abs (Z.of_nat (List.length (in_force_step A r)) - Z.of_nat (List.length A)).
Fixpoint answers (A : list asub) (rs : list sreq) : list Z :=
  match rs with [] => [] | r :: rs' => answer A r :: answers (in_force_step A r) rs' end.

(** patterns the program understands: a star stands for a whole side and then the subscription is by
    heads, has a list of names, or is '*' or '*.*'; exact patterns with a dot have two sides *)
Definition clear_pattern (head : bool) (p : str) : Prop :=
  (head = true \/ has STAR p = false \/ has COMMA p = true \/ p = [STAR] \/ p = [STAR; DOT; STAR]) /\
  (head = false -> has DOT p = true -> before_dot p <> [] /\ after_dot p <> []).
(** no list or star pattern is used both by heads and exactly *)
Definition one_use (rs : list sreq) : Prop :=
  exists H : str -> bool, forall c h p, In (RSub c h p) rs ->
    h = true \/ has STAR p = true \/ has COMMA p = true -> h = H (map lower p).
(** the requests of the covered histories: no connection closed *)
Definition clear_requests (rs : list sreq) : Prop :=
  (forall c h p, In (RSub c h p) rs -> clear_pattern h p) /\ (forall c, ~ In (RGone c) rs) /\ one_use rs.
(** names that fit the program's buffers *)
Definition short_name (s : str) : Prop :=
  has COMMA s = false /\ (List.length (before_dot s) < 128)%nat /\ (List.length (after_dot s) < 128)%nat.
