(** Specification of the publication of a day's data: what readers hear, in which order, and what the
    announcements of keys and tables say.  Mentions nothing of the program. *)
From Coq Require Import ZArith List Bool.
From Verif Require Import Base S_server S_sub S_json.
Import ListNotations.
Open Scope list_scope.
Open Scope Z_scope.

(** what is asked of the service; the content of a message may be missing *)
Inductive scmd :=
| CKeys (info : option str)          (* the keys of the day *)
| CTables (info : option str)        (* the definitions of the tables *)
| CStart (date : Z)                  (* a day begins *)
| CStop                              (* the day ends *)
| CPub (subject : str)               (* a message is published *)
| CSub (cid : Z) (subject : str)     (* a reader subscribes *)
| CUnsub (cid : Z)                   (* a reader gives up *)
| CGone (cid : Z).                   (* the connection of a reader is closed *)

(** what one reader hears; [HLeft] marks in its stream the place where it gave up *)
Inductive heard :=
| HStart (date : Z) | HKeys (text : str) | HTables (text : str) | HWait (date : Z) | HData (subject : str) | HStop (date : Z)
| HLeft.

(** a reader's day: start, perhaps the keys, the tables, wait, data, stop - all for one date.  With
    [strict] the end of a day is heard only by those who heard it begin. *)
Inductive phase := PClosed | PStarted (date : Z) | PKeyed (date : Z) | PTabled (date : Z) | POpen (date : Z).
Definition next (strict : bool) (p : phase) (x : heard) : option phase :=
  match p, x with
  | PClosed, HStart d => Some (PStarted d)
  | PStarted d, HKeys _ => Some (PKeyed d)
  | PStarted d, HTables _ => Some (PTabled d)
  | PKeyed d, HTables _ => Some (PTabled d)
  | PTabled d, HWait d' => if d =? d' then Some (POpen d) else None
  | POpen d, HData _ => Some (POpen d)
  | POpen d, HStop d' => if d =? d' then Some PClosed else None
  | PClosed, HStop _ => if strict then None else Some PClosed
  | PClosed, HLeft => Some PClosed
  | POpen _, HLeft => Some PClosed
  | _, _ => None
  end.
Fixpoint follow (strict : bool) (p : phase) (l : list heard) : option phase :=
  match l with [] => Some p | x :: l' => match next strict p x with Some q => follow strict q l' | None => None end end.
(** what reader [c] hears of everything sent *)
Definition to (c : Z) (o : list (Z * heard)) : list heard := map snd (filter (fun m => fst m =? c) o).

(** days begin and end in turn; [open] tells whether one is open *)
Fixpoint orderly (open : bool) (h : list scmd) : Prop :=
  match h with
  | [] => True
  | CStart _ :: h' => open = false /\ orderly true h'
  | CStop :: h' => orderly false h'
  | _ :: h' => orderly open h'
  end.
Definition day_open (h : list scmd) : bool :=
  fold_left (fun b c => match c with CStart _ => true | CStop => false | _ => b end) h false.
Definition day_date (h : list scmd) : Z := fold_left (fun d c => match c with CStart d' => d' | _ => d end) h 0.
(** the subscriptions asked for: all by heads; a closed connection ends those of its reader *)
Definition requests (h : list scmd) : list sreq :=
  flat_map (fun c => match c with CSub c p => [RSub c true p] | CUnsub c => [RUnsub c] | CGone c => [RGone c] | _ => [] end) h.
(** the readers: who has subscribed and not given up *)
Definition reader (h : list scmd) (c : Z) : bool :=
  fold_left (fun b x => match x with CSub d _ => b || (d =? c) | CUnsub d => b && negb (d =? c) | _ => b end) h false.
(** numbers of connections, published names that fit, and no connection closed *)
Definition usual (c : scmd) : Prop :=
  match c with CPub s => short_name s | CSub c _ => c <> -1 | CUnsub c => c <> -1 | CGone _ => False | _ => True end.

(** the keys announced to a reader of the keys [p]: of the names in [t] those that begin with one of
    the names in [p], or all of [t] for the star; nothing is said when there are none *)
Fixpoint commas (l : list str) : str := match l with [] => [] | [k] => k | k :: l' => k ++ COMMA :: commas l' end.
Definition keys_for (p t : str) : option str :=
  if same p [STAR] then Some t
  else match filter (names_cover true p) (parts t) with [] => None | l => Some (commas l) end.
(** the tables announced to a reader of the tables [p] *)
Definition tables_for (p : str) (l : list (str * jv)) : list (str * jv) :=
  if same p [STAR] then l else filter (fun kv => names_cover false p (fst kv)) l.
(** the first subscription of a reader since it last gave up *)
Definition first_pattern (h : list scmd) (c : Z) : option str :=
  fold_left (fun o x => match x with
    | CSub d p => if d =? c then match o with None => Some p | _ => o end else o
    | CUnsub d => if d =? c then None else o
    | _ => o end) h None.
(** the keys and tables last given *)
Definition last_keys (h : list scmd) : option str :=
  fold_left (fun o x => match x with CKeys (Some t) => Some t | _ => o end) h None.
Definition last_tables (h : list scmd) : option str :=
  fold_left (fun o x => match x with CTables (Some t) => Some t | _ => o end) h None.
(** the data among what a reader hears *)
Definition datas (l : list heard) : list str := flat_map (fun x => match x with HData n => [n] | _ => [] end) l.
