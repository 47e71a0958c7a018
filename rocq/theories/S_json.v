(** JSON texts, the values they stand for, and the tree the code keeps for a value.  Nothing here
    mentions the parser or the writer. *)
From Coq Require Import ZArith List Lia Bool.
From Verif Require Import Base.
Import ListNotations.
Open Scope Z_scope.

(** s_sis_json_node, sis_json.h:18-26: type, key, value and the list reached through child and next;
    prev and father hold no information of their own.  A C string is its bytes without the final 0. *)
Inductive jnode : Type := JN (ty : Z) (key val : option (list Z)) (kids : list jnode).
Definition jkey (n : jnode) := match n with JN _ k _ _ => k end.
Definition jval (n : jnode) := match n with JN _ _ v _ => v end.
Definition jty (n : jnode) := match n with JN t _ _ _ => t end.
Definition jkids (n : jnode) := match n with JN _ _ _ l => l end.

(** A JSON value; a number is kept as it is spelled. *)
Inductive jv : Type :=
| JNull
| JBool (b : bool)
| JNum (s : list Z)
| JStr (s : list Z)
| JArr (l : list jv)
| JObj (l : list (list Z * jv)).

(** ** The grammar of RFC 8259 (without \u escapes).  With [lax = true] it is the whole of it.  With
    [lax = false] it is the part of it the parser can handle: no null, true and false only before a
    comma or a blank (32), no escape but backslash-quote and none in a key, no empty key, exponents
    only as e or e-. *)
Definition digit (c : Z) : Prop := 48 <= c <= 57.
Definition blank (c : Z) : Prop := c = 32 \/ c = 9 \/ c = 10 \/ c = 13.
Definition ws (l : list Z) : Prop := Forall blank l.
Definition digits (s : list Z) : Prop := s <> [] /\ Forall digit s.

Definition numlex (lax : bool) (s : list Z) : Prop :=
  (exists sg i f e, s = sg ++ i ++ f ++ e /\ (sg = [] \/ sg = [45]) /\
     (i = [48] \/ digits i /\ hd 0 i <> 48) /\
     (f = [] \/ exists d, f = 46 :: d /\ digits d) /\
     (e = [] \/ exists c g d, e = c :: g ++ d /\ (c = 101 \/ c = 69) /\ (g = [] \/ g = [43] \/ g = [45]) /\ digits d)) /\
  (lax = false -> ~ In 69 s /\ ~ In 43 s).

Definition plain (c : Z) : Prop := 32 <= c < 256 /\ c <> 34 /\ c <> 92.
Inductive escape : Z -> Z -> Prop :=
| Es_bslash : escape 92 92 | Es_b : escape 8 98 | Es_f : escape 12 102 | Es_n : escape 10 110
| Es_r : escape 13 114 | Es_t : escape 9 116.

(** the string and its spelling between the quotes *)
Inductive strlex (lax : bool) : list Z -> list Z -> Prop :=
| SL_nil : strlex lax [] []
| SL_plain c s t : plain c -> strlex lax s t -> strlex lax (c :: s) (c :: t)
| SL_quote s t : strlex lax s t -> strlex lax (34 :: s) (92 :: 34 :: t)
| SL_esc c e s t : lax = true -> escape c e -> strlex lax s t -> strlex lax (c :: s) (92 :: e :: t).
Definition keylex (lax : bool) (k t : list Z) : Prop :=
  strlex lax k t /\ (lax = false -> t <> [] /\ ~ In 92 t).

Definition word (b : bool) : list Z := if b then [116; 114; 117; 101] else [102; 97; 108; 115; 101].

Inductive jtext (lax : bool) : jv -> list Z -> Prop :=
| T_null : lax = true -> jtext lax JNull [110; 117; 108; 108]
| T_num s : numlex lax s -> jtext lax (JNum s) s
| T_str s t : strlex lax s t -> jtext lax (JStr s) (34 :: t ++ [34])
| T_arr0 w : ws w -> jtext lax (JArr []) (91 :: w ++ [93])
| T_arr l t : elems lax l t -> jtext lax (JArr l) (91 :: t ++ [93])
| T_obj0 w : ws w -> jtext lax (JObj []) (123 :: w ++ [125])
| T_obj l t : members lax l t -> jtext lax (JObj l) (123 :: t ++ [125])
(** a value and the blanks behind it; [last]: no comma follows *)
with item (lax : bool) : bool -> jv -> list Z -> Prop :=
| I_val last v t w : jtext lax v t -> ws w -> item lax last v (t ++ w)
| I_blank last b w : ws w -> item lax last (JBool b) (word b ++ 32 :: w)
| I_comma b : item lax false (JBool b) (word b)
| I_word last b w : lax = true -> ws w -> item lax last (JBool b) (word b ++ w)
with elems (lax : bool) : list jv -> list Z -> Prop :=
| E_last v w i : ws w -> item lax true v i -> elems lax [v] (w ++ i)
| E_cons v w i l t : ws w -> item lax false v i -> elems lax l t -> elems lax (v :: l) (w ++ i ++ 44 :: t)
with members (lax : bool) : list (list Z * jv) -> list Z -> Prop :=
| M_last k kt v w w1 w2 i : ws w -> keylex lax k kt -> ws w1 -> ws w2 -> item lax true v i ->
    members lax [(k, v)] (w ++ 34 :: kt ++ 34 :: w1 ++ 58 :: w2 ++ i)
| M_cons k kt v w w1 w2 i l t : ws w -> keylex lax k kt -> ws w1 -> ws w2 -> item lax false v i ->
    members lax l t ->
    members lax ((k, v) :: l) (w ++ 34 :: kt ++ 34 :: w1 ++ 58 :: w2 ++ i ++ 44 :: t).

Definition container (v : jv) : Prop := match v with JArr _ | JObj _ => True | _ => False end.

(** ** The tree that stands for a value. *)
(** [s] is [i] in decimal without leading zeros *)
Definition is_dec (i : Z) (s : list Z) : Prop :=
  digits s /\ fold_left (fun a c => a * 10 + (c - 48)) s 0 = i /\ (s = [48] \/ hd 0 s <> 48).
(** a point followed by a digit *)
Definition frac (s : list Z) : Prop := exists a d b, s = a ++ 46 :: d :: b /\ digit d.

(** types from sis_json.h:9-16: 2 int, 3 bool, 4 double, 5 string, 6 array, 7 object *)
Fixpoint shaped (v : jv) (k : option (list Z)) (n : jnode) {struct v} : Prop :=
  jkey n = k /\
  match v with
  | JNull => False
  | JBool b => jty n = 3 /\ jval n = Some (word b) /\ jkids n = []
  | JNum s => (jty n = 4 /\ frac s \/ jty n = 2 /\ ~ frac s) /\ jval n = Some s /\ jkids n = []
  | JStr s => jty n = 5 /\ jval n = Some s /\ jkids n = []
  | JArr l => jty n = 6 /\ jval n = None /\
      (fix go (i : Z) (l : list jv) (ks : list jnode) : Prop :=
         match l, ks with
         | [], [] => True
         | v :: l', c :: ks' => (exists s, is_dec i s /\ shaped v (Some s) c) /\ go (i + 1) l' ks'
         | _, _ => False
         end) 0 l (jkids n)
  | JObj l => jty n = 7 /\ jval n = None /\
      (fix go (l : list (list Z * jv)) (ks : list jnode) : Prop :=
         match l, ks with
         | [], [] => True
         | (k, v) :: l', c :: ks' => shaped v (Some k) c /\ go l' ks'
         | _, _ => False
         end) l (jkids n)
  end.

(** ** Values whose written form the parser can read back: plain strings apart from quotes, plain
    non-empty keys, numbers the grammar with [lax = false] allows, no null, and true or false never as
    the last entry of an array or object. *)
Definition is_bool (v : jv) : Prop := match v with JBool _ => True | _ => False end.
Fixpoint readable (v : jv) : Prop :=
  match v with
  | JNull => False
  | JBool _ => True
  | JNum s => numlex false s
  | JStr s => Forall (fun c => plain c \/ c = 34) s
  | JArr l => ~ is_bool (last l JNull) /\
      (fix go l := match l with [] => True | v :: l' => readable v /\ go l' end) l
  | JObj l => ~ is_bool (snd (last l ([], JNull))) /\
      (fix go (l : list (list Z * jv)) :=
         match l with [] => True | (k, v) :: l' => (k <> [] /\ Forall plain k /\ readable v) /\ go l' end) l
  end.

(** every string in the tree is shorter than [m] *)
Definition short_str (m : Z) (s : option (list Z)) : Prop :=
  match s with Some b => Z.of_nat (length b) < m | None => True end.
Fixpoint short (m : Z) (n : jnode) : Prop :=
  match n with
  | JN _ k v kids => short_str m k /\ short_str m v /\
      (fix go l := match l with [] => True | c :: l' => short m c /\ go l' end) kids
  end.
