(** Configuration texts and the settings they stand for.  Values are those of S_json (numbers, strings,
    arrays and objects); the tree kept for a value is [shaped] there.  Nothing here mentions the parser. *)
From Coq Require Import ZArith List Lia Bool.
From Verif Require Import Base S_json.
Import ListNotations.
Open Scope Z_scope.

(** ** Blanks and notes.  A note runs from a sharp sign to the end of the line. *)
Definition eol (c : Z) : Prop := c = 10 \/ c = 13.
Definition note (t : list Z) : Prop := Forall (fun c => c <> 0 /\ ~ eol c) t.
Inductive gap : list Z -> Prop :=
| G_nil : gap []
| G_blank c g : 0 < c <= 32 -> gap g -> gap (c :: g)
| G_note t c g : note t -> eol c -> gap g -> gap (35 :: t ++ c :: g).
(** the end of a file: the last line need not end *)
Inductive tail : list Z -> Prop :=
| T_gap g : gap g -> tail g
| T_note g t : gap g -> note t -> tail (g ++ 35 :: t).

(** ** Words. *)
Definition low (c : Z) : Z := if (65 <=? c) && (c <=? 90) then c + 32 else c.
(** the word include, in capital or small letters *)
Definition inc_word (w : list Z) : Prop := map low w = [105; 110; 99; 108; 117; 100; 101].
Definition starts_inc (t : list Z) : Prop := exists w r, t = w ++ r /\ inc_word w.

(** printed bytes that are neither the sharp sign, a comma nor a closing bracket *)
Definition wordc (c : Z) : Prop := 32 < c /\ c <> 35 /\ c <> 44 /\ c <> 93 /\ c <> 125.
Definition numc (c : Z) : Prop := c = 45 \/ c = 46 \/ digit c.
Definition number (s : list Z) : Prop := (hd 0 s = 45 \/ digit (hd 0 s)) /\ Forall numc s.
(** a word without quotes: what starts it does not make it a number, a list or a quoted word *)
Definition bare (s : list Z) : Prop :=
  s <> [] /\ Forall wordc s /\ ~ (hd 0 s = 45 \/ digit (hd 0 s)) /\ hd 0 s <> 91 /\ hd 0 s <> 123 /\ hd 0 s <> 34.
(** what may stand between quotes *)
Definition inner (s : list Z) : Prop := s <> [] /\ Forall (fun c => 32 < c /\ c <> 35 /\ c <> 34) s.
Definition key (k : list Z) : Prop :=
  k <> [] /\ Forall (fun c => 32 < c /\ c <> 58) k /\ hd 0 k <> 35 /\ hd 0 k <> 125 /\ ~ starts_inc k.
Definition spaces (s : list Z) : Prop := Forall (fun c => c = 32) s.
Definition fname (s : list Z) : Prop := s <> [] /\ Forall wordc s.

(** what follows an entry of a file *)
Definition parted (u : list Z) : Prop := u = [] \/ 0 < hd 0 u <= 32 \/ hd 0 u = 35.

(** ** The texts.  [files] are the contents by full name, [path] the directory put before the names of
    included files.  With [inc = true] the text may include files, which themselves include none. *)
Section Texts.
Variable files : list Z -> option (list Z).
Variable path : list Z.

Inductive vtext (inc : bool) : jv -> list Z -> Prop :=
| V_num s : number s -> vtext inc (JNum s) s
| V_bare s : bare s -> vtext inc (JStr s) s
| V_quoted s : inner s -> vtext inc (JStr s) (34 :: s ++ [34])
| V_arr0 g : gap g -> vtext inc (JArr []) (91 :: g ++ [93])
| V_arr l t : Z.of_nat (length l) < 2 ^ 31 -> elems inc l t -> vtext inc (JArr l) (91 :: t ++ [93])
| V_obj0 g : gap g -> vtext inc (JObj []) (123 :: g ++ [125])
| V_obj l t : members inc l t -> vtext inc (JObj l) (123 :: t ++ [125])
with elems (inc : bool) : list jv -> list Z -> Prop :=
| E_one g v t g' : gap g -> vtext inc v t -> ~ starts_inc t -> gap g' -> elems inc [v] (g ++ t ++ g')
| E_more g v t g' l u : gap g -> vtext inc v t -> ~ starts_inc t -> gap g' -> elems inc l u ->
    elems inc (v :: l) (g ++ t ++ g' ++ 44 :: u)
(** the entries of an object, between commas *)
with members (inc : bool) : list (list Z * jv) -> list Z -> Prop :=
| M_one es t g' : member inc es t -> gap g' -> members inc es (t ++ g')
| M_more es t g' l u : member inc es t -> gap g' -> members inc l u -> members inc (es ++ l) (t ++ g' ++ 44 :: u)
(** one entry: a setting, or a file with its settings *)
with member (inc : bool) : list (list Z * jv) -> list Z -> Prop :=
| M_set g k s g1 v t : gap g -> key k -> spaces s -> gap g1 -> vtext inc v t ->
    member inc [(k, v)] (g ++ k ++ s ++ 58 :: g1 ++ t)
| M_inc g w g1 nm c es : inc = true -> gap g -> inc_word w -> gap g1 -> fname nm ->
    Z.of_nat (length (path ++ nm)) < 1024 -> files (path ++ nm) = Some c -> es <> [] ->
    entries false es c -> member inc es (g ++ w ++ g1 ++ nm)
(** the text of a file *)
with entries (inc : bool) : list (list Z * jv) -> list Z -> Prop :=
| F_end u : tail u -> entries inc [] u
| F_more es t l u : member inc es t -> parted u -> entries inc l u -> entries inc (es ++ l) (t ++ u).
End Texts.

(** nesting of arrays and objects, a single value having one level *)
Fixpoint levels (v : jv) : nat :=
  match v with
  | JArr l => S (list_max (map levels l))
  | JObj l => S ((fix go (l : list (list Z * jv)) := match l with [] => O | (_, v) :: l' => Nat.max (levels v) (go l') end) l)
  | _ => 1%nat
  end.

(** ** A file with several objects one after the other. *)
(** braces stand in pairs outside notes *)
Inductive paired : list Z -> Prop :=
| B_nil : paired []
| B_char c t : c <> 35 -> c <> 123 -> c <> 125 -> paired t -> paired (c :: t)
| B_note n c t : Forall (fun c => ~ eol c) n -> eol c -> paired t -> paired (35 :: n ++ c :: t)
| B_pair a t : paired a -> paired t -> paired (123 :: a ++ 125 :: t).
Inductive objects (files : list Z -> option (list Z)) : list (list (list Z * jv)) -> list Z -> Prop :=
| Os_end u : tail u -> objects files [] u
| Os_more g l t ls u : gap g -> vtext files [] true (JObj l) (123 :: t ++ [125]) -> paired t -> objects files ls u ->
    objects files (l :: ls) (g ++ 123 :: t ++ 125 :: u).
