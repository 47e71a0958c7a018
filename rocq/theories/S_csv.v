(** Specification of CSV texts (C69). *)
From Verif Require Import Base.

(** pieces joined by a separator *)
Fixpoint joined (sep : Z) (ps : list (list Z)) : list Z :=
  match ps with [] => [] | [p] => p | p :: ps' => p ++ sep :: joined sep ps' end.
(** what is not blank at its ends *)
Definition tight (t : list Z) : Prop := t = [] \/ (32 < hd 0 t /\ 32 < last t 0).
Definition blanks (l : list Z) : Prop := Forall (fun c => c <= 32) l.
(** [t] is the piece [p] without the blanks at its ends; a zero ends the piece *)
Definition stripped (p t : list Z) : Prop :=
  exists a b z, p = a ++ t ++ b ++ z /\ blanks a /\ blanks b /\ ~ In 0 (a ++ t ++ b) /\ (z = [] \/ hd 1 z = 0) /\ tight t.
(** the cells of a line *)
Definition row_of (sep : Z) (line : list Z) (row : list (list Z)) : Prop :=
  exists ps, ps <> [] /\ line = joined sep ps /\ Forall (fun p => ~ In sep p) ps /\ Forall2 stripped ps row.

(** the number that a text of digits stands for *)
Definition digit (c : Z) : Prop := 48 <= c <= 57.
Definition dec_value (t : list Z) : Z := fold_left (fun a c => a * 10 + (c - 48)) t 0.
Definition numeral (t : list Z) (v : Z) : Prop :=
  exists d, d <> [] /\ Forall digit d /\ (d = [48] \/ hd 0 d <> 48) /\
    ((t = d /\ v = dec_value d) \/ (t = 45 :: d /\ v = - dec_value d)).

(** what is written: a signed or unsigned number, the bytes of a field of characters, the text of a number with decimals, nothing *)
Inductive cell := CInt (v : Z) | CUint (v : Z) | CText (raw : list Z) | CDec (t : list Z) | CNone.
(** the characters of a field are those before the first zero *)
Fixpoint chars (raw : list Z) : list Z := match raw with [] => [] | c :: r => if c =? 0 then [] else c :: chars r end.
(** the text that stands for a cell *)
Definition shows (c : cell) (t : list Z) : Prop :=
  match c with
  | CInt v | CUint v => numeral t v
  | CText raw => t = chars raw
  | CDec s => t = s
  | CNone => t = []
  end.
(** what a text without quotes can hold *)
Definition fine (c : cell) : Prop :=
  match c with
  | CInt v => - 2 ^ 63 < v < 2 ^ 63
  | CUint v => 0 <= v < 2 ^ 64
  | CText raw => raw <> [] /\ ~ In 44 raw /\ ~ In 10 raw /\ tight (chars raw) /\ Forall (fun c => 0 <= c < 256) raw
  | CDec s => s <> [] /\ (length s <= 14)%nat /\ Forall (fun c => 32 < c < 256 /\ c <> 44) s
  | CNone => True
  end.
Definition not_empty (c : cell) : Prop := match c with CText raw => chars raw <> [] | _ => True end.
Definition fine_row (r : list cell) : Prop := Forall fine r /\ exists c r', r = c :: r' /\ not_empty c.
