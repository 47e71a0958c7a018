(** Specification of dynamic strings (C72): a string is a list of bytes, and this is what each operation makes of it. *)
From Verif Require Import Base S_csv.

Notation len l := (Z.of_nat (length l)).

(** what is passed to a text with places: a C text, a dynamic string, and four sizes of numbers *)
Inductive farg := ATxt (t : list Z) | ASds (t : list Z) | AInt (v : Z) | ALong (v : Z) | AUint (v : Z) | AUlong (v : Z).
(** a text with places is made of characters, percent signs before a character that is no letter of a place, and places *)
Inductive piece := PChar (c : Z) | POther (c : Z) | PPut (a : farg).
Definition good_arg (a : farg) : Prop :=
  match a with
  | ATxt t => True
  | ASds t => True
  | AInt v => - 2 ^ 31 <= v < 2 ^ 31
  | ALong v => - 2 ^ 63 < v < 2 ^ 63
  | AUint v => 0 <= v < 2 ^ 32
  | AUlong v => 0 <= v < 2 ^ 64
  end.
Definition good_piece (p : piece) : Prop :=
  match p with PChar c => c <> 0 /\ c <> 37 | POther c => ~ In c [0; 115; 83; 105; 73; 117; 85] | PPut a => good_arg a end.
(** how a piece is written in the format *)
Definition letter (a : farg) : Z :=
  match a with ATxt _ => 115 | ASds _ => 83 | AInt _ => 105 | ALong _ => 73 | AUint _ => 117 | AUlong _ => 85 end.
Definition written (p : piece) : list Z := match p with PChar c => [c] | POther c => [37; c] | PPut a => [37; letter a] end.
Definition format (ps : list piece) : list Z := concat (map written ps).
Definition given (ps : list piece) : list farg := concat (map (fun p => match p with PPut a => [a] | _ => [] end) ps).
(** what a piece stands for *)
Definition stands (p : piece) (t : list Z) : Prop :=
  match p with
  | PChar c => t = [c]
  | POther c => t = [c]
  | PPut (ATxt x) => ~ In 0 t /\ exists r, x = t ++ r /\ hd 0 r = 0   (* up to the first zero *)
  | PPut (ASds x) => t = x
  | PPut (AInt v) | PPut (ALong v) | PPut (AUint v) | PPut (AUlong v) => numeral t v
  end.

(** operations on a string *)
Inductive sop :=
| OCat (t : list Z)            (* append bytes *)
| OCpy (t : list Z)            (* take these bytes instead *)
| OGrow (n : Z)                (* lengthen with zeros to n bytes *)
| ORoom (n : Z)                (* provide room for n more bytes *)
| OFill (n : Z) (t : list Z)   (* provide room for n bytes, write t there, count them *)
| OCut (k : Z)                 (* take k bytes away at the end *)
| ORange (a b : Z)             (* keep the bytes from a to b, negative numbers count from the end *)
| OTrim (cs : list Z)          (* take characters of a set away at both ends *)
| OClear | OUpdate | OFit | OUpper | OLower
| OFmt (ps : list piece).      (* append a text with places *)

(** the bytes whose number is between lo and hi, the first having number i *)
Fixpoint between (i lo hi : Z) (c : list Z) : list Z :=
  match c with
  | [] => []
  | x :: r => (if (lo <=? i) && (i <=? hi) then [x] else []) ++ between (i + 1) lo hi r
  end.
Definition from_end (k n : Z) : Z := if k <? 0 then n + k else k.
Definition inside (cs : list Z) (x : Z) : Prop := In x cs.
(** [t] is [c] without the characters of the set at both ends *)
Definition trimmed (cs c t : list Z) : Prop :=
  exists a b, c = a ++ t ++ b /\ Forall (inside cs) a /\ Forall (inside cs) b /\
    (t = [] \/ (~ inside cs (hd 0 t) /\ ~ inside cs (last t 0))).
Definition upper (x : Z) : Z := if (97 <=? x) && (x <=? 122) then x - 32 else x.
Definition lower (x : Z) : Z := if (65 <=? x) && (x <=? 90) then x + 32 else x.

Definition effect (c : list Z) (o : sop) (c' : list Z) : Prop :=
  match o with
  | OCat t => c' = c ++ t
  | OCpy t => c' = t
  | OGrow n => c' = c ++ repeat 0 (Z.to_nat n - length c)
  | ORoom _ | OFit => c' = c
  | OFill _ t => c' = c ++ t
  | OCut k => exists d, c = c' ++ d /\ len d = k
  | ORange a b => c' = between 0 (from_end a (len c)) (from_end b (len c)) c
  | OTrim cs => trimmed cs c c'
  | OClear => c' = []
  | OUpdate => c' = chars c
  | OUpper => c' = map upper c
  | OLower => c' = map lower c
  | OFmt ps => exists ts, Forall2 stands ps ts /\ c' = c ++ concat ts
  end.

(** lengths that memory can hold, and the operands the operations are meant for *)
Definition small (n : Z) : Prop := 0 <= n < 2 ^ 60.
Definition total (ps : list piece) : Z :=
  fold_right (fun p a => (match p with PPut (ATxt t) | PPut (ASds t) => len t | PPut _ => 21 | _ => 1 end) + a) 0 ps.
Definition fits (c : list Z) (o : sop) : Prop :=
  match o with
  | OCat t => small (len c + len t)
  | OCpy t => small (len t)
  | OGrow n => small n
  | ORoom n => 0 <= n /\ small (len c + n)
  | OFill n t => 0 < n /\ len t <= n /\ small (len c + n)
  | OCut k => 0 < k <= len c
  | ORange a b => - 2 ^ 62 < a < 2 ^ 62 /\ - len c <= b < 2 ^ 62 /\ small (len c)
  | OTrim cs => ~ In 0 c
  | OFmt ps => Forall good_piece ps /\ small (len c + 1 + total ps)
  | _ => True
  end.
Fixpoint allowed (c : list Z) (os : list sop) : Prop :=
  match os with
  | [] => True
  | o :: os' => fits c o /\ forall c', effect c o c' -> allowed c' os'
  end.
Inductive effects : list Z -> list sop -> list Z -> Prop :=
| e_nil c : effects c [] c
| e_cons c o c' os c'' : effect c o c' -> effects c' os c'' -> effects c (o :: os) c''.
