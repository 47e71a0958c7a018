(** Specification of SHA-1 (FIPS 180-4) and of base64 (RFC 4648) on strings of bytes (C59 to C61). *)
From Verif Require Import Base.

(** ** SHA-1.  Words are numbers below 2^32. *)
Definition W32 : Z := 2 ^ 32.
Definition add32 (x y : Z) : Z := (x + y) mod W32.
(** rotation to the left, FIPS 180-4, 3.2: as arithmetic *)
Definition rotl (n x : Z) : Z := (x * 2 ^ n) mod W32 + x / 2 ^ (32 - n).
(** functions and constants, 4.1.1 and 4.2.1 *)
Definition Ch (x y z : Z) : Z := Z.lxor (Z.land x y) (Z.land (W32 - 1 - x) z).
Definition Parity (x y z : Z) : Z := Z.lxor x (Z.lxor y z).
Definition Maj (x y z : Z) : Z := Z.lxor (Z.land x y) (Z.lxor (Z.land x z) (Z.land y z)).
Definition f_t (t : nat) : Z -> Z -> Z -> Z :=
  if (t <? 20)%nat then Ch else if (t <? 40)%nat then Parity else if (t <? 60)%nat then Maj else Parity.
Definition K_t (t : nat) : Z :=
  if (t <? 20)%nat then 0x5a827999 else if (t <? 40)%nat then 0x6ed9eba1
  else if (t <? 60)%nat then 0x8f1bbcdc else 0xca62c1d6.

(** padding, 5.1.1: a one bit, zeros up to 448 modulo 512 bits, the length in bits in 8 bytes, high byte first *)
Definition be_bytes (n : nat) (z : Z) : list Z := rev (le_bytes n z).
Definition padding (len : nat) : list Z :=
  128 :: repeat 0 (Z.to_nat ((55 - Z.of_nat len) mod 64)) ++ be_bytes 8 (8 * Z.of_nat len).
Definition padded (m : list Z) : list Z := m ++ padding (length m).

(** words of a block, high byte first *)
Fixpoint be_val (l : list Z) : Z :=
  match l with [] => 0 | b :: l' => b * 256 ^ Z.of_nat (length l') + be_val l' end.
Fixpoint split_every {A} (fuel n : nat) (l : list A) : list (list A) :=
  match fuel, l with
  | O, _ | _, [] => []
  | S f, _ => firstn n l :: split_every f n (skipn n l)
  end.
Definition blocks_of (m : list Z) : list (list Z) := split_every (length m) 64 m.
Definition words_of (b : list Z) : list Z := map be_val (split_every (length b) 4 b).

(** message schedule, 6.1.2 step 1: the first 16 words are the block *)
Fixpoint schedule (k : nat) (w : list Z) : list Z :=
  match k with
  | O => w
  | S k' =>
    let t := length w in
    let x i := nth (t - i) w 0 in
    schedule k' (w ++ [rotl 1 (Z.lxor (x 3%nat) (Z.lxor (x 8%nat) (Z.lxor (x 14%nat) (x 16%nat))))])
  end.
Definition W_t (b : list Z) : list Z := schedule 64 (words_of b).

(** steps 2 to 4 *)
Record state := mkst { s_a : Z; s_b : Z; s_c : Z; s_d : Z; s_e : Z }.
Definition round (w : list Z) (s : state) (t : nat) : state :=
  mkst (add32 (rotl 5 (s_a s)) (add32 (f_t t (s_b s) (s_c s) (s_d s)) (add32 (s_e s) (add32 (K_t t) (nth t w 0)))))
       (s_a s) (rotl 30 (s_b s)) (s_c s) (s_d s).
Definition compress (h : state) (b : list Z) : state :=
  let s := fold_left (round (W_t b)) (seq 0 80) h in
  mkst (add32 (s_a h) (s_a s)) (add32 (s_b h) (s_b s)) (add32 (s_c h) (s_c s)) (add32 (s_d h) (s_d s)) (add32 (s_e h) (s_e s)).
(** 5.3.1 *)
Definition H0 : state := mkst 0x67452301 0xefcdab89 0x98badcfe 0x10325476 0xc3d2e1f0.
Definition sha1 (m : list Z) : list Z :=
  let h := fold_left compress (blocks_of (padded m)) H0 in
  flat_map (be_bytes 4) [s_a h; s_b h; s_c h; s_d h; s_e h].

(** ** Base64, RFC 4648 section 4. *)
(** the alphabet: A-Z, a-z, 0-9, +, / *)
Definition b64_char (v : Z) : Z :=
  if v <? 26 then 65 + v else if v <? 52 then 97 + (v - 26) else if v <? 62 then 48 + (v - 52) else if v =? 62 then 43 else 47.
(** three bytes are a number of 24 bits, written as four digits of 6 bits; a last group of one or two bytes is filled with zero bits
    and the digits without data are '=' *)
Definition b64_digit (n : Z) (i : Z) : Z := b64_char (n / 64 ^ i mod 64).
Fixpoint b64 (l : list Z) : list Z :=
  match l with
  | [] => []
  | [a] => let n := a * 65536 in [b64_digit n 3; b64_digit n 2; 61; 61]
  | [a; b] => let n := a * 65536 + b * 256 in [b64_digit n 3; b64_digit n 2; b64_digit n 1; 61]
  | a :: b :: c :: l' => let n := a * 65536 + b * 256 + c in b64_digit n 3 :: b64_digit n 2 :: b64_digit n 1 :: b64_digit n 0 :: b64 l'
  end.
