(** Model of src/core/sis_sha1.c and of the base64 functions of src/core/zip/sis_utf8.c.
    unsigned int is a number below 2^32; the bytes of [src] are those before its closing zero.  0x80 << 24 and the shift of a
    length are done in int by the code; both are taken modulo 2^32. *)
From Verif Require Import Base.

Definition u32 (z : Z) : Z := to_u 32 z.
(** _rol, sis_sha1.c:15-18 *)
Definition rol (value steps : Z) : Z := Z.lor (u32 (Z.shiftl value steps)) (Z.shiftr value (32 - steps)).
Fixpoint upd {A} (k : nat) (x : A) (l : list A) : list A :=
  match l, k with
  | [], _ => []
  | _ :: l', O => x :: l'
  | y :: l', S k' => y :: upd k' x l'
  end.
Definition at_ (l : list Z) (k : nat) : Z := nth k l 0.

(** _clear_w_buffer, 20-27 *)
Definition clear_w (w : list Z) : list Z := repeat 0 16 ++ skipn 16 w.

(** the local variables of _inner_hash, 29-36 *)
Record loc := mkloc { l_a : Z; l_b : Z; l_c : Z; l_d : Z; l_e : Z }.
(** sha1macro, 37-45; [func] is a function of b, c, d *)
Definition sha1macro (func : Z -> Z -> Z -> Z) (val wr : Z) (l : loc) : loc :=
  let t := u32 (rol (l_a l) 5 + func (l_b l) (l_c l) (l_d l) + l_e l + val + wr) in
  mkloc t (l_a l) (rol (l_b l) 30) (l_c l) (l_d l).
Definition f1 (b c d : Z) : Z := Z.lor (Z.land b c) (Z.land (u32 (Z.lnot b)) d).
Definition f2 (b c d : Z) : Z := Z.lxor (Z.lxor b c) d.
Definition f3 (b c d : Z) : Z := Z.lor (Z.lor (Z.land b c) (Z.land b d)) (Z.land c d).
(** the first loop, 46-50: [n] more rounds *)
Fixpoint loop0 (n round : nat) (w : list Z) (l : loc) : loc :=
  match n with
  | O => l
  | S n' => loop0 n' (S round) w (sha1macro f1 0x5a827999 (at_ w round) l)
  end.
(** the other loops, 51-74 *)
Fixpoint loop1 (func : Z -> Z -> Z -> Z) (val : Z) (n round : nat) (w : list Z) (l : loc) : list Z * loc :=
  match n with
  | O => (w, l)
  | S n' =>
    let x := rol (Z.lxor (Z.lxor (Z.lxor (at_ w (round - 3)) (at_ w (round - 8))) (at_ w (round - 14))) (at_ w (round - 16))) 1 in
    let w' := upd round x w in
    loop1 func val n' (S round) w' (sha1macro func val (at_ w' round) l)
  end.
(** _inner_hash, 29-81 *)
Definition inner_hash (result w : list Z) : list Z * list Z :=
  let l := mkloc (at_ result 0) (at_ result 1) (at_ result 2) (at_ result 3) (at_ result 4) in
  let l := loop0 16 0 w l in
  let '(w, l) := loop1 f1 0x5a827999 4 16 w l in
  let '(w, l) := loop1 f2 0x6ed9eba1 20 20 w l in
  let '(w, l) := loop1 f3 0x8f1bbcdc 20 40 w l in
  let '(w, l) := loop1 f2 0xca62c1d6 20 60 w l in
  ([u32 (at_ result 0 + l_a l); u32 (at_ result 1 + l_b l); u32 (at_ result 2 + l_c l);
    u32 (at_ result 3 + l_d l); u32 (at_ result 4 + l_e l)], w).

(** one full block, 98-106: 16 words from position [cur]; [n] more words *)
Fixpoint load_block (n roundpos cur : nat) (src w : list Z) : list Z :=
  match n with
  | O => w
  | S n' =>
    let x := Z.lor (Z.lor (Z.lor (at_ src (cur + 3)) (Z.shiftl (at_ src (cur + 2)) 8)) (Z.shiftl (at_ src (cur + 1)) 16)) (Z.shiftl (at_ src cur) 24) in
    load_block n' (S roundpos) (cur + 4) src (upd roundpos x w)
  end.
(** the loop over full blocks, 95-108; fuel: one for each block *)
Fixpoint full_blocks (fuel : nat) (src : list Z) (cur : nat) (result w : list Z) : nat * list Z * list Z :=
  match fuel with
  | O => (cur, result, w)
  | S f =>
    if Z.of_nat cur <=? Z.of_nat (length src) - 64 then
      let w1 := load_block 16 0 cur src w in
      let '(r2, w2) := inner_hash result w1 in
      full_blocks f src (cur + 64) r2 w2
    else (cur, result, w)
  end.
(** w[p >> 2] |= v << ((3 - (p & 3)) << 3), 114 and 116 *)
Definition or_byte (w : list Z) (p : nat) (v : Z) : list Z :=
  upd (p / 4) (Z.lor (at_ w (p / 4)) (u32 (Z.shiftl v (8 * (3 - Z.of_nat p mod 4))))) w.
(** the last bytes, 111-115 *)
Fixpoint load_last (n p cur : nat) (src w : list Z) : list Z :=
  match n with
  | O => w
  | S n' => load_last n' (S p) cur src (or_byte w p (at_ src (p + cur)))
  end.
(** sis_shacalc up to the hash, 83-127; [w] is what is in the array before *)
Definition shahash (src w : list Z) : list Z :=
  let bytelength := length src in
  let result := [0x67452301; 0xefcdab89; 0x98badcfe; 0x10325476; 0xc3d2e1f0] in
  let '(cur, result, w) := full_blocks (S (bytelength / 64)) src 0 result w in
  let n := (bytelength - cur)%nat in
  let w := clear_w w in
  let w := load_last n 0 cur src w in
  let w := or_byte w n 0x80 in
  let '(result, w) := if (56 <=? n)%nat then let '(r, w1) := inner_hash result w in (r, clear_w w1) else (result, w) in
  let w := upd 15 (u32 (Z.shiftl (Z.of_nat bytelength) 3)) w in
  let '(result, w) := inner_hash result w in
  map (fun k => Z.land (Z.shiftr (at_ result (k / 4)) (Z.of_nat ((Z.to_nat ((3 - Z.of_nat k) mod 4)) * 8))) 255) (seq 0 20).
(** _encoding_table, 3-12, as a list *)
Definition enc_table : list Z :=
  map Z.of_nat (seq 65 26 ++ seq 97 26 ++ seq 48 10) ++ [43; 47].
(** the loop 130-139 ([n] more groups of three from position i; positions from 20 on count as 0) *)
Fixpoint enc_loop (n i : nat) (hash : list Z) : list Z :=
  match n with
  | O => []
  | S n' =>
    let triple := Z.shiftl (nth i hash 0) 16 + Z.shiftl (nth (i + 1) hash 0) 8 + nth (i + 2) hash 0 in
    let c k := at_ enc_table (Z.to_nat (Z.land (Z.shiftr triple (k * 6)) 63)) in
    c 3 :: c 2 :: c 1 :: c 0 :: enc_loop n' (i + 3) hash
  end.
(** sis_shacalc, 83-143: the 28 bytes of [dest] (7 groups; _mod_table[20 % 3] = 1 sign at the end, 140-142) *)
Definition shacalc (src w : list Z) : list Z := upd 27 61 (enc_loop 7 0 (shahash src w)).

(** ** sis_utf8.c *)
(** _map_base64_encode, sis_utf8.c:209-218, has the same entries *)
Definition map_encode (k : Z) : Z := at_ enc_table (Z.to_nat k).
(** sis_base64_encode, sis_utf8.c:256-300: the loop from state [sign], [dot]; the bytes written to out_ *)
Fixpoint be_loop (l : list Z) (sign : nat) (dot : Z) : list Z :=
  match l with
  | [] =>
    match sign with
    | 1%nat => [map_encode (Z.shiftl (Z.land dot 3) 4); 61; 61]
    | 2%nat => [map_encode (Z.shiftl (Z.land dot 15) 2); 61]
    | _ => []
    end
  | ch :: l' =>
    match sign with
    | 0%nat => map_encode (Z.land (Z.shiftr ch 2) 63) :: be_loop l' 1 ch
    | 1%nat => map_encode (Z.lor (Z.shiftl (Z.land dot 3) 4) (Z.land (Z.shiftr ch 4) 15)) :: be_loop l' 2 ch
    | _ => map_encode (Z.lor (Z.shiftl (Z.land dot 15) 2) (Z.land (Z.shiftr ch 6) 3)) :: map_encode (Z.land ch 63) :: be_loop l' 0 ch
    end
  end.
(** what is written to out_, including the closing zero; None: it writes outside out_ (olen_ bytes), which it does not
    check.  An empty input writes nothing. *)
Definition base64_encode (l : list Z) (olen : nat) : option (list Z) :=
  match l, olen with
  | [], _ | _, O => Some []
  | _, _ => let o := be_loop l 0 0 ++ [0] in if (length o <=? olen)%nat then Some o else None
  end.
(** _map_base64_decode, sis_utf8.c:221-254 *)
Definition map_decode (c : Z) : Z :=
  if (65 <=? c) && (c <=? 90) then c - 65
  else if (97 <=? c) && (c <=? 122) then c - 97 + 26
  else if (48 <=? c) && (c <=? 57) then c - 48 + 52
  else if c =? 43 then 62 else if c =? 47 then 63 else 255.
(** sis_base64_decode, sis_utf8.c:301-344: loop at position [i]; [out]: the finished bytes out_[0 .. osize-1], [part]: out_[osize] when it
    has been written.  Result: whether the input is accepted (otherwise the function returns 0), and both of these at the end. *)
Fixpoint bd_loop (l : list Z) (i : nat) (out : list Z) (part : option Z) : bool * list Z * option Z :=
  match l with
  | [] => (true, out, part)
  | c :: l' =>
    if c =? 61 then (true, out, part)
    else if (c <? 43) || (122 <? c) then (false, out, part)
    else
      let ch := map_decode c in
      if ch =? 255 then (false, out, part)
      else
        let p := match part with Some p => p | None => 0 end in
        match (i mod 4)%nat with
        | 0%nat => bd_loop l' (S i) out (Some (Z.land (Z.shiftl ch 2) 255))
        | 1%nat => bd_loop l' (S i) (out ++ [Z.lor p (Z.land (Z.shiftr ch 4) 3)]) (Some (Z.shiftl (Z.land ch 15) 4))
        | 2%nat => bd_loop l' (S i) (out ++ [Z.lor p (Z.land (Z.shiftr ch 2) 15)]) (Some (Z.shiftl (Z.land ch 3) 6))
        | _ => bd_loop l' (S i) (out ++ [Z.lor p ch]) None
        end
  end.
Inductive dres := DNone | DOver | DText (l : list Z).
(** the whole function with [olen] bytes at out_; DOver: a write outside; DNone: it returns 0 *)
Definition base64_decode (l : list Z) (olen : nat) : dres :=
  match l, olen with
  | [], _ | _, O => DNone
  | _, _ =>
    if negb (length l mod 4 =? 0)%nat then DNone
    else let '(ok, o, p) := bd_loop l 0 [] None in
         if negb (length o + match p with Some _ => 1 | None => 0 end <=? olen)%nat then DOver
         else if ok then DText o else DNone
  end.
