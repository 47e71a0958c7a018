(** Model of the bit stream: src/core/zip/sis_bits.h. *)
From Verif Require Import Base.

(** s_sis_bits_stream, sis_bits.h:62-69.  [bdat] is the whole buffer (maxsize/8 bytes),
    [bpos] is currpos.  Simplification: currpos is a uint32 in C; the model does not
    wrap it, so it covers buffers below 2^32 bits. *)
Record bstream := mkbs { bdat : list Z; bpos : nat }.

(** store one byte of the buffer; None = write outside the buffer *)
Fixpoint upd (l : list Z) (k : nat) (x : Z) : option (list Z) :=
  match l, k with
  | [], _ => None
  | _ :: l', O => Some (x :: l')
  | y :: l', S k' => match upd l' k' x with Some r => Some (y :: r) | None => None end
  end.

(** load one byte of the buffer; None = read outside the buffer *)
Definition ld (l : list Z) (k : nat) : option Z := nth_error l k.

(** The while loop of sis_bits_stream_put, sis_bits.h:238-245.  [offset] is the C
    variable where positive (C lets it go negative, which ends the loop; truncated
    subtraction reaches 0 instead).  [inw] is the 64-bit word in_, [*phigh_byte] is its
    top byte.  [fuel] bounds the iterations; running out is None. *)
Fixpoint put_loop (fuel : nat) (d : list Z) (pos : nat) (inw : Z) (offset : nat)
  : option (list Z * nat) :=
  match offset with
  | O => Some (d, pos)
  | _ =>
    match fuel with
    | O => None
    | S fuel' =>
      match upd d (pos / 8) (Z.shiftr inw 56) with
      | None => None
      | Some d' => put_loop fuel' d' (pos + Nat.min 8 offset)
                     (to_u 64 (Z.shiftl inw 8)) (offset - 8)
      end
    end
  end.

(** sis_bits_stream_put, sis_bits.h:219-250, for 0 <= bits_ <= 64. *)
Definition bput (s : bstream) (v : Z) (bits : nat) : option bstream :=
  match bits with
  | O => Some s
  | _ =>
    let inw := to_u 64 (Z.shiftl (to_u 64 v) (64 - Z.of_nat bits)) in
    let lastbit := (bpos s mod 8)%nat in
    match lastbit with
    | O =>
      match put_loop 9 (bdat s) (bpos s) inw bits with
      | Some (d, p) => Some (mkbs d p) | None => None end
    | _ =>
      let space := (8 - lastbit)%nat in
      match ld (bdat s) (bpos s / 8) with
      | None => None
      | Some old =>
        let c := Z.land old (to_u 8 (Z.shiftl 255 (Z.of_nat space))) in
        let c' := Z.lor c (Z.land (Z.shiftr inw (64 - Z.of_nat space))
                                  (Z.shiftr 255 (Z.of_nat lastbit))) in
        match upd (bdat s) (bpos s / 8) c' with
        | None => None
        | Some d =>
          match put_loop 9 d (bpos s + Nat.min bits space)
                  (to_u 64 (Z.shiftl inw (Z.of_nat space))) (bits - space) with
          | Some (d', p) => Some (mkbs d' p) | None => None end
        end
      end
    end
  end.

(** The while loop of sis_bits_stream_get, sis_bits.h:198-209. *)
Fixpoint get_loop (fuel : nat) (d : list Z) (cur : nat) (u : Z) (incpos : nat) : option Z :=
  match incpos with
  | O => Some u
  | _ =>
    match fuel with
    | O => None
    | S fuel' =>
      match ld d cur with
      | None => None
      | Some b =>
        if Nat.leb 8 incpos
        then get_loop fuel' d (S cur) (Z.lor (to_u 64 (Z.shiftl u 8)) b) (incpos - 8)
        else get_loop fuel' d (S cur)
               (Z.lor (to_u 64 (Z.shiftl u (Z.of_nat incpos)))
                      (Z.shiftr b (8 - Z.of_nat incpos))) 0
      end
    end
  end.

(** sis_bits_stream_get, sis_bits.h:183-217. *)
Definition bget (s : bstream) (bits : nat) : option (Z * bstream) :=
  match ld (bdat s) (bpos s / 8) with
  | None => None
  | Some b =>
    let decpos := (8 - bpos s mod 8)%nat in
    let u := if Nat.eqb decpos 8 then b
             else Z.land b (Z.shiftr 255 (8 - Z.of_nat decpos)) in
    if Nat.ltb decpos bits then
      match get_loop 9 (bdat s) (S (bpos s / 8)) u (bits - decpos) with
      | Some r => Some (r, mkbs (bdat s) (bpos s + bits))
      | None => None
      end
    else Some (Z.shiftr u (Z.of_nat (decpos - bits)), mkbs (bdat s) (bpos s + bits))
  end.

(** two writes in a row *)
Definition bput2 (s : bstream) (v1 : Z) (n1 : nat) (v2 : Z) (n2 : nat) : option bstream :=
  match bput s v1 n1 with Some s1 => bput s1 v2 n2 | None => None end.

(** sis_bits_stream_put_sint, sis_bits.h:259-296; the boolean is true for return 0 and
    false for return -1.  in_ is uint32. *)
Definition bput_sint (s : bstream) (v : Z) : option (bool * bstream) :=
  let ok o := match o with Some s' => Some (true, s') | None => None end in
  if v <? 2 then ok (bput s v 2)
  else let dw := v - 2 in
  if dw <? 16 then ok (bput2 s 2 2 dw 4)
  else let dw := dw - 16 in
  if dw <? 32 then ok (bput2 s 6 3 dw 5)
  else let dw := dw - 32 in
  if dw <? 256 then ok (bput2 s 7 3 dw 8)
  else Some (false, s).

(** sis_bits_stream_put_short, sis_bits.h:297-333 *)
Definition bput_short (s : bstream) (v : Z) : option (bool * bstream) :=
  let ok o := match o with Some s' => Some (true, s') | None => None end in
  if v <? 2 then ok (bput s v 2)
  else let dw := v - 2 in
  if dw <? 256 then ok (bput2 s 2 2 dw 8)
  else let dw := dw - 256 in
  if dw <? 4096 then ok (bput2 s 6 3 dw 12)
  else let dw := dw - 4096 in
  if dw <? 65536 then ok (bput2 s 7 3 dw 16)
  else Some (false, s).

(** C truth of (x & mask) *)
Definition tst (x mask : Z) : bool := negb (Z.land x mask =? 0).

(** sis_bits_stream_put_uint, sis_bits.h:334-381 *)
Definition bput_uint (s : bstream) (v : Z) : option bstream :=
  let dw := to_u 32 v in
  if tst dw 0xFFFFFF00 then
    if tst dw 0xFF000000 then bput s (Z.lor dw 0x700000000) 35
    else if tst dw 0xFF0000 then bput s (Z.lor dw 0x6000000) 27
    else if tst dw 0xFF00 then bput s (Z.lor dw 0x50000) 19
    else bput s (Z.lor dw 0x4000) 15
  else if tst dw 0xF0 then bput s (Z.lor dw 0x100) 10
  else bput s dw 6.

(** sis_bits_stream_put_int, sis_bits.h:383-487.  dw = -1 * in_ wraps at INT64_MIN
    (GCC; formally undefined). *)
Definition bput_int (s : bstream) (v : Z) : option bstream :=
  let dw := if v <? 0 then to_s 64 (- v) else v in
  match bput s (if v <? 0 then 1 else 0) 1 with
  | None => None
  | Some s =>
    if tst dw 0x7FFFFFFFFFF00000 then
      if tst dw 0x7F00000000000000 then bput2 s 0x3F 6 dw 63
      else if tst dw 0xFF000000000000 then bput s (Z.lor dw 0x3E00000000000000) 62
      else if tst dw 0xFF0000000000 then bput s (Z.lor dw 0x3D000000000000) 54
      else if tst dw 0xFF00000000 then bput s (Z.lor dw 0x3C0000000000) 46
      else if tst dw 0xF00000000 then bput s (Z.lor dw 0x3B000000000) 42
      else if tst dw 0xF0000000 then bput s (Z.lor dw 0x3A00000000) 38
      else if tst dw 0xF000000 then bput s (Z.lor dw 0x390000000) 34
      else bput s (Z.lor dw 0x38000000) 30
    else if tst dw 0xFFFF0 then
      if tst dw 0xF0000 then bput s (Z.lor dw 0x1B00000) 25
      else if tst dw 0xF000 then bput s (Z.lor dw 0x1A0000) 21
      else if tst dw 0xF00 then bput s (Z.lor dw 0x19000) 17
      else bput s (Z.lor dw 0x1800) 13
    else if tst dw 0xF then bput s (Z.lor dw 0x20) 6
    else bput s 0 1
  end.

(** sis_bits_stream_put_incr_int, sis_bits.h:488-491; in_ - ago_ wraps at 64 bits
    (GCC; formally undefined). *)
Definition bput_incr_int (s : bstream) (v ago : Z) : option bstream :=
  bput_int s (to_s 64 (v - ago)).

(** sis_bits_stream_get_sint, sis_bits.h:593-613 *)
Definition bget_sint (s : bstream) : option (Z * bstream) :=
  match bget s 2 with
  | None => None
  | Some (level, s1) =>
    if (level =? 0) || (level =? 1) then Some (level, s1)
    else if level =? 2 then
      match bget s1 4 with Some (x, s2) => Some (to_u 32 (2 + x), s2) | None => None end
    else match bget s1 1 with
      | None => None
      | Some (l2, s2) =>
        if l2 =? 0
        then match bget s2 5 with Some (x, s3) => Some (to_u 32 (18 + x), s3) | None => None end
        else match bget s2 8 with Some (x, s3) => Some (to_u 32 (50 + x), s3) | None => None end
      end
  end.

(** sis_bits_stream_get_short, sis_bits.h:614-634 *)
Definition bget_short (s : bstream) : option (Z * bstream) :=
  match bget s 2 with
  | None => None
  | Some (level, s1) =>
    if (level =? 0) || (level =? 1) then Some (level, s1)
    else if level =? 2 then
      match bget s1 8 with Some (x, s2) => Some (to_u 32 (2 + x), s2) | None => None end
    else match bget s1 1 with
      | None => None
      | Some (l2, s2) =>
        if l2 =? 0
        then match bget s2 12 with Some (x, s3) => Some (to_u 32 (258 + x), s3) | None => None end
        else match bget s2 16 with Some (x, s3) => Some (to_u 32 (4354 + x), s3) | None => None end
      end
  end.

(** sis_bits_stream_get_uint, sis_bits.h:636-665 *)
Definition bget_uint (s : bstream) : option (Z * bstream) :=
  let fin o := match o with Some (x, s') => Some (to_u 32 x, s') | None => None end in
  match bget s 1 with
  | None => None
  | Some (l, s1) =>
    if l =? 0 then
      match bget s1 1 with
      | None => None
      | Some (l2, s2) => if l2 =? 0 then fin (bget s2 4) else fin (bget s2 8)
      end
    else
      match bget s1 2 with
      | None => None
      | Some (l2, s2) =>
        if l2 =? 0 then fin (bget s2 12)
        else if l2 =? 1 then fin (bget s2 16)
        else if l2 =? 2 then fin (bget s2 24)
        else fin (bget s2 32)
      end
  end.

(** sis_bits_stream_get_int, sis_bits.h:667-732 *)
Definition bget_int (s : bstream) : option (Z * bstream) :=
  match bget s 1 with
  | None => None
  | Some (signbit, s1) =>
    let fin o := match o with
      | Some (dw, s') => Some (if signbit =? 0 then to_s 64 dw else to_s 64 (- to_s 64 dw), s')
      | None => None end in
    match bget s1 1 with
    | None => None
    | Some (l, s2) =>
      if l =? 0 then Some (0, s2)
      else
      match bget s2 1 with
      | None => None
      | Some (l, s3) =>
        if l =? 0 then fin (bget s3 4)
        else
        match bget s3 1 with
        | None => None
        | Some (l, s4) =>
          if l =? 0 then
            match bget s4 2 with
            | None => None
            | Some (l, s5) =>
              if l =? 0 then fin (bget s5 8)
              else if l =? 1 then fin (bget s5 12)
              else if l =? 2 then fin (bget s5 16)
              else fin (bget s5 20)
            end
          else
            match bget s4 3 with
            | None => None
            | Some (l, s5) =>
              if l =? 0 then fin (bget s5 24)
              else if l =? 1 then fin (bget s5 28)
              else if l =? 2 then fin (bget s5 32)
              else if l =? 3 then fin (bget s5 36)
              else if l =? 4 then fin (bget s5 40)
              else if l =? 5 then fin (bget s5 48)
              else if l =? 6 then fin (bget s5 56)
              else fin (bget s5 63)
            end
        end
      end
    end
  end.

(** sis_bits_stream_get_incr_int, sis_bits.h:733-737 *)
Definition bget_incr_int (s : bstream) (ago : Z) : option (Z * bstream) :=
  match bget_int s with
  | Some (dw, s') => Some (to_s 64 (dw + ago), s')
  | None => None
  end.

(** ** Several fields in a row, as the callers use the stream *)

(** one sis_bits_stream_put per (width, value) pair *)
Fixpoint put_all (s : bstream) (fs : list (nat * Z)) : option bstream :=
  match fs with
  | [] => Some s
  | (n, v) :: fs' => match bput s v n with Some s' => put_all s' fs' | None => None end
  end.

(** one sis_bits_stream_get per width *)
Fixpoint get_all (s : bstream) (ns : list nat) : option (list Z * bstream) :=
  match ns with
  | [] => Some ([], s)
  | n :: ns' =>
    match bget s n with
    | None => None
    | Some (v, s1) =>
      match get_all s1 ns' with Some (vs, s2) => Some (v :: vs, s2) | None => None end
    end
  end.

(** ** Text fields *)

(** the loop of sis_bits_stream_put_chars, sis_bits.h:520-523 *)
Fixpoint bput_bytes (s : bstream) (l : list Z) : option bstream :=
  match l with
  | [] => Some s
  | c :: l' => match bput s c 8 with Some s' => bput_bytes s' l' | None => None end
  end.

(** sis_bits_stream_put_chars, sis_bits.h:508-531; None = NULL pointer *)
Definition bput_chars (s : bstream) (inp : option (list Z)) : option bstream :=
  match inp with
  | None | Some [] => bput s 0 1
  | Some l =>
    match bput s 1 1 with
    | None => None
    | Some s1 =>
      match bput_uint s1 (Z.of_nat (length l)) with
      | None => None
      | Some s2 => bput_bytes s2 l
      end
    end
  end.

(** first loop of sis_bits_stream_charcmp, sis_bits.h:541-545.  Simplification: when the
    field has no zero byte, C also reads the byte after the field and ignores it. *)
Fixpoint isize_of (l : list Z) : nat :=
  match l with
  | [] => O
  | c :: l' => if c =? 0 then O else S (isize_of l')
  end.

(** second loop, sis_bits.h:547-566, as a recursion on both strings; [size] is the C
    variable, [l2] the width of the second field.  None = read outside a field. *)
Fixpoint charcmp_loop (s1 s2 : list Z) (isize size l2 : nat) : option nat :=
  match s1, s2 with
  | c1 :: s1', c2 :: s2' =>
    if c1 =? c2 then
      if (c1 =? 0) && (c2 =? 0) then Some isize
      else
        let size := S size in
        if Nat.eqb size isize then
          if Nat.eqb size l2 then Some 0%nat
          else match s2' with
               | [] => None
               | n :: _ => if n =? 0 then Some 0%nat else Some isize
               end
        else charcmp_loop s1' s2' isize size l2
    else Some isize
  | _, _ => None
  end.

(** sis_bits_stream_charcmp, sis_bits.h:533-568; [ago] None = NULL *)
Definition charcmp (s1 : list Z) (ago : option (list Z)) : option nat :=
  match ago with
  | None | Some [] => Some (length s1)
  | Some s2 =>
    match s1 with
    | [] => Some 0%nat
    | _ => charcmp_loop s1 s2 (isize_of s1) 0 (length s2)
    end
  end.

(** sis_bits_stream_put_incr_chars, sis_bits.h:569-582 *)
Definition bput_incr_chars (s : bstream) (inp : list Z) (ago : option (list Z)) : option bstream :=
  match charcmp inp ago with
  | None => None
  | Some O => bput_chars s None
  | Some n => bput_chars s (Some (firstn n inp))
  end.

(** the loop of sis_bits_stream_get_chars, sis_bits.h:760-770: reads [size] bytes *)
Fixpoint bget_bytes (s : bstream) (size : nat) : option (list Z * bstream) :=
  match size with
  | O => Some ([], s)
  | S k =>
    match bget s 8 with
    | None => None
    | Some (c, s1) =>
      match bget_bytes s1 k with Some (l, s2) => Some (c :: l, s2) | None => None end
    end
  end.

(** sis_bits_stream_get_chars, sis_bits.h:747-781.  [out] is the destination field before
    the call; the result is (returned size, destination after, stream).  size is an int:
    values of 2^31 and above are negative and skip both loops. *)
Definition bget_chars (s : bstream) (out : list Z) : option (Z * list Z * bstream) :=
  match bget s 1 with
  | None => None
  | Some (signbit, s1) =>
    if signbit =? 0 then Some (0, out, s1)
    else
      match bget_uint s1 with
      | None => None
      | Some (u, s2) =>
        let size := to_s 32 u in
        if size <=? 0 then Some (size, out, s2)
        else
          match bget_bytes s2 (Z.to_nat size) with
          | None => None
          | Some (l, s3) =>
            Some (size, firstn (length out) (l ++ repeat 0 (length out - Z.to_nat size)), s3)
          end
      end
  end.

(** sis_bits_stream_get_incr_chars, sis_bits.h:783-801.  [ago] None = NULL, whose copy is
    undefined unless it is empty. *)
Definition bget_incr_chars (s : bstream) (out : list Z) (ago : option (list Z))
  : option (Z * list Z * bstream) :=
  match bget_chars s out with
  | None => None
  | Some (size, out', s') =>
    if size =? 0 then
      match ago with
      | None => None
      | Some a =>
        let k := Nat.min (length out) (length a) in
        Some (Z.of_nat k, firstn k a ++ repeat 0 (length out - k), s')
      end
    else Some (size, out', s')
  end.
