(** Model of the incremental table compressor: src/core/zip/sis_incrzip.c. *)
From Verif Require Import Base M_bits M_dynamic.

(** A table: record size and fields in order (s_sis_incrzip_dbinfo, sis_incrzip.h:36-41). *)
Record table := mktable { tsize : nat; tfields : list field }.

(** One element of the loop in _sis_incrzip_compress_one, sis_incrzip.c:243-288.
    [mem] is the previous record.  Simplification: FLOAT fields are not modelled and give
    None; the properties exclude them. *)
Definition zput_elem (s : bstream) (mem : list Z) (f : field) (rec : list Z) (i : nat)
  : option bstream :=
  if fstyle f =? ty_int then
    match fget_int f rec i, fget_int f mem i with
    | Some v, Some a => bput_incr_int s v a
    | _, _ => None
    end
  else if is_uintlike (fstyle f) then
    match fget_uint f rec i, fget_uint f mem i with
    | Some v, Some a => bput_incr_int s (to_s 64 v) (to_s 64 a)
    | _, _ => None
    end
  else if fstyle f =? ty_float then None
  else if fstyle f =? ty_char then
    match slice rec (foff f + i * flen f) (flen f), slice mem (foff f + i * flen f) (flen f) with
    | Some c, Some a => bput_incr_chars s c (Some a)
    | _, _ => None
    end
  else Some s.

(** the loop over index, sis_incrzip.c:247 *)
Fixpoint zput_one (s : bstream) (mem : list Z) (f : field) (rec : list Z) (is : list nat)
  : option bstream :=
  match is with
  | [] => Some s
  | i :: is' => match zput_elem s mem f rec i with
                | Some s' => zput_one s' mem f rec is' | None => None end
  end.

(** the loop over fields, sis_incrzip.c:306-310 *)
Fixpoint zput_rec (s : bstream) (mem : list Z) (fs : list field) (rec : list Z) : option bstream :=
  match fs with
  | [] => Some s
  | f :: fs' => match zput_one s mem f rec (seq 0 (fcount f)) with
                | Some s' => zput_rec s' mem fs' rec | None => None end
  end.

(** the loop over records, sis_incrzip.c:304-314; also returns the memory left behind *)
Fixpoint zput_recs (s : bstream) (mem : list Z) (fs : list field) (recs : list (list Z))
  : option (bstream * list Z) :=
  match recs with
  | [] => Some (s, mem)
  | r :: recs' => match zput_rec s mem fs r with
                  | Some s' => zput_recs s' r fs recs' | None => None end
  end.

(** A slot of the previous-value memory: seen flag (agomem_[0] != 0) and record bytes. *)
Record slot := mkslot { sseen : bool; smem : list Z }.

(** _incrzip_compress, sis_incrzip.c:290-315, up to zip_bags++.  [init] is zip_init: Some b
    writes the packet header bit b; None means it is already written (zip_init = 2). *)
Definition zbag (s : bstream) (init : option bool) (sl : slot) (kidx sidx : Z)
  (t : table) (recs : list (list Z)) : option (bstream * slot) :=
  match (match init with Some b => bput s (Z.b2z b) 1 | None => Some s end) with
  | None => None
  | Some s1 =>
    match bput s1 (if sseen sl then 1 else 0) 1 with
    | None => None
    | Some s2 =>
      match bput_uint s2 kidx with
      | None => None
      | Some s3 =>
        match bput_uint s3 sidx with
        | None => None
        | Some s4 =>
          match bput_uint s4 (Z.of_nat (length recs)) with
          | None => None
          | Some s5 =>
            match zput_recs s5 (smem sl) (tfields t) recs with
            | None => None
            | Some (s6, m) =>
              Some (s6, mkslot (match recs with [] => sseen sl | _ => true end) m)
            end
          end
        end
      end
    end
  end.

(** position after sis_bits_stream_move to a byte boundary, sis_incrzip.c:100-105 *)
Definition align8 (p : nat) : nat := p + (8 - p mod 8) mod 8.

(** sis_incrzip_set_bags, sis_incrzip.c:98-125: writes the bag count after the data at a
    byte boundary and restores the position; also returns zip_bagsize.
    Simplification: the clamp of sis_bits_stream_moveto never applies inside the buffer. *)
Definition zset_bags (s : bstream) (bags : Z) : option (bstream * nat) :=
  let a := mkbs (bdat s) (align8 (bpos s)) in
  let fin o n := match o with
                 | Some s' => Some (mkbs (bdat s') (bpos s), n) | None => None end in
  if (bags <=? 250) && (0 <? bags) then fin (bput a bags 8) 1%nat
  else if bags <=? 65535 then fin (bput2 a bags 16 251 8) 3%nat
  else fin (bput2 a bags 32 252 8) 5%nat.

(** sis_incrzip_getsize, sis_incrzip.c:93-96 *)
Definition zgetsize (s : bstream) (bagsize : nat) : nat := ((bpos s + 7) / 8 + bagsize)%nat.

(** sis_incrzip_compress, sis_incrzip.c:318-357.  [buf] is the prior content of the output
    buffer (ilen + 256 bytes).  None = the compressor ran outside its buffer.
    Simplification: count is an int; inputs of 2^31 records and more are not covered. *)
Definition zcompress (t : table) (buf : list Z) (recs : list (list Z)) : option (list Z) :=
  match zbag (mkbs buf 0) (Some true) (mkslot false (repeat 0 (tsize t))) 0 0 t recs with
  | None => None
  | Some (s, _) =>
    match zset_bags s 1 with
    | None => None
    | Some (s', n) => Some (firstn (zgetsize s' n) (bdat s'))
    end
  end.

(** ** Decompression *)

(** One element of the loop in _sis_incrzip_uncompress_one, sis_incrzip.c:461-516;
    [mem] None = NULL, [out] is the record being filled. *)
Definition zget_elem (s : bstream) (mem : option (list Z)) (f : field) (out : list Z) (i : nat)
  : option (list Z * bstream) :=
  if fstyle f =? ty_int then
    match (match mem with Some m => fget_int f m i | None => Some 0 end) with
    | None => None
    | Some a =>
      match bget_incr_int s a with
      | None => None
      | Some (v, s') => match fset f out v i with Some o => Some (o, s') | None => None end
      end
    end
  else if is_uintlike (fstyle f) then
    match (match mem with Some m => fget_uint f m i | None => Some 0 end) with
    | None => None
    | Some a =>
      match bget_incr_int s (to_s 64 a) with
      | None => None
      | Some (v, s') => match fset f out v i with Some o => Some (o, s') | None => None end
      end
    end
  else if fstyle f =? ty_float then None
  else if fstyle f =? ty_char then
    match slice out (foff f + i * flen f) (flen f) with
    | None => None
    | Some o =>
      match (match mem with
             | Some m =>
               match slice m (foff f + i * flen f) (flen f) with
               | Some a => bget_incr_chars s o (Some a) | None => None end
             | None => bget_chars s o end) with
      | None => None
      | Some (_, o', s') =>
        match splice out (foff f + i * flen f) o' with Some out' => Some (out', s') | None => None end
      end
    end
  else Some (out, s).

Fixpoint zget_one (s : bstream) (mem : option (list Z)) (f : field) (out : list Z) (is : list nat)
  : option (list Z * bstream) :=
  match is with
  | [] => Some (out, s)
  | i :: is' => match zget_elem s mem f out i with
                | Some (o, s') => zget_one s' mem f o is' | None => None end
  end.

(** the loop over fields, sis_incrzip.c:558-562 and 617-622 *)
Fixpoint zget_rec (s : bstream) (mem : option (list Z)) (fs : list field) (out : list Z)
  : option (list Z * bstream) :=
  match fs with
  | [] => Some (out, s)
  | f :: fs' => match zget_one s mem f out (seq 0 (fcount f)) with
                | Some (o, s') => zget_rec s' mem fs' o | None => None end
  end.

(** the loop over records of the one-shot decompressor, sis_incrzip.c:556-565.
    [outs] is the prior content of the output buffer, record by record. *)
Fixpoint zget_recs (s : bstream) (mem : option (list Z)) (fs : list field) (outs : list (list Z))
  : option (list (list Z)) :=
  match outs with
  | [] => Some []
  | o :: outs' =>
    match zget_rec s mem fs o with
    | None => None
    | Some (r, s') =>
      match zget_recs s' (Some r) fs outs' with
      | Some rs => Some (r :: rs) | None => None end
    end
  end.

(** sis_incrzip_get_bags, sis_incrzip.c:408-431.  Simplification: sis_bits_stream_moveto
    clamps negative positions to 0, as truncated subtraction does. *)
Definition zget_bags (d : list Z) : option Z :=
  let n := length d in
  let num o := match o with Some (x, _) => Some (to_s 32 x) | None => None end in
  match bget (mkbs d (8 * n - 8)) 8 with
  | None => None
  | Some (c, _) =>
    if c <=? 250 then Some c
    else if c =? 251 then num (bget (mkbs d (8 * n - 24)) 16)
    else num (bget (mkbs d (8 * n - 40)) 32)
  end.

(** results of the one-shot decompressor *)
Inductive zres := ZFail | ZRecs (rs : list (list Z)).

(** sis_incrzip_uncompress, sis_incrzip.c:518-573; [stale] gives the prior content of the
    output buffer. None = read outside the input. *)
Definition zuncompress (t : table) (stale : nat -> Z) (d : list Z) : option zres :=
  match zget_bags d with
  | None => None
  | Some bags =>
    if negb (bags =? 1) then Some ZFail
    else
      match bget (mkbs d 0) 1 with
      | None => None
      | Some (init, s1) =>
        if negb (init =? 1) then Some ZFail
        else
          match bget s1 1 with
          | None => None
          | Some (zip, s2) =>
            if negb (zip =? 0) then Some ZFail
            else
              match bget_uint s2 with
              | None => None
              | Some (_, s3) =>
                match bget_uint s3 with
                | None => None
                | Some (_, s4) =>
                  match bget_uint s4 with
                  | None => None
                  | Some (c, s5) =>
                    let count := Z.to_nat (to_s 32 c) in
                    let outs := map (fun k => map (fun j => stale (k * tsize t + j)%nat)
                                                  (seq 0 (tsize t))) (seq 0 count) in
                    match zget_recs s5 None (tfields t) outs with
                    | Some rs => Some (ZRecs rs)
                    | None => None
                    end
                  end
                end
              end
          end
      end
  end.
