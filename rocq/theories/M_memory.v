(** Model of the growable memory buffer: src/core/sis_memory.c, sis_memory.h. *)
From Verif Require Import Base S_memory.

(** SIS_MEMORY_SIZE, sis_memory.h:10. *)
Definition SIS_MEMORY_SIZE : Z := 16777216.

(** struct s_sis_memory, sis_memory.h:13-18.  [mbuf] holds the bytes below [size]
    (so [size] = length mbuf); bytes between [size] and [maxsize] are allocated but
    stale, see [mem_byte]. *)
Record mem := mkmem { mbuf : list Z; moff : nat; mmax : Z }.

(** size as an integer *)
Definition msize (m : mem) : Z := Z.of_nat (length (mbuf m)).

(** sis_memory_create, sis_memory.c:5-13 *)
Definition mem_create : mem := mkmem [] 0 255.

(** sis_memory_create_size, sis_memory.c:14-22 *)
Definition mem_create_size (sz : Z) : mem := mkmem [] 0 (sz + 1).

(** sis_memory_clear, sis_memory.c:62-66 *)
Definition mem_clear (m : mem) : mem := mkmem [] 0 (mmax m).

(** sis_memory_get_size, sis_memory.c:391-394 (offset <= size is an invariant). *)
Definition mem_get_size (m : mem) : nat := (length (mbuf m) - moff m)%nat.

(** bytes from sis_memory(m) (sis_memory.c:106-113) up to size *)
Definition mem_live (m : mem) : list Z := skipn (moff m) (mbuf m).

(** sis_memory_grow, sis_memory.c:114-135 *)
Definition mem_grow (m : mem) (nsize : Z) : mem :=
  if mmax m <? nsize then
    mkmem (skipn (moff m) (mbuf m)) 0
          (nsize + Z.min SIS_MEMORY_SIZE ((nsize + mmax m) / 2))
  else m.

(** sis_memory_cat, sis_memory.c:136-145 *)
Definition mem_cat (m : mem) (bs : list Z) : mem :=
  match bs with
  | [] => m
  | _ => let m1 := mem_grow m (Z.of_nat (length bs) + msize m) in
         mkmem (mbuf m1 ++ bs) (moff m1) (mmax m1)
  end.

(** sis_memory_pack, sis_memory.c:67-94.  The memset of the freed tail only touches
    bytes at or above the new size, which the model treats as stale anyway. *)
Definition mem_pack (m : mem) : mem :=
  if Nat.leb (moff m) 0 then m
  else if Nat.ltb (length (mbuf m) - 1) (moff m) then mkmem [] 0 (mmax m)
  else if (Nat.ltb 0 (mem_get_size m) && (mmax m / 3 <? msize m))%bool
       then mkmem (skipn (moff m) (mbuf m)) 0 (mmax m)
       else m.

(** sis_memory_move, sis_memory.c:505-515 *)
Definition mem_move (m : mem) (n : nat) : mem :=
  if Nat.leb (moff m + n) (length (mbuf m))
  then mkmem (mbuf m) (moff m + n) (mmax m)
  else mkmem (mbuf m) (length (mbuf m)) (mmax m).

(** sis_memory_jumpto, sis_memory.c:95-101 *)
Definition mem_jumpto (m : mem) (off : nat) : mem :=
  if Nat.ltb off (length (mbuf m)) then mkmem (mbuf m) off (mmax m) else m.

(** sis_memory_cat_byte, sis_memory.c:178-209 for bytes_ in {1,2,4,8} (any other
    width appends nothing). *)
Definition mem_cat_byte (m : mem) (v : Z) (n : nat) : mem :=
  if (Nat.eqb n 1 || Nat.eqb n 2 || Nat.eqb n 4 || Nat.eqb n 8)%bool
  then mem_cat m (le_bytes n v) else m.

(** The byte the C code sees at absolute position i: below size it is data, from size
    to maxsize it is whatever was left there ([stale]), at or above maxsize it is
    outside the allocation (None = undefined behaviour). *)
Definition mem_byte (stale : nat -> Z) (m : mem) (i : nat) : option Z :=
  if Nat.ltb i (length (mbuf m)) then Some (nth i (mbuf m) 0)
  else if Z.of_nat i <? mmax m then Some (stale i) else None.

Fixpoint mem_peek (stale : nat -> Z) (m : mem) (i n : nat) : option (list Z) :=
  match n with
  | O => Some []
  | S n' => match mem_byte stale m i, mem_peek stale m (S i) n' with
            | Some b, Some bs => Some (b :: bs)
            | _, _ => None
            end
  end.

(** sis_memory_get_byte, sis_memory.c:210-220: memmove of [n] bytes into a zeroed
    int64 without a bounds check, then sis_memory_move. *)
Definition mem_get_byte (stale : nat -> Z) (m : mem) (n : nat) : option (Z * mem) :=
  match mem_peek stale m (moff m) n with
  | Some bs => Some (to_s 64 (le_val bs), mem_move m n)
  | None => None
  end.

(** sis_memory_cat_ssize, sis_memory.c:230-258 *)
Definition mem_cat_ssize (m : mem) (v : Z) : mem :=
  if 4294967295 <? v then mem_cat_byte (mem_cat_byte m 254 1) v 8
  else if 65535 + 250 <? v then mem_cat_byte (mem_cat_byte m 253 1) v 4
  else if 255 + 250 <? v then mem_cat_byte (mem_cat_byte m 252 1) (v - 250) 2
  else if 250 <? v then mem_cat_byte (mem_cat_byte m 251 1) (v - 250) 1
  else mem_cat_byte m v 1.

(** return value of sis_memory_cat_ssize, sis_memory.c:230-258 *)
Definition ssize_ret (v : Z) : nat :=
  if 4294967295 <? v then 9 else if 65535 + 250 <? v then 5
  else if 255 + 250 <? v then 3 else if 250 <? v then 2 else 1.

(** sis_memory_get_ssize, sis_memory.c:260-280 *)
Definition mem_get_ssize (stale : nat -> Z) (m : mem) : option (Z * mem) :=
  match mem_get_byte stale m 1 with
  | None => None
  | Some (dw, m1) =>
      if (dw =? 254) || (dw =? 255) then
        match mem_get_byte stale m1 8 with
        | Some (d, m2) => Some (to_u 64 d, m2) | None => None end
      else if dw =? 253 then
        match mem_get_byte stale m1 4 with
        | Some (d, m2) => Some (to_u 64 d, m2) | None => None end
      else if dw =? 252 then
        match mem_get_byte stale m1 2 with
        | Some (d, m2) => Some (to_u 64 (d + 250), m2) | None => None end
      else if dw =? 251 then
        match mem_get_byte stale m1 1 with
        | Some (d, m2) => Some (to_u 64 (d + 250), m2) | None => None end
      else Some (to_u 64 dw, m1)
  end.

(** sis_memory_try_ssize, sis_memory.c:281-320 *)
Definition mem_try_ssize (m : mem) : bool :=
  match mem_live m with
  | [] => false
  | dw :: _ =>
      if (dw =? 254) || (dw =? 255) then Nat.ltb 8 (mem_get_size m)
      else if dw =? 253 then Nat.ltb 4 (mem_get_size m)
      else if dw =? 252 then Nat.ltb 2 (mem_get_size m)
      else if dw =? 251 then Nat.ltb 1 (mem_get_size m)
      else true
  end.

(** sis_memory_set_maxsize, sis_memory.c:411-432 *)
Definition mem_set_maxsize (m : mem) (len : Z) : mem :=
  if mmax m <? len then mkmem (skipn (moff m) (mbuf m)) 0 (len + 256) else m.

(** One user operation on the concrete buffer. *)
Definition mem_step (m : mem) (o : bufop) : mem :=
  match o with
  | OpAppend bs => mem_cat m bs
  | OpSkip n => mem_move m n
  | OpCompact => mem_pack m
  | OpReserve n => mem_set_maxsize m n
  | OpClear => mem_clear m
  end.

(** Buffers a program can obtain from sis_memory_create by these operations. *)
Definition mem_reach (m : mem) : Prop := exists os, m = fold_left mem_step os mem_create.
