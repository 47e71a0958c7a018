(** Model of table fields and their accessors: src/core/sis_dynamic.h. *)
From Verif Require Import Base.

(** s_sis_dynamic_field, sis_dynamic.h:98-108.  Simplification: dot, mindex and solely are
    left out here.  [fstyle] is the character code of the type (sis_dynamic.h:77-91). *)
Record field := mkfield { fstyle : Z; flen : nat; fcount : nat; foff : nat }.

(** [n] bytes at [off]; None = outside the object *)
Definition slice (l : list Z) (off n : nat) : option (list Z) :=
  if Nat.leb (off + n) (length l) then Some (firstn n (skipn off l)) else None.

(** overwrite with [b] at [off] (memmove into a record); None = outside the object *)
Definition splice (l : list Z) (off : nat) (b : list Z) : option (list Z) :=
  if Nat.leb (off + length b) (length l)
  then Some (firstn off l ++ b ++ skipn (off + length b) l) else None.

(** the switch (unit_->len) of the accessors *)
Definition int_len (n : nat) : bool :=
  match n with 1%nat | 2%nat | 4%nat | 8%nat => true | _ => false end.

(** _sis_field_get_uint, sis_dynamic.h:155-187 *)
Definition fget_uint (f : field) (rec : list Z) (i : nat) : option Z :=
  if int_len (flen f) then
    match slice rec (foff f + i * flen f) (flen f) with
    | Some b => Some (le_val b) | None => None end
  else Some 0.

(** _sis_field_get_int, sis_dynamic.h:188-218 *)
Definition fget_int (f : field) (rec : list Z) (i : nat) : option Z :=
  if int_len (flen f) then
    match slice rec (foff f + i * flen f) (flen f) with
    | Some b => Some (to_s (8 * Z.of_nat (flen f)) (le_val b)) | None => None end
  else Some 0.

(** _sis_field_set_uint, sis_dynamic.h:300-327, and _sis_field_set_int, 329-357: both
    truncate to the width and store the little-endian bytes. *)
Definition fset (f : field) (rec : list Z) (v : Z) (i : nat) : option (list Z) :=
  if int_len (flen f) then splice rec (foff f + i * flen f) (le_bytes (flen f) v)
  else Some rec.

(** the type characters, sis_dynamic.h:77-91 *)
Definition ty_int := 73.   Definition ty_uint := 85.  Definition ty_char := 67.
Definition ty_float := 70. Definition ty_price := 80. Definition ty_wsec := 87.
Definition ty_msec := 84.  Definition ty_tsec := 83.  Definition ty_minu := 77.
Definition ty_date := 68.  Definition ty_year := 89.

(** the group of cases handled as unsigned integers, e.g. sis_incrzip.c:258-263 *)
Definition is_uintlike (st : Z) : bool :=
  (st =? ty_tsec) || (st =? ty_msec) || (st =? ty_minu) || (st =? ty_date)
  || (st =? ty_uint) || (st =? ty_price).
