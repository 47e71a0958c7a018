(** Model of table definitions and of the conversion of records between tables:
    src/core/sis_dynamic.c, with the accessors of M_dynamic.

    Simplifications: the definition read from JSON is a list of [fdef] (style 0 is an unknown type,
    flags are already looked up); the list of fields is the named list in the form proved for it
    in C36 (S_map.mspec), whose values are pointers to field units: the n-th unit allocated is the
    pointer n + 1, and the units freed are remembered.  None = access outside a record. *)
From Verif Require Import Base S_server S_map S_table M_dynamic.

(** s_sis_dynamic_field, sis_dynamic.h:98-108; the type, length, count and offset are in [f_at] *)
Record tfield := mktf { f_name : list Z; f_at : field; f_dot : Z; f_idx : bool; f_only : bool }.
Notation f_style f := (fstyle (f_at f)).
Notation f_len f := (flen (f_at f)).
Notation f_count f := (fcount (f_at f)).
Notation f_off f := (foff (f_at f)).
(** s_sis_dynamic_db, sis_dynamic.h:118-127, and the units allocated and freed *)
Record table := mkt { t_units : list tfield; t_freed : list Z; t_fields : list (list Z * Z); t_size : Z;
                      t_time : Z; t_mindex : Z; t_solely : list Z }.
Definition unit_of (us : list tfield) (p : Z) : option tfield := if p <=? 0 then None else nth_error us (Z.to_nat (p - 1)).
(** sis_map_list_geti on the fields *)
Definition field_at (t : table) (i : nat) : option tfield :=
  match nth_error (t_fields t) i with Some (_, p) => unit_of (t_units t) p | None => None end.
(** sis_map_list_get on the fields *)
Definition field_named (t : table) (n : list Z) : option tfield :=
  match position (t_fields t) n with Some i => field_at t i | None => None end.

(** the unit made for a definition, sis_dynamic.c:164-179, 60-65 (sis_strcpy with 32 keeps 31 bytes,
    os_str.h:23-41); offset, len and count are unsigned short, dot is unsigned char *)
Definition make_unit (d : fdef) (offset : Z) : tfield :=
  mktf (firstn 31 (df_name d))
       (mkfield (df_style d) (Z.to_nat (to_u 16 (df_len d))) (Z.to_nat (to_u 16 (df_count d))) (Z.to_nat (to_u 16 offset)))
       (to_u 8 (if (df_style d =? K_PRICE) && (df_dot d =? 0) then 3 else df_dot d)) (df_idx d) (df_only d).
(** one turn of the loop, sis_dynamic.c:132-202; [t_size] is the int offset *)
Definition add_def (t : table) (d : fdef) : table :=
  if df_style d =? 0 then t
  else if (65535 <? df_len d) || (df_len d <? 1) then t
  else if (65535 <? df_count d) || (df_count d <? 1) then t
  else
    let u := make_unit d (t_size t) in
    let p := Z.of_nat (length (t_units t)) + 1 in
    let '(fs, _, fr) := mspec (t_fields t) (MSet (df_name d) p) in
    mkt (t_units t ++ [u]) (t_freed t ++ fr) fs
        (to_s 32 (t_size t + to_s 32 (Z.of_nat (f_len u) * Z.of_nat (f_count u))))
        (if (t_time t =? 0) && time_kind (f_style u) then p else t_time t)
        (if f_idx u then p else t_mindex t)
        (if f_only u then t_solely t ++ [p] else t_solely t).
Definition table0 : table := mkt [] [] [] 0 0 0 [].
(** sis_dynamic_db_create, sis_dynamic.c:114-219 *)
Definition create (ds : list fdef) : option table :=
  let t := fold_left add_def ds table0 in
  if t_size t =? 0 then None
  else Some (mkt (t_units t) (t_freed t) (t_fields t) (to_u 32 (t_size t)) (t_time t)
                 (if t_time t =? 0 then t_mindex t else t_time t) (t_solely t)).

(** _sis_field_set_float, sis_dynamic.h:359-375, and _sis_field_set_price, 377-395, given the
    bytes of the converted number: a field whose length is not 4 is stored as if its elements
    were 8 bytes apart, and its length is copied from an 8-byte variable *)
Definition fset_real (f : field) (rec : list Z) (b : list Z) (i : nat) : option (list Z) :=
  if Nat.eqb (flen f) 4 then splice rec (foff f + i * 4) (firstn 4 b)
  else if Nat.ltb 8 (flen f) then None
  else splice rec (foff f + i * 8) (firstn (flen f) b).

(** * conversion *)
Section Convert.
(** the calendar of the host: sis_time_get_idate, and sis_time_make_time at 235959 *)
Variables (idate mktime : Z -> Z).
(** number conversions that involve floating point: from the source field and the bytes of the
    number read (of an integer: its 64 bits) to the 8 bytes stored; not modelled *)
Variable fconv : tfield -> tfield -> list Z -> Z.

(** sis_time_unit_convert, sis_dynamic.c:347-390, for the four targets with which it is called
    (448-454); unsigned 64-bit arithmetic *)
Definition time_convert (k k' v : Z) : Z :=
  if k =? K_TSEC then
    if k' =? K_MSEC then to_u 64 (v * 1000 + 999) else if k' =? K_MINU then v / 60 else if k' =? K_DATE then to_u 64 (idate v) else v
  else if k =? K_MSEC then
    if k' =? K_TSEC then v / 1000 else if k' =? K_MINU then v / 1000 / 60 else if k' =? K_DATE then to_u 64 (idate (v / 1000)) else v
  else if k =? K_MINU then
    if k' =? K_MSEC then to_u 64 (v * 60 * 1000 + 59999) else if k' =? K_TSEC then to_u 64 (v * 60)
    else if k' =? K_DATE then to_u 64 (idate (to_u 64 (v * 60))) else v
  else if k =? K_DATE then
    if k' =? K_MSEC then to_u 64 (mktime v * 1000 + 999) else if k' =? K_TSEC then to_u 64 (mktime v)
    else if k' =? K_MINU then to_u 64 (mktime v / 60) else v
  else v.

(** reading a float or price, sis_dynamic.h:219-298: only lengths 4 and 8 are read *)
Definition fget_real (f : field) (rec : list Z) (i : nat) : option (list Z) :=
  if Nat.eqb (flen f) 4 || Nat.eqb (flen f) 8 then slice rec (foff f + i * flen f) (flen f) else Some [].

Definition nat_kind (k : Z) : bool := time_kind k || (k =? K_UINT).
(** one turn of the loop of _sis_dynamic_unit_convert, sis_dynamic.c:401-546 *)
Definition conv_elem (fi fo : tfield) (inr out : list Z) (i : nat) : option (list Z) :=
  let k := f_style fi in let k' := f_style fo in
  if k =? K_INT then                                                          (* 405-433 *)
    match fget_int (f_at fi) inr i with
    | None => None
    | Some v =>
      if (k' =? K_INT) || (k' =? K_PRICE) || nat_kind k' then fset (f_at fo) out v i
      else if k' =? K_FLOAT then fset_real (f_at fo) out (le_bytes 8 (fconv fi fo (le_bytes 8 v))) i
      else Some out
    end
  else if nat_kind k then                                                     (* 434-466 *)
    match fget_uint (f_at fi) inr i with
    | None => None
    | Some v =>
      if (k' =? K_INT) || (k' =? K_PRICE) || (k' =? K_UINT) then fset (f_at fo) out v i
      else if time_kind k' then fset (f_at fo) out (time_convert k k' v) i
      else if k' =? K_FLOAT then fset_real (f_at fo) out (le_bytes 8 (fconv fi fo (le_bytes 8 v))) i
      else Some out
    end
  else if (k =? K_FLOAT) || (k =? K_PRICE) then                               (* 467-526 *)
    match fget_real (f_at fi) inr i with
    | None => None
    | Some b =>
      if (k' =? K_INT) || nat_kind k' then fset (f_at fo) out (fconv fi fo b) i
      else if (k' =? K_FLOAT) || (k' =? K_PRICE) then fset_real (f_at fo) out (le_bytes 8 (fconv fi fo b)) i
      else Some out
    end
  else if k =? K_CHAR then                                                    (* 527-542 *)
    if k' =? K_CHAR then
      match slice inr (f_off fi + i * f_len fi) (Nat.min (f_len fi) (f_len fo)) with
      | None => None
      | Some b => splice out (f_off fo + i * f_len fo) b
      end
    else Some out
  else Some out.
(** the loop, [n] elements from element [i] on *)
Fixpoint conv_loop (n : nat) (i : nat) (fi fo : tfield) (inr out : list Z) : option (list Z) :=
  match n with
  | O => Some out
  | S n' => match conv_elem fi fo inr out i with Some o => conv_loop n' (S i) fi fo inr o | None => None end
  end.
(** _sis_dynamic_unit_copy, sis_dynamic.c:333-346 *)
Definition unit_copy (fi fo : tfield) (inr out : list Z) : option (list Z) :=
  match slice inr (f_off fi) (f_len fi * Nat.min (f_count fi) (f_count fo)) with
  | None => None
  | Some b => splice out (f_off fo) b
  end.
(** the shift chosen for a pair of fields, sis_dynamic.c:611-635 *)
Definition shift (fi fo : tfield) (inr out : list Z) : option (list Z) :=
  if negb (f_style fi =? f_style fo) || negb (Nat.eqb (f_len fi) (f_len fo))
  then conv_loop (Nat.min (f_count fi) (f_count fo)) 0 fi fo inr out
  else unit_copy fi fo inr out.

(** the loop of _sis_dynamic_match over the target's fields, sis_dynamic.c:600-637: the map of
    pairs (under the target's stored name), the pairs made, whether anything changes *)
Fixpoint match_loop (tin : table) (fs : list (option tfield)) (m : list (list Z * Z)) (conv : list (tfield * option tfield)) (ch : bool)
    : option (list (list Z * Z) * list (tfield * option tfield) * bool) :=
  match fs with
  | [] => Some (m, conv, ch)
  | None :: _ => None                                            (* null dereference *)
  | Some fo :: fs' =>
    let fi := field_named tin (f_name fo) in
    let '(m1, _, _) := mspec m (MSet (f_name fo) (Z.of_nat (length conv) + 1)) in
    let c := match fi with
             | Some f => negb (f_style f =? f_style fo) || negb (Nat.eqb (f_len f) (f_len fo)) || negb (Nat.eqb (f_count f) (f_count fo))
             | None => false
             end in
    match_loop tin fs' m1 (conv ++ [(fo, fi)]) (ch || c)
  end.
(** _sis_dynamic_match, sis_dynamic.c:587-643: the pairs in the order of the map, or None for the plain copy *)
Definition dmatch (tin tout : table) : option (option (list (tfield * option tfield))) :=
  let ch0 := negb (t_size tout =? t_size tin) || negb (Nat.eqb (length (t_fields tout)) (length (t_fields tin))) in
  match match_loop tin (map (field_at tout) (seq 0 (length (t_fields tout)))) [] [] ch0 with
  | None => None
  | Some (m, conv, ch) =>
    if ch then
      Some (Some (flat_map (fun e => match nth_error conv (Z.to_nat (snd e - 1)) with Some c => [c] | None => [] end) m))
    else Some None
  end.

(** one record, _sis_dynamic_method_owner, sis_dynamic.c:567-579, after the memset of 560 *)
Fixpoint owner_rec (cs : list (tfield * option tfield)) (inr out : list Z) : option (list Z) :=
  match cs with
  | [] => Some out
  | (fo, None) :: cs' => owner_rec cs' inr out
  | (fo, Some fi) :: cs' => match shift fi fo inr out with Some o => owner_rec cs' inr o | None => None end
  end.
(** sis_dynamic_convert, sis_dynamic.c:682-717, on one record: _sis_dynamic_method_copy (549-553)
    or _sis_dynamic_method_owner *)
Definition convert_record (tin tout : table) (inr : list Z) : option (list Z) :=
  match dmatch tin tout with
  | None => None
  | Some None => Some (firstn (Z.to_nat (t_size tout)) inr)
  | Some (Some cs) => owner_rec cs inr (repeat 0 (Z.to_nat (t_size tout)))
  end.
(** the records of a block, sis_dynamic.c:566-579; each record is converted by itself *)
Fixpoint convert_records (n : nat) (tin tout : table) (inp : list Z) : option (list Z) :=
  match n with
  | O => Some []
  | S n' =>
    match convert_record tin tout (firstn (Z.to_nat (t_size tin)) inp), convert_records n' tin tout (skipn (Z.to_nat (t_size tin)) inp) with
    | Some o, Some os => Some (o ++ os)
    | _, _ => None
    end
  end.
(** sis_dynamic_convert with its checks of the lengths (int count, unsigned products): None =
    refused, Some None = bad access.  Simplification: the plain copy is also done record by record. *)
Definition convert (tin tout : table) (inp : list Z) (olen : Z) : option (option (list Z)) :=
  let ilen := Z.of_nat (length inp) in
  let count := to_s 32 (ilen / t_size tin) in
  if (ilen =? 0) || (olen =? 0) then None
  else if negb (to_u 32 (count * t_size tin) =? ilen) then None
  else if negb (to_u 32 (count * t_size tout) =? olen) then None
  else Some (convert_records (Z.to_nat count) tin tout inp).
End Convert.
