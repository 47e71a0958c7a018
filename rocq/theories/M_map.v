(** Model of the keys of the maps: src/core/sis_map.c (dictionary types), the hash functions of
    src/core/sis_dict.c.  A string key is the list of its bytes before the terminating 0. *)
From Verif Require Import Base S_server M_server S_dict M_dict S_map.

(** _siptlw, sis_dict.c:7-13 *)
Definition siptlw (c : Z) : Z := if (65 <=? c) && (c <=? 90) then c + 32 else c.
(** ROTL, sis_dict.c:22 *)
Definition rotl (x b : Z) : Z := Z.lor (to_u 64 (Z.shiftl x b)) (Z.shiftr x (64 - b)).
(** SIPROUND, sis_dict.c:54-70 *)
Definition sipround (s : Z * Z * Z * Z) : Z * Z * Z * Z :=
  let '(v0, v1, v2, v3) := s in
  let v0 := to_u 64 (v0 + v1) in
  let v1 := rotl v1 13 in
  let v1 := Z.lxor v1 v0 in
  let v0 := rotl v0 32 in
  let v2 := to_u 64 (v2 + v3) in
  let v3 := rotl v3 16 in
  let v3 := Z.lxor v3 v2 in
  let v0 := to_u 64 (v0 + v3) in
  let v3 := rotl v3 21 in
  let v3 := Z.lxor v3 v0 in
  let v2 := to_u 64 (v2 + v1) in
  let v1 := rotl v1 17 in
  let v1 := Z.lxor v1 v2 in
  let v2 := rotl v2 32 in
  (v0, v1, v2, v3).
(** the loop over whole words, sis_dict.c:152-159, and the rest (the switch 161-170: the last
    bytes, little-endian, under the length in the top byte) *)
Fixpoint sipwords (n : nat) (s : Z * Z * Z * Z) (l : list Z) : (Z * Z * Z * Z) * list Z :=
  match n with
  | O => (s, l)
  | S n' =>
    let m := le_val (map siptlw (firstn 8 l)) in
    let '(v0, v1, v2, v3) := s in
    let '(v0, v1, v2, v3) := sipround (v0, v1, v2, Z.lxor v3 m) in
    sipwords n' (Z.lxor v0 m, v1, v2, v3) (skipn 8 l)
  end.
(** _siphash_nocase, sis_dict.c:131-189; k0 and k1 are the words of the seed *)
Definition siphash_nocase (k0 k1 : Z) (l : list Z) : Z :=
  let n := length l in
  let v0 := Z.lxor 0x736f6d6570736575 k0 in
  let v1 := Z.lxor 0x646f72616e646f6d k1 in
  let v2 := Z.lxor 0x6c7967656e657261 k0 in
  let v3 := Z.lxor 0x7465646279746573 k1 in
  let '(s, rest) := sipwords (n / 8) (v0, v1, v2, v3) l in
  let b := Z.lor (to_u 64 (Z.shiftl (Z.of_nat n) 56)) (le_val (map siptlw rest)) in
  let '(v0, v1, v2, v3) := s in
  let '(v0, v1, v2, v3) := sipround (v0, v1, v2, Z.lxor v3 b) in
  let '(v0, v1, v2, v3) := sipround (sipround (Z.lxor v0 b, v1, Z.lxor v2 0xff, v3)) in
  to_u 64 (Z.lxor (Z.lxor (Z.lxor v0 v1) v2) v3).

(** string keys: _sis_dict_strcase_hash sis_map.c:10-13, _sis_dict_strcase_compare 32-35 *)
Definition str_hash (k0 k1 : Z) (k : list Z) : Z := siphash_nocase k0 k1 k.
Definition str_compare (a b : list Z) : bool := casecmp a b.
(** 64-bit integer keys: _sis_dict_int64_hash, sis_map.c:23-26, _sis_dict_int64_compare, 46-49 *)
Definition int_hash (k : Z) : Z := to_u 64 k.
Definition int_compare (a b : Z) : bool := a =? b.

(** * the list of pointers, src/core/sis_list.c 1567-1706, and the named list, sis_map.c 148-242.
    A pointer is a number, 0 = NULL; [stale] is the content of fresh memory; None = outside the
    buffer.  The lock is not modelled (one operation at a time). *)
(** s_sis_pointer_list, sis_list.h:224-230: buffer (maxcount is its length), count *)
Record plist := mkpl { pbuf : list Z; pcnt : Z }.
Definition plist0 : plist := mkpl [] 0.
(** _pointer_list_grow, 1603-1630 *)
Definition pgrow (stale : nat -> Z) (p : plist) (n : Z) : plist :=
  if n <? Z.of_nat (length (pbuf p)) then p
  else
    let maxlen := if n <? 256 then 256 else n + 1024 in
    mkpl (pbuf p ++ map stale (seq (length (pbuf p)) (Z.to_nat maxlen - length (pbuf p)))) (pcnt p).
(** sis_pointer_list_push, 1640-1647 *)
Definition ppush (stale : nat -> Z) (p : plist) (v : Z) : option plist :=
  let p1 := pgrow stale p (pcnt p + 1) in
  if Z.of_nat (length (pbuf p1)) <=? pcnt p1 then None
  else Some (mkpl (upd (pbuf p1) (Z.to_nat (pcnt p1)) v) (pcnt p1 + 1)).
(** sis_pointer_list_get, 1697-1706 *)
Definition pget (p : plist) (i : Z) : Z :=
  if (0 <=? i) && (i <? pcnt p) then nth (Z.to_nat i) (pbuf p) 0 else 0.
(** sis_pointer_list_update, 1662-1675: the list and the pointers given to vfree *)
Definition pupdate (p : plist) (i : Z) (v : Z) : plist * list Z :=
  if (0 <=? i) && (i <? pcnt p) then
    let old := nth (Z.to_nat i) (pbuf p) 0 in
    (mkpl (upd (pbuf p) (Z.to_nat i) v) (pcnt p), if old =? 0 then [] else [old])
  else (p, []).
(** sis_pointer_list_clear, 1589-1601 *)
Definition pclear (p : plist) : plist * list Z :=
  (mkpl (map (fun _ => 0) (firstn (Z.to_nat (pcnt p)) (pbuf p)) ++ skipn (Z.to_nat (pcnt p)) (pbuf p)) 0,
   filter (fun v => negb (v =? 0)) (firstn (Z.to_nat (pcnt p)) (pbuf p))).

(** s_sis_map_list, sis_map.h:30-35; values of the map are 64-bit integers *)
Record mlist := mkml { mmap : dict (K:=list Z) (V:=Z); mlst : plist }.
(** sis_map_list_create, 148-156 *)
Definition mlist0 : mlist := mkml dcreate plist0.

Section NamedList.
Variables (k0 k1 : Z) (stale : nat -> Z).
Notation find := (dfind str_compare (str_hash k0 k1)).
Notation replace := (dreplace str_compare (str_hash k0 k1)).
(** sis_map_int_get, 320-329, converted to int (186, 206, 219) *)
Definition map_int_get (m : dict) (k : list Z) : option (dict * Z) :=
  match find m k with None => None | Some (m', r) => Some (m', match r with None => -1 | Some i => to_s 32 i end) end.

Definition mstep (s : mlist) (o : S_map.mop) : option (mlist * Z * list Z) :=
  match o with
  | S_map.MSet k v =>                                        (* sis_map_list_set, 216-234 *)
    match map_int_get (mmap s) k with
    | None => None
    | Some (m, i) =>
      if 0 <=? i then
        let '(p, fr) := pupdate (mlst s) i v in Some (mkml m p, i, fr)
      else
        match replace m k (pcnt (mlst s)) with               (* sis_map_int_set, 330-333 *)
        | None => None
        | Some (m', _) =>
          match ppush stale (mlst s) v with
          | None => None
          | Some p => Some (mkml m' p, pcnt p - 1, [])
          end
        end
    end
  | S_map.MGet k =>                                          (* sis_map_list_get, 198-213 *)
    match map_int_get (mmap s) k with
    | None => None
    | Some (m, i) =>
      Some (mkml m (mlst s), if (0 <=? i) && (i <? pcnt (mlst s)) then pget (mlst s) i else 0, [])
    end
  | S_map.MIndex k =>                                        (* sis_map_list_get_index, 175-189 *)
    match map_int_get (mmap s) k with
    | None => None
    | Some (m, i) => Some (mkml m (mlst s), i, [])
    end
  | S_map.MAt i => Some (s, pget (mlst s) i, [])             (* sis_map_list_geti, 190-196 *)
  | S_map.MSize => Some (s, pcnt (mlst s), [])               (* sis_map_list_getsize, 235-242 *)
  | S_map.MClear =>                                          (* sis_map_list_clear, 167-173 *)
    let '(p, fr) := pclear (mlst s) in
    Some (mkml (mkd hreset hreset (-1) 0 (can (mmap s))) p, 0, fr)
  end.
Fixpoint mrun (s : mlist) (os : list S_map.mop) : option (mlist * list Z * list Z) :=
  match os with
  | [] => Some (s, [], [])
  | o :: os' =>
    match mstep s o with
    | None => None
    | Some (s1, x, r) =>
      match mrun s1 os' with None => None | Some (s2, xs, rs) => Some (s2, x :: xs, r ++ rs) end
    end
  end.
End NamedList.
