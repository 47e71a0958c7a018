(** Model of the struct array and the containers built on it: src/core/sis_list.c.

    Simplifications: memory is modelled in whole elements (every offset and length in the C
    code is a multiple of list_->len); sizes and indices are unbounded integers, so the
    model speaks about arrays whose byte size fits an int. *)
From Verif Require Import Base S_list.

Section Arrays.
Context {A : Type}.

(** [n] elements read at [off] (source of a memmove); None = outside the allocation *)
Definition aget (b : list A) (off n : nat) : option (list A) :=
  if Nat.leb (off + n) (length b) then Some (firstn n (skipn off b)) else None.

(** elements stored at [off] (destination of a memmove); None = outside the allocation *)
Definition aput (b : list A) (off : nat) (xs : list A) : option (list A) :=
  if Nat.leb (off + length xs) (length b)
  then Some (firstn off b ++ xs ++ skipn (off + length xs) b) else None.

(** memmove inside one allocation *)
Definition amove (b : list A) (dst src n : nat) : option (list A) :=
  match aget b src n with Some xs => aput b dst xs | None => None end.

(** s_sis_struct_list, sis_list.h:19-25.  maxcount is the length of [lbuf]; a NULL buffer is
    the empty one.  [lnew] counts allocations. *)
Record slist := mksl { lbuf : list A; lstart : nat; lcount : nat; lnew : nat }.

(** content of the [k]-th fresh allocation *)
Variable junk : nat -> nat -> A.
Definition fresh (k n : nat) : list A := map (junk k) (seq 0 n).

(** sis_struct_list_create, sis_list.c:11-24 *)
Definition sl_create : slist := mksl [] 0 0 0.

(** sis_struct_list_clear, sis_list.c:37-41 *)
Definition sl_clear (l : slist) : slist := mksl (lbuf l) 0 0 (lnew l).

(** the size classes, sis_list.c:58-83 *)
Definition grow_size (n : nat) : nat :=
  if Nat.eqb n 1 then 1
  else if Nat.ltb n 16 then 16
  else if Nat.ltb n 64 then 64
  else if Nat.ltb n 256 then 256
  else if Nat.ltb n 1024 then 1024
  else n * 2.

(** _struct_list_grow, sis_list.c:42-98 *)
Definition sl_grow (l : slist) (add : nat) : option slist :=
  let newlen := (lstart l + lcount l + add)%nat in
  match (if (Nat.ltb (length (lbuf l)) newlen && Nat.ltb 0 (lstart l))%bool
         then match amove (lbuf l) 0 (lstart l) (lcount l) with
              | Some b => Some (mksl b 0 (lcount l) (lnew l), (lcount l + add)%nat)
              | None => None end
         else Some (l, newlen)) with
  | None => None
  | Some (l1, newlen1) =>
    if Nat.leb newlen1 (length (lbuf l1)) then Some l1
    else
      let nb := fresh (lnew l1) (grow_size newlen1) in
      match aget (lbuf l1) (lstart l1) (lcount l1) with
      | None => None
      | Some xs =>
        match aput nb 0 xs with
        | None => None
        | Some nb' => Some (mksl nb' (if lbuf l1 then lstart l1 else 0%nat) (lcount l1) (S (lnew l1)))
        end
      end
  end.

(** sis_struct_list_pushs, sis_list.c:99-108, and _push, 110-119 (one element) *)
Definition sl_pushs (l : slist) (xs : list A) : option (slist * Z) :=
  match sl_grow l (length xs) with
  | None => None
  | Some l1 =>
    match aput (lbuf l1) (lcount l1 + lstart l1) xs with
    | None => None
    | Some b => Some (mksl b (lstart l1) (lcount l1 + length xs) (lnew l1),
                      Z.of_nat (lcount l1) + Z.of_nat (length xs) - 1)
    end
  end.

(** sis_struct_list_update, sis_list.c:120-129 *)
Definition sl_update (l : slist) (i : Z) (x : A) : option (slist * Z) :=
  if (0 <=? i) && (i <? Z.of_nat (lcount l)) then
    match aput (lbuf l) (Z.to_nat i + lstart l) [x] with
    | Some b => Some (mksl b (lstart l) (lcount l) (lnew l), i)
    | None => None
    end
  else Some (l, -1).

(** sis_struct_list_inserts, sis_list.c:150-169, and _insert, 130-149 (one element) *)
Definition sl_inserts (l : slist) (i : Z) (xs : list A) : option (slist * Z) :=
  if (Z.of_nat (lcount l) <? 1) || (i >? Z.of_nat (lcount l) - 1) then sl_pushs l xs
  else
    let i := if i <? 0 then 0 else i in
    match sl_grow l (length xs) with
    | None => None
    | Some l1 =>
      let off := (Z.to_nat i + lstart l1)%nat in
      match amove (lbuf l1) (off + length xs) off (lcount l1 - Z.to_nat i) with
      | None => None
      | Some b1 =>
        match aput b1 off xs with
        | None => None
        | Some b2 => Some (mksl b2 (lstart l1) (lcount l1 + length xs) (lnew l1), i)
        end
      end
    end.

(** reading the element a returned pointer points at *)
Definition sl_at (l : slist) (off : nat) : option (option A) :=
  match nth_error (lbuf l) off with Some x => Some (Some x) | None => None end.

(** sis_struct_list_get, sis_list.c:178-187, and the read through the pointer.
    Some None = NULL; None = read outside the allocation. *)
Definition sl_get (l : slist) (i : Z) : option (option A) :=
  if (0 <=? i) && (i <? Z.of_nat (lcount l)) then sl_at l (Z.to_nat i + lstart l)
  else Some None.

(** sis_struct_list_rect, sis_list.c:284-302 *)
Definition sl_rect (l : slist) (n : Z) : option slist :=
  if (n <? 1) || (n >? Z.of_nat (lcount l)) then Some l
  else
    let st := (lstart l + lcount l - Z.to_nat n)%nat in
    if Nat.ltb (Z.to_nat n) st then
      match amove (lbuf l) 0 st (Z.to_nat n) with
      | Some b => Some (mksl b 0 (Z.to_nat n) (lnew l)) | None => None end
    else Some (mksl (lbuf l) st (Z.to_nat n) (lnew l)).

(** sis_struct_list_limit, sis_list.c:303-313 *)
Definition sl_limit (l : slist) (n : Z) : slist :=
  if (n <? 1) || (n >? Z.of_nat (lcount l)) then l
  else mksl (lbuf l) (lstart l + lcount l - Z.to_nat n) (Z.to_nat n) (lnew l).

(** sis_struct_list_pack, sis_list.c:328-348 *)
Definition sl_pack (l : slist) : option slist :=
  if Nat.ltb 0 (lcount l) then
    match aget (lbuf l) (lstart l) (lcount l) with
    | None => None
    | Some xs =>
      match aput (fresh (lnew l) (lcount l)) 0 xs with
      | Some b => Some (mksl b 0 (lcount l) (S (lnew l))) | None => None end
    end
  else Some (mksl [] 0 0 (lnew l)).

(** sis_struct_list_pop, sis_list.c:351-361, with the element read through the pointer *)
Definition sl_pop (l : slist) : option (slist * option A) :=
  if Nat.ltb 0 (lcount l) then
    match sl_at l (lstart l) with
    | Some o => Some (mksl (lbuf l) (S (lstart l)) (lcount l - 1) (lnew l), o)
    | None => None
    end
  else Some (l, None).

(** sis_struct_list_delete, sis_list.c:362-380 *)
Definition sl_delete (l : slist) (s c : Z) : option (slist * Z) :=
  if (s <? 0) || (c <? 1) || (s + c >? Z.of_nat (lcount l)) then Some (l, 0)
  else
    match (if Nat.ltb 0 (lstart l)
           then match amove (lbuf l) 0 (lstart l) (lcount l) with
                | Some b => Some (mksl b 0 (lcount l) (lnew l)) | None => None end
           else Some l) with
    | None => None
    | Some l1 =>
      match amove (lbuf l1) (Z.to_nat s) (Z.to_nat (s + c)) (lcount l1 - Z.to_nat c - Z.to_nat s) with
      | None => None
      | Some b => Some (mksl b (lstart l1) (lcount l1 - Z.to_nat c) (lnew l1), c)
      end
    end.

(** sis_struct_list_set_size, sis_list.c:226-237: drops the content *)
Definition sl_set_size (l : slist) (n : nat) : slist := mksl (fresh (lnew l) n) 0 0 (S (lnew l)).

(** sis_struct_list_set_maxsize, sis_list.c:238-245 *)
Definition sl_set_maxsize (l : slist) (n : nat) : slist :=
  if Nat.ltb n (length (lbuf l)) then l else sl_set_size l n.

(** sis_struct_list_set, sis_list.c:247-259 (whole elements) *)
Definition sl_set (l : slist) (xs : list A) : option (slist * Z) :=
  match xs with
  | [] => Some (l, 0)
  | _ => let l1 := sl_set_size l (length xs) in
         match aput (lbuf l1) 0 xs with
         | Some b => Some (mksl b 0 (length xs) (lnew l1), Z.of_nat (length xs)) | None => None end
  end.

Definition sl_step (l : slist) (op : slop A) : option (slist * lres A) :=
  let int r := match r with Some (l', z) => Some (l', RInt z) | None => None end in
  let unit r := match r with Some l' => Some (l', RUnit) | None => None end in
  match op with
  | LPushs xs => int (sl_pushs l xs)
  | LUpdate i x => int (sl_update l i x)
  | LInserts i xs => int (sl_inserts l i xs)
  | LDelete s c => int (sl_delete l s c)
  | LPop => match sl_pop l with Some (l', o) => Some (l', RElem o) | None => None end
  | LClear => Some (sl_clear l, RUnit)
  | LLimit n => Some (sl_limit l n, RUnit)
  | LRect n => unit (sl_rect l n)
  | LPack => match sl_pack l with Some l' => Some (l', RInt (Z.of_nat (lcount l'))) | None => None end
  | LSet xs => int (sl_set l xs)
  | LGet i => match sl_get l i with Some o => Some (l, RElem o) | None => None end
  end.

Fixpoint sl_run (l : slist) (ops : list (slop A)) : option (slist * list (lres A)) :=
  match ops with
  | [] => Some (l, [])
  | op :: ops' =>
    match sl_step l op with
    | None => None
    | Some (l1, r) => match sl_run l1 ops' with Some (l2, rs) => Some (l2, r :: rs) | None => None end
    end
  end.

End Arrays.
Arguments slist : clear implicits.
