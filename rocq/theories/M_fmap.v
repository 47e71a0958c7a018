(** Model of the ordered series of sisdb: workers/sisdb/sisdb_fmap_ctrl.c, sisdb_fmap_write.c,
    sisdb_fmap.c, for a unit of style SDB (records with a time field, ordered by it).

    A record is of any type [R]; [mi] is its time (_sis_field_get_uint of field_mindex,
    src/core/sis_dynamic.h:155-187, through sis_dynamic_db_get_mindex, sis_dynamic.c:319-326),
    [sign] the number of its block (the day, or the year: sisdb_fmap_unit_get_start,
    sisdb_fmap_ctrl.c:150-160, and the first line of the index functions), [same] equality of the
    unique fields (the memcmp loop, sisdb_fmap_write.c:286-294).  The struct list holding the records
    is a list (its own code is modelled in M_lists.v).  Counts and indices do not overflow an int.
    Loading blocks from disk is left out: the theorems start from an arbitrary unit. *)
From Verif Require Import Base S_fmap.

Section Fmap.
Context {R : Type}.
Variable mi : R -> Z.
Variable sign : R -> Z.
Variable same : R -> R -> bool.
(** (int)((curr_ - start) / step) of sisdb_fmap_unit_goto: a quotient of doubles; any value *)
Variable quot : Z -> Z -> Z.

(** s_sisdb_fmap_idx, sisdb_fmap.h:37-46 *)
Record fidx := mkfidx { fx_sign : Z; fx_start : Z; fx_count : Z; fx_moved : bool; fx_writed : bool }.

(** s_sisdb_fmap_unit, sisdb_fmap.h:49-71; step is a double holding the integer of reidx *)
Record funit := mkfunit { fu_recs : list R; fu_idx : list fidx; fu_start : Z; fu_stop : Z; fu_step : Z }.

Definition count (l : list R) : Z := Z.of_nat (length l).

(** sis_dynamic_db_get_mindex(db, index, first, n records), sis_dynamic.c:319-326: 0 beyond the length given *)
Definition mindex_of (l : list R) (n index : Z) : Z :=
  if (index + 1 >? n) || (n =? 0) then 0
  else match nth_error l (Z.to_nat index) with Some x => mi x | None => 0 end.

(** sisdb_fmap_unit_get_mindex, sisdb_fmap_ctrl.c:144-149 *)
Definition mindex (l : list R) (index : Z) : Z := mindex_of l (count l) index.

(** sisdb_fmap_unit_reidx, sisdb_fmap_ctrl.c:129-143 (the sdb has a field_mindex) *)
Definition reidx (u : funit) : funit :=
  let l := fu_recs u in
  let start := mindex l 0 in
  let stop := mindex l (count l - 1) in
  mkfunit l (fu_idx u) start stop (if 0 <? count l then to_u 64 (stop - start) / count l else 0).

(** sisdb_fmap_unit_goto, sisdb_fmap_ctrl.c:183-209 *)
Definition goto (u : funit) (l : list R) (curr : Z) : Z :=
  if count l <? 1 then -1
  else if curr <=? fu_start u then 0
  else if fu_stop u <=? curr then count l - 1
  else
    let index := if 1 <? fu_step u then quot (curr - fu_start u) (fu_step u) else 0 in
    if index >? count l - 1 then count l - 1 else index.

(** the answer structure s_sisdb_fmap_cmp without ostart: oindex, ocount *)

(** the loop of _fmap_cmp_range_head, sisdb_fmap_ctrl.c:455-509; result: code, oindex *)
Definition FIND_OK := 0. Definition FIND_AGO := 1. Definition HEAD_NONE := -1. Definition TAIL_NONE := -2.

Fixpoint head_loop (fuel : nat) (l : list R) (m i dir ocount oindex : Z) : option (Z * Z) :=
  match fuel with
  | O => None
  | S f =>
    if (0 <=? i) && (i <? count l) then
      let ts := mindex l i in
      if ts <? m then
        if 0 <? ocount then Some (FIND_OK, oindex)
        else if dir =? -1 then Some (FIND_AGO, i)
        else head_loop f l m (i + 1) 1 ocount oindex
      else if ts >? m then
        if 0 <? ocount then Some (FIND_OK, oindex)
        else if dir =? 1 then Some (FIND_AGO, i - 1)
        else head_loop f l m (i - 1) (-1) ocount oindex
      else if dir =? 1 then Some (FIND_OK, i)
      else head_loop f l m (i - 1) (-1) (ocount + 1) i
    else Some (if 0 <? ocount then FIND_OK else if i <? 0 then HEAD_NONE else TAIL_NONE, oindex)
  end.

(** _fmap_cmp_range_head, sisdb_fmap_ctrl.c:447-510 *)
Definition range_head (u : funit) (l : list R) (m : Z) : option (Z * Z) :=
  head_loop (length l + 2) l m (goto u l m) 0 0 (-1).

(** _fmap_cmp_range_tail, sisdb_fmap_ctrl.c:512-574 *)
Fixpoint tail_loop (fuel : nat) (l : list R) (m i dir ocount oindex : Z) : option (Z * Z) :=
  match fuel with
  | O => None
  | S f =>
    if (0 <=? i) && (i <? count l) then
      let ts := mindex l i in
      if ts <? m then
        if 0 <? ocount then Some (FIND_OK, oindex)
        else if dir =? -1 then Some (FIND_AGO, i)
        else tail_loop f l m (i + 1) 1 ocount oindex
      else if ts >? m then
        if 0 <? ocount then Some (FIND_OK, oindex)
        else if dir =? 1 then Some (FIND_AGO, i - 1)
        else tail_loop f l m (i - 1) (-1) ocount oindex
      else if dir =? -1 then Some (FIND_OK, i)
      else tail_loop f l m (i + 1) 1 (ocount + 1) i
    else Some (if 0 <? ocount then FIND_OK else if i <? 0 then HEAD_NONE else TAIL_NONE, oindex)
  end.
Definition range_tail (u : funit) (l : list R) (m : Z) : option (Z * Z) :=
  tail_loop (length l + 2) l m (goto u l m) 0 0 (-1).

(** sisdb_fmap_cmp_range, sisdb_fmap_ctrl.c:594-663.  Outer None: out of fuel; inner None: -1 is
    returned; else oindex, ocount.  start and stop are int64, passed on as msec_t (unsigned). *)
Definition cmp_range (u : funit) (start stop : Z) (ifprev : bool) : option (option (Z * Z)) :=
  let l := fu_recs u in
  if count l <? 1 then Some None
  else
    let start := if start <=? -1 then to_s 64 (mindex l (Z.max 0 (count l + start))) else start in
    let stop := if stop <=? -1 then to_s 64 (mindex l (count l - 1)) else if stop =? 0 then start else stop in
    match range_head u l (to_u 64 start) with
    | None => None
    | Some (hcode, hidx) =>
      let head :=
        if hcode =? HEAD_NONE then Some 0
        else if hcode =? TAIL_NONE then (if ifprev then Some (count l - 1) else None)
        else if hcode =? FIND_AGO then Some (if ifprev then hidx else Z.min (hidx + 1) (count l - 1))
        else Some hidx in
      match head with
      | None => Some None
      | Some h =>
        match range_tail u l (to_u 64 stop) with
        | None => None
        | Some (tcode, tidx) =>
          if tcode =? HEAD_NONE then Some None
          else
            let t := if tcode =? TAIL_NONE then count l - 1 else tidx in
            if (h <? 0) || (t <? 0) || (h >? t) then Some None
            else Some (Some (h, t - h + 1))
        end
      end
    end.

(** the inner loop of cmp_same over the records after the first one found, sisdb_fmap_ctrl.c:367-375 *)
Fixpoint same_after (fuel : nat) (l : list R) (m k : Z) : Z :=
  match fuel with
  | O => 0
  | S f => if k <? count l then if mindex l k =? m then 1 + same_after f l m (k + 1) else 0 else 0
  end.

(** sisdb_fmap_cmp_same, sisdb_fmap_ctrl.c:314-408; result: return value, oindex, ocount *)
Fixpoint same_loop (fuel : nat) (l : list R) (m i dir ocount oindex : Z) : option (Z * Z * Z) :=
  match fuel with
  | O => None
  | S f =>
    if (0 <=? i) && (i <? count l) then
      let ts := mindex l i in
      if m >? ts then
        if 0 <? ocount then Some (ocount, oindex, ocount)
        else if dir =? -1 then Some (-1, i + 1, ocount)
        else same_loop f l m (i + 1) 1 ocount oindex
      else if m <? ts then
        if 0 <? ocount then Some (ocount, oindex, ocount)
        else if dir =? 1 then Some (-1, i, ocount)
        else same_loop f l m (i - 1) (-1) ocount oindex
      else if ocount =? 0 then
        if dir =? 0 then same_loop f l m (i - 1) (-1) (same_after (length l) l m (i + 1) + 1) i
        else same_loop f l m (i + dir) dir (ocount + 1) i
      else same_loop f l m (i + dir) dir (ocount + 1) (if dir =? -1 then i else oindex)
    else if 0 <? ocount then Some (ocount, oindex, ocount)
    else Some (-1, if i <? 0 then -1 else count l, ocount)
  end.
Definition cmp_same (u : funit) (m : Z) : option (Z * Z * Z) :=
  let l := fu_recs u in
  let index := goto u l m in
  if index <? 0 then Some (-1, count l, 0) else same_loop (length l + 2) l m index 0 0 (-1).

(** the loop of sisdb_fmap_offset_prev, sisdb_fmap_ctrl.c:420-428; [n] turns *)
Fixpoint back (n : nat) (oindex ocount : Z) : Z * Z :=
  match n with
  | O => (oindex, ocount)
  | S n' => if oindex =? 0 then (oindex, ocount) else back n' (oindex - 1) (ocount + 1)
  end.

(** sisdb_fmap_offset_prev, sisdb_fmap_ctrl.c:411-438 (count_ = 1), and sisdb_fmap_cmp_where, :575-592.
    Inner None: a negative value is returned; else oindex, ocount. *)
Definition cmp_where (u : funit) (start offset : Z) : option (option (Z * Z)) :=
  match cmp_same u start with
  | None => None
  | Some (nums, oindex, ocount) =>
    if offset =? 0 then Some (if nums <? 0 then None else Some (oindex, ocount))
    else if offset <? 0 then
      if (oindex <? 0) || (oindex <? - offset) then Some None
      else let '(oi, oc) := back (Z.to_nat (- offset)) oindex ocount in Some (Some (oi, Z.min oc 1))
    else Some None
  end.

(** the scans of find_head and find_tail over equal times, sisdb_fmap_ctrl.c:247-255 and :297-305 *)
Fixpoint scan_back (fuel : nat) (l : list R) (m k : Z) : Z :=
  match fuel with
  | O => 0
  | S f => if 0 <=? k then if mindex l k =? m then scan_back f l m (k - 1) else k + 1 else 0
  end.
Fixpoint scan_fwd (fuel : nat) (l : list R) (m k : Z) : Z :=
  match fuel with
  | O => count l
  | S f => if k <? count l then if mindex l k =? m then scan_fwd f l m (k + 1) else k - 1 else count l
  end.

(** the common loop of sisdb_fmap_cmp_find_head and _find_tail, sisdb_fmap_ctrl.c:224-258 and :274-308;
    [scan] is what is done with an equal time *)
Fixpoint find_loop (fuel : nat) (scan : Z -> Z) (l : list R) (m i dir : Z) : option Z :=
  match fuel with
  | O => None
  | S f =>
    if (0 <=? i) && (i <? count l) then
      let ts := mindex l i in
      if m >? ts then if dir =? -1 then Some (i + 1) else find_loop f scan l m (i + 1) 1
      else if m <? ts then if dir =? 1 then Some i else find_loop f scan l m (i - 1) (-1)
      else Some (scan i)
    else Some (if 0 <? dir then count l else -1)
  end.
(** sisdb_fmap_cmp_find_head, sisdb_fmap_ctrl.c:214-259 *)
Definition find_head (u : funit) (l : list R) (m : Z) : option Z :=
  let index := goto u l m in
  if index <? 0 then Some (count l)
  else find_loop (length l + 2) (scan_back (length l + 1) l m) l m index 0.
(** sisdb_fmap_cmp_find_tail, sisdb_fmap_ctrl.c:264-309 *)
Definition find_tail (u : funit) (l : list R) (m : Z) : option Z :=
  let index := goto u l m in
  if index <? 0 then Some (count l)
  else find_loop (length l + 2) (scan_fwd (length l + 1) l m) l m index 0.

(** sis_struct_list_insert, src/core/sis_list.c:130-149 *)
Definition insert_at (l : list R) (i : Z) (x : R) : list R :=
  if (count l <? 1) || (i >? count l - 1) then l ++ [x]
  else let n := Z.to_nat (Z.max 0 i) in firstn n l ++ x :: skipn n l.

(** sisdb_fmap_cxt_mindex_update, one turn of the loop, sisdb_fmap_write.c:353-391: the list and tail_idx.
    The time of the record found is read with the length of one record (:373). *)
Definition mindex_one (u : funit) (l : list R) (tail : Z) (x : R) : option (list R * Z) :=
  let curr := mi x in
  if curr >=? tail then Some (l ++ [x], curr)
  else
    match find_tail u l curr with
    | None => None
    | Some o =>
      if o >=? count l then Some (l ++ [x], curr)
      else if o <? 0 then Some (insert_at l 0 x, tail)
      else if mindex_of l 1 o =? curr then
        if o + 1 >=? count l then Some (l ++ [x], curr) else Some (insert_at l (o + 1) x, tail)
      else Some (insert_at l o x, tail)
    end.

(** sisdb_fmap_unit_add_idx, sisdb_fmap_write.c:9-63: the index and the value returned.  A new entry
    before [f] leaves the start of [f] as it is: i is advanced twice (:43 and :15). *)
Fixpoint add_scan (s : Z) (n : Z) (i : Z) (idx : list fidx) : list fidx * Z * bool :=
  match idx with
  | [] => ([], n, false)
  | f :: r =>
    if s =? fx_sign f then
      (mkfidx (fx_sign f) (fx_start f) (fx_count f + 1) false true
         :: map (fun g => mkfidx (fx_sign g) (fx_start g + 1) (fx_count g) (fx_moved g) (fx_writed g)) r, i, true)
    else if s <? fx_sign f then
      (mkfidx s n 1 false true
         :: f :: map (fun g => mkfidx (fx_sign g) (fx_start g + 1) (fx_count g) (fx_moved g) (fx_writed g)) r, i, true)
    else
      let '(r', k, found) := add_scan s (n + fx_count f) (i + 1) r in (f :: r', k, found)
  end.
Definition add_idx (idx : list fidx) (startidx s : Z) : list fidx * Z :=
  let n := Z.of_nat (length idx) in
  let start := if (startidx <? 0) || (startidx >=? n) then 0 else startidx in
  let pre := firstn (Z.to_nat start) idx in
  let '(r, k, found) := add_scan s 0 start (skipn (Z.to_nat start) idx) in
  if found then (pre ++ r, k) else (pre ++ r ++ [mkfidx s k 1 false true], n).

(** sisdb_fmap_unit_set_idx, sisdb_fmap_write.c:65-92 *)
Fixpoint set_scan (s : Z) (i : Z) (idx : list fidx) : list fidx * option Z :=
  match idx with
  | [] => ([], None)
  | f :: r =>
    if s =? fx_sign f then (mkfidx (fx_sign f) (fx_start f) (fx_count f) false true :: r, Some i)
    else let '(r', k) := set_scan s (i + 1) r in (f :: r', k)
  end.
Definition set_idx (idx : list fidx) (startidx s : Z) : list fidx * Z :=
  let n := Z.of_nat (length idx) in
  let start := if (startidx <? 0) || (startidx >=? n) then 0 else startidx in
  if n =? 0 then ([mkfidx s 0 1 false true], 0)
  else
    let '(r, k) := set_scan s start (skipn (Z.to_nat start) idx) in
    (firstn (Z.to_nat start) idx ++ r, match k with Some k => k | None => startidx end).

(** sisdb_fmap_unit_del_idx, sisdb_fmap_write.c:94-132 *)
Fixpoint del_idx (idx : list fidx) (index cnt nums : Z) : list fidx :=
  match idx with
  | [] => []
  | f :: r =>
    if (index =? 0) && (cnt =? 0) then
      mkfidx (fx_sign f) (fx_start f - nums) (fx_count f) (fx_moved f) (fx_writed f) :: del_idx r index cnt nums
    else if index >=? fx_count f then f :: del_idx r (index - fx_count f) cnt nums
    else if fx_count f - index >=? cnt then
      let c := fx_count f - cnt in
      mkfidx (fx_sign f) (if c =? 0 then 0 else fx_start f) c (if c =? 0 then true else fx_moved f) true
        :: del_idx r 0 0 (nums + cnt)
    else
      let c := fx_count f - (fx_count f - index) in
      mkfidx (fx_sign f) (if c =? 0 then 0 else fx_start f) c (if c =? 0 then true else fx_moved f) true
        :: del_idx r 0 (cnt - (c - index)) (nums + (fx_count f - index))
  end.

(** sisdb_fmap_cxt_mindex_update, sisdb_fmap_write.c:344-397: list, index *)
Fixpoint mindex_loop (u : funit) (l : list R) (idx : list fidx) (tail k : Z) (batch : list R) : option (list R * list fidx) :=
  match batch with
  | [] => Some (l, idx)
  | x :: r =>
    match mindex_one u l tail x with
    | None => None
    | Some (l', tail') => let '(idx', k') := add_idx idx k (sign x) in mindex_loop u l' idx' tail' k' r
    end
  end.
Definition mindex_update (u : funit) (batch : list R) : option (list R * list fidx) :=
  mindex_loop u (fu_recs u) (fu_idx u) (mindex (fu_recs u) (count (fu_recs u) - 1)) (-1) batch.

(** _fmap_cxt_vlist_add, sisdb_fmap_write.c:203-220 *)
Definition vlist_add (l : list R) (x : R) (i : Z) : list R :=
  if i <? 0 then insert_at l 0 x else if i >=? count l then l ++ [x] else insert_at l i x.

(** sis_struct_list_update at an index in range *)
Definition set_at (l : list R) (i : Z) (x : R) : list R := firstn (Z.to_nat i) l ++ x :: skipn (Z.to_nat i + 1) l.

(** the loop of _fmap_unit_solely_update, sisdb_fmap_write.c:275-304: list; true if a record was added *)
Fixpoint solely_loop (fuel : nat) (l : list R) (x : R) (i index m : Z) : list R * bool :=
  match fuel with
  | O => (vlist_add l x (index + 1), true)
  | S f =>
    if 0 <=? i then
      match nth_error l (Z.to_nat i) with
      | None => (vlist_add l x (index + 1), true)
      | Some v =>
        if mi v <? m then (vlist_add l x index, true)
        else if same x v then (set_at l i x, false)
        else solely_loop f l x (i - 1) index m
      end
    else (vlist_add l x (index + 1), true)
  end.
(** _fmap_unit_solely_update, sisdb_fmap_write.c:256-305 *)
Definition solely_one (l : list R) (x : R) (index m : Z) : list R * bool :=
  if index <? 0 then (vlist_add l x (-1), true)
  else solely_loop (length l) l x (Z.min index (count l - 1)) index m.

(** sisdb_fmap_cxt_solely_update, sisdb_fmap_write.c:307-342 (with a field_mindex); also the count of added records *)
Fixpoint solely_upd (u : funit) (l : list R) (idx : list fidx) (k : Z) (batch : list R) : option (list R * list fidx * Z) :=
  match batch with
  | [] => Some (l, idx, 0)
  | x :: r =>
    match find_tail u l (mi x) with
    | None => None
    | Some o =>
      let '(l', added) := solely_one l x o (mi x) in
      let '(idx', k') := if added then add_idx idx k (sign x) else set_idx idx k (sign x) in
      match solely_upd u l' idx' k' r with
      | None => None
      | Some (l'', idx'', n) => Some (l'', idx'', n + (if added then 1 else 0))
      end
    end
  end.

(** sisdb_fmap_cxt_update for a unit of style SDB, sisdb_fmap.c:480-512; [unique]: field_solely->count > 0.
    The first batch goes into the list as it is. *)
Definition update (unique : bool) (u : funit) (batch : list R) : option funit :=
  let l := fu_recs u in
  if count l <? 1 then
    let u' := mkfunit (l ++ batch) (fu_idx u) (fu_start u) (fu_stop u) (fu_step u) in
    Some (if 0 <? count batch then reidx u' else u')
  else if unique then
    match solely_upd u l (fu_idx u) (-1) batch with
    | None => None
    | Some (l', idx', n) =>
      let u' := mkfunit l' idx' (fu_start u) (fu_stop u) (fu_step u) in Some (if 0 <? n then reidx u' else u')
    end
  else
    match mindex_update u batch with
    | None => None
    | Some (l', idx') =>
      let u' := mkfunit l' idx' (fu_start u) (fu_stop u) (fu_step u) in Some (if 0 <? count batch then reidx u' else u')
    end.

(** sisdb_fmap_cxt_tsdb_del, sisdb_fmap_write.c:153-183 *)
Definition del (range : bool) (u : funit) (start stop : Z) : option funit :=
  match (if range then cmp_range u start stop false else cmp_where u start 0) with
  | None => None
  | Some None => Some u
  | Some (Some (i, n)) =>
    if (0 <? n) && (0 <=? i) then
      let l := fu_recs u in
      Some (reidx (mkfunit (firstn (Z.to_nat i) l ++ skipn (Z.to_nat (i + n)) l)
                     (del_idx (fu_idx u) i n 0) (fu_start u) (fu_stop u) (fu_step u)))
    else Some u
  end.

(** sisdb_fmap_unit_move_idx and sisdb_fmap_cxt_tsdb_remove, sisdb_fmap_write.c:135-146 and :189-196 *)
Definition remove (u : funit) : funit :=
  mkfunit [] (map (fun f => mkfidx (fx_sign f) 0 0 true true) (fu_idx u)) (fu_start u) (fu_stop u) (fu_step u).

(** _disk_save_fmap_sdb, sisdb_fmap_write.c:399-428: the calls to the writer and the unit after it *)
Definition save_calls (u : funit) : list (dcall R) :=
  flat_map (fun f =>
    if fx_writed f then
      if fx_moved f then [Erased (fx_sign f)]
      else if 0 <? count (fu_recs u) then [Stored (fu_recs u)] else []
    else []) (fu_idx u).
Definition save (u : funit) : list (dcall R) * funit :=
  (save_calls u,
   mkfunit (fu_recs u)
     (map (fun f => if fx_writed f && negb (fx_moved f)
                    then mkfidx (fx_sign f) (fx_start f) (fx_count f) (fx_moved f) false else f) (fu_idx u))
     (fu_start u) (fu_stop u) (fu_step u)).

(** the records part of _fmap_cxt_getdata_from_disk, sisdb_fmap_read.c:79-106: a block read from the
    disk goes in before the first record not earlier than [search], the start of the day or year *)
Definition load (u : funit) (block : list R) (search : Z) : option (list R) :=
  let l := fu_recs u in
  match find_head u l search with
  | None => None
  | Some o =>
    if o >=? count l then Some (l ++ block)
    else let n := Z.to_nat (Z.max 0 o) in Some (firstn n l ++ block ++ skipn n l)
  end.

(** a history of write batches and saves; the calls made to the writer *)
Inductive fop := Batch (b : list R) | Save.
Fixpoint frun (unique : bool) (u : funit) (ops : list fop) : option (list (dcall R) * funit) :=
  match ops with
  | [] => Some ([], u)
  | Batch b :: r => match update unique u b with Some u' => frun unique u' r | None => None end
  | Save :: r => let '(c, u') := save u in
                 match frun unique u' r with Some (c', u'') => Some (c ++ c', u'') | None => None end
  end.

(** sisdb_fmap_unit_clear, sisdb_fmap_ctrl.c:92-127, default case *)
Definition clear : funit := mkfunit [] [] 0 0 0.
(** sisdb_fmap_unit_create, sisdb_fmap_ctrl.c:12-58, default case (SIS_MALLOC clears the memory) *)
Definition create : funit := mkfunit [] [] 0 0 0.
End Fmap.
Arguments mkfunit {R}. Arguments fu_recs {R}. Arguments fu_idx {R}. Arguments fu_start {R}. Arguments fu_stop {R}. Arguments fu_step {R}.
Arguments Batch {R}. Arguments Save {R}.
