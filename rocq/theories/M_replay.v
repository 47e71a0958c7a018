(** Model of the replay of several stored series in one stream: src/core/sis_db.c 234-241, 296-374, 420-539 and src/core/disk/sis_disk_read.c
    920-1012.

    The reader has selected its series (sis_disk_reader_make_sdb) and knows the blocks of each, over all files; they are read
    as they were written (C57, C62).  Simplifications: the two chunked lists of a unit (records and their times) are one list
    of pairs (they are only pushed, read at 0 and popped when not empty; for such histories C13 proves that they are queues,
    see C68_queues); the lookups of units and tables by name find the right one; nobody cancels the subscription
    (status_sub, work_status); a record has the size that the table says. *)
From Verif Require Import Base M_time S_time S_table M_table S_sdb S_replay.

(** s_sis_subdb_unit, sis_db.h:82-88: the pending records with their converted times; [u_more] are the blocks that the reader
    has not read yet (unit_cursor and kidx_cursor of s_sis_disk_reader_sub) *)
Record sunit := mkun { u_unit : option unit_of_time; u_q : list (Z * srec); u_more : list (list srec) }.

Section Replay.
Variables now zone : Z.

(** cur_scale after sis_subdb_cxt_set_sdbs, sis_db.c:296-307, for the tables of all series: the greatest style *)
Definition scale_of (l : list series) : Z :=
  fold_left (fun c s => match s_unit s with Some u => Z.max (kind_of u) c | None => c end) l 0.

Variable scale : Z.
(** the sort key of a record, sis_db.c:356-361: 0 without a time field *)
Definition vmsec (u : option unit_of_time) (r : srec) : Z :=
  match u with
  | None => 0
  | Some u => time_convert (fun s => get_idate now zone (to_s 64 s)) (fun d => make_time zone d 235959) (kind_of u) scale (fst r)
  end.
(** _subdb_cxt_set_msec, sis_db.c:318-324 *)
Definition set_msec (v msec sums : Z) : Z := if (v <? msec) || (sums =? 0) then v else msec.
(** sis_subdb_cxt_push_sdbs, sis_db.c:348-371: new_msec is looked at while the unit is empty, new_sums (uint32) is raised
    after the loop *)
Definition push (u : sunit) (msec sums : Z) (b : list srec) : sunit * Z * Z :=
  (mkun (u_unit u) (u_q u ++ map (fun r => (vmsec (u_unit u) r, r)) b) (u_more u),
   match u_q u, b with [], r :: _ => set_msec (vmsec (u_unit u) r) msec sums | _, _ => msec end,
   to_u 32 (sums + Z.of_nat (length b))).

(** the loop over the records of a unit, sis_db.c:430-456; None, a pop from an empty list.  Result: the records sent, those
    that stay, new_sums, and the time that ended the loop *)
Fixpoint drain (nums : nat) (curr : Z) (q : list (Z * srec)) (sums : Z) : option (list srec * list (Z * srec) * Z * option Z) :=
  match nums with
  | O => Some ([], q, sums, None)
  | S n =>
    match q with
    | [] => None
    | (v, r) :: q' =>
      if v <=? curr then
        match drain n curr q' (to_u 32 (sums - 1)) with
        | Some (o, q2, s2, x) => Some (r :: o, q2, s2, x)
        | None => None
        end
      else Some ([], q, sums, Some v)
    end
  end.
(** next_msec, sis_db.c:449-453; None, next_nums is 0 *)
Definition take_next (x next : option Z) : option Z :=
  match x with
  | None => next
  | Some v => match next with None => Some v | Some n => if v <? n then Some v else next end
  end.
(** cb_key_stop of the reader, sis_disk_read.c:935-958: the next block, if there is one *)
Definition refill (u : sunit) (msec sums : Z) : sunit * Z * Z :=
  match u_more u with
  | [] => (u, msec, sums)
  | b :: more => push (mkun (u_unit u) (u_q u) more) msec sums b
  end.
(** one unit, sis_db.c:428-468 *)
Definition visit (i : nat) (curr : Z) (u : sunit) (msec sums : Z) : option (sunit * Z * Z * option Z * list event) :=
  let nums := length (u_q u) in
  match drain nums curr (u_q u) sums with
  | None => None
  | Some (o, q, sums1, x) =>
    let u1 := mkun (u_unit u) q (u_more u) in
    let out := map (Rec i) o in
    if Nat.ltb 0 nums && Nat.ltb (length q) 1
    then let '(u2, msec2, sums2) := refill u1 msec sums1 in Some (u2, msec2, sums2, x, out ++ [Used i])
    else Some (u1, msec, sums1, x, out)
  end.
(** the loop over the units, sis_db.c:426-469 *)
Fixpoint scan (i : nat) (curr : Z) (us : list sunit) (msec sums : Z) (next : option Z)
  : option (list sunit * Z * Z * option Z * list event) :=
  match us with
  | [] => Some ([], msec, sums, next, [])
  | u :: us' =>
    match visit i curr u msec sums with
    | None => None
    | Some (u1, msec1, sums1, x, out) =>
      match scan (S i) curr us' msec1 sums1 (take_next x next) with
      | None => None
      | Some (us2, msec2, sums2, next2, out2) => Some (u1 :: us2, msec2, sums2, next2, out ++ out2)
      end
    end
  end.
(** s_sis_subdb_cxt, sis_db.h:95-118 *)
Record cxt := mkcx { c_units : list sunit; c_msec : Z; c_sums : Z }.
(** _subdb_cxt_sub_data, sis_db.c:420-485; the flag is the result 1 *)
Definition round (c : cxt) : option (cxt * list event * bool) :=
  let curr := c_msec c in
  match scan 0 curr (c_units c) (c_msec c) (c_sums c) None with
  | None => None
  | Some (us, msec, sums, next, out) =>
    if sums =? 0 then Some (mkcx us msec sums, out, true)
    else Some (mkcx us (if curr =? msec then match next with Some n => n | None => 0 end else msec) sums, out, false)
  end.
(** _thread_subdb_cxt_sub, sis_db.c:487-514, called by sis_subdb_cxt_sub_start *)
Fixpoint rounds (fuel : nat) (c : cxt) : option (list event) :=
  match fuel with
  | O => None
  | S fuel' =>
    match round c with
    | None => None
    | Some (_, out, true) => Some (out ++ [Over])
    | Some (c', out, false) => match rounds fuel' c' with Some out2 => Some (out ++ out2) | None => None end
    end
  end.
End Replay.

(** the second loop of _disk_reader_sub_work, sis_disk_read.c:997-1010: the first block of each series; None, a series without
    blocks (a null pointer is used) *)
Fixpoint load (now zone scale : Z) (l : list series) (msec sums : Z) : option (list sunit * Z * Z) :=
  match l with
  | [] => Some ([], msec, sums)
  | s :: l' =>
    match s_blocks s with
    | [] => None
    | b :: more =>
      let '(u, msec1, sums1) := push now zone scale (mkun (s_unit s) [] more) msec sums b in
      match load now zone scale l' msec1 sums1 with Some (us, m, n) => Some (u :: us, m, n) | None => None end
    end
  end.
(** _disk_reader_sub_work, sis_disk_read.c:980-1012 *)
Definition replay (fuel : nat) (now zone : Z) (l : list series) : option (list event) :=
  let scale := scale_of l in
  match load now zone scale l 0 0 with
  | None => None
  | Some (us, msec, sums) =>
    match rounds now zone scale fuel (mkcx us msec sums) with Some out => Some (Begin :: out) | None => None end
  end.
