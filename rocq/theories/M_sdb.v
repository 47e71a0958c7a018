(** Model of the writing and reading of time series in data files: src/core/disk/sis_disk_write.c 329-392, 417-537, 562-599;
    sis_disk.io.sdb.c 26-65, 130-156; sis_disk_ctrl.c 3-30; sis_disk_read.c 357-376, 411-531, 671-724; sis_is_mixed, sis_math.h:191-209.

    One series (one key and one table) is followed; the time field is the first field of style S, T, M or D (sis_dynamic.c:184-191).
    A data file is what its index says about the series: a list of blocks, each with the times of its first and last record
    and its records.  Simplifications: the bytes of a block are read as they were written (C57); the index survives closing
    and opening; files of different days and years have different names; sis_is_mixed compares doubles, here whole numbers
    (exact below 2^53); the other series of the same file are left out. *)
From Verif Require Import Base M_time S_table M_table S_sdb.

Record block := mkblk { b_start : Z; b_stop : Z; b_recs : list srec }.
(** the index entries of the series in the file of a year and in the file of a day *)
Record store := mkst { s_year : Z -> list block; s_date : Z -> list block }.
Definition put (f : Z -> list block) (k : Z) (v : list block) : Z -> list block := fun i => if i =? k then v else f i.

(** sis_is_mixed, sis_math.h:191-209; a gap of more than 0.001 *)
Definition is_mixed (min1 max1 min2 max2 : Z) : bool :=
  if (min1 =? max2) || (min2 =? max1) then true
  else if (min1 >? max2) || (min2 >? max1) then false
  else Z.min max1 max2 - Z.max min1 min2 >? 0.
(** sis_disk_io_merge_sdb, sis_disk.io.sdb.c:39-65 *)
Definition merge (start stop : Z) (l : list block) : list block :=
  if ((start =? 0) && (stop =? 0)) || (start >? stop) then []
  else filter (fun b => negb (is_mixed start stop (b_start b) (b_stop b))) l.
Definition first_time (l : list srec) : Z := hd 0 (map fst l).
Definition last_time (l : list srec) : Z := last (map fst l) 0.
(** sis_disk_io_write_sdb, 130-156, and sis_disk_io_write_sdb_work, 26-36 *)
Definition write_block (l : list block) (recs : list srec) : list block :=
  merge (first_time recs) (last_time recs) l ++ [mkblk (first_time recs) (last_time recs) recs].

(** sis_time_unit_convert(style, SIS_DYNAMIC_TYPE_DATE, v); the argument of sis_time_get_idate is a signed number *)
Definition to_date (now zone k v : Z) : Z :=
  time_convert (fun s => get_idate now zone (to_s 64 s)) (fun d => make_time zone d 235959) k K_DATE v.
(** the date of a record after the first, write.c:451-452 and 508-509: the time passes through an int *)
Definition curr_date (now zone k t : Z) : Z := to_s 32 (to_date now zone k (to_u 64 (to_s 32 t))).
(** the loop 449-470 (506-527): runs of records of one year (one day); [cur] are the records since nowidx *)
Fixpoint runs (same : Z -> Z -> bool) (conv : Z -> Z) (nowday : Z) (cur l : list srec) : list (Z * list srec) :=
  match l with
  | [] => [(nowday, cur)]
  | r :: l' => let curr := conv (fst r) in
               if same curr nowday then runs same conv nowday (cur ++ [r]) l'
               else (nowday, cur) :: runs same conv curr [r] l'
  end.
(** _disk_writer_is_year, 329-338 *)
Definition is_year (a b : Z) : bool := Z.quot (to_s 32 a) 10000 =? Z.quot (to_s 32 b) 10000.
(** sis_disk_writer_sdb_year, 423-480, and _disk_writer_get_year, 339-366: the file is that of nyear; [r], the first record *)
Definition split_year (now zone k : Z) (r : srec) (l : list srec) : list (Z * list srec) :=
  let start := to_date now zone k (first_time (r :: l)) in
  let stop := to_date now zone k (last_time (r :: l)) in
  map (fun '(d, x) => (Z.quot d 10000, x))
    (if is_year start stop then [(to_s 32 start, r :: l)]
     else runs is_year (curr_date now zone k) (to_s 32 start) [r] l).
(** sis_disk_writer_sdb_date, 481-537, and _disk_writer_get_date, 367-392 *)
Definition split_date (now zone k : Z) (r : srec) (l : list srec) : list (Z * list srec) :=
  let start := to_date now zone k (first_time (r :: l)) in
  let stop := to_date now zone k (last_time (r :: l)) in
  if start =? stop then [(to_s 32 start, r :: l)]
  else runs Z.eqb (curr_date now zone k) (to_s 32 start) [r] l.
Definition put_all (f : Z -> list block) (l : list (Z * list srec)) : Z -> list block :=
  fold_left (fun f '(d, x) => put f d (write_block (f d) x)) l f.
(** sis_disk_writer_sdb, 562-599, with sis_disk_get_sdb_scale, sis_disk_ctrl.c:15-30: None, a record before the first is read *)
Definition write (now zone k : Z) (s : store) (batch : list srec) : option store :=
  match batch with
  | [] => None
  | r :: l => if k =? K_DATE then Some (mkst (put_all (s_year s) (split_year now zone k r l)) (s_date s))
              else Some (mkst (s_year s) (put_all (s_date s) (split_date now zone k r l)))
  end.
Fixpoint write_batches (now zone k : Z) (s : store) (bs : list (list srec)) : option store :=
  match bs with
  | [] => Some s
  | b :: bs' => match write now zone k s b with Some s' => write_batches now zone k s' bs' | None => None end
  end.
Definition nothing : store := mkst (fun _ => []) (fun _ => []).

(** sis_disk_set_search_msec, sis_disk_ctrl.c:3-14 *)
Definition search_start (now zone s : Z) : Z := if s =? 0 then make_time zone (get_idate now zone 0) 0 * 1000 else s.
Definition search_stop (now zone e : Z) : Z := if e =? 0 then make_time zone (get_idate now zone 0) 235959 * 1000 + 999 else e.
(** the loop over the years, sis_disk_read.c:413-447 *)
Fixpoint year_blocks (fuel : nat) (f : Z -> list block) (y stop : Z) : option (list block) :=
  if stop <? y then Some []
  else match fuel with
       | O => None
       | S fuel' => match year_blocks fuel' f (y + 1) stop with Some r => Some (f y ++ r) | None => None end
       end.
(** the loop over the days, 457-483 *)
Fixpoint day_blocks (fuel : nat) (now zone : Z) (f : Z -> list block) (open stop : Z) : option (list block) :=
  if stop <? open then Some []
  else match fuel with
       | O => None
       | S fuel' => match day_blocks fuel' now zone f (next_work_day now zone open 1) stop with
                    | Some r => Some (f open ++ r)
                    | None => None
                    end
       end.
(** _disk_reader_get_sdb_obj, 671-724, with sis_disk_reader_make_sdb, 486-531: the files without time hold nothing of the
    series; a range [s..e] in milliseconds; None, not enough fuel; Some None, the function returns NULL *)
Definition get_obj (fuel : nat) (now zone : Z) (st : store) (s e : Z) : option (option (list srec)) :=
  let d0 := get_idate now zone (search_start now zone s / 1000) in
  let d1 := get_idate now zone (search_stop now zone e / 1000) in
  match year_blocks fuel (s_year st) (Z.quot d0 10000) (Z.quot d1 10000) with
  | None => None
  | Some (b :: l) => Some (some_of (concat (map b_recs (b :: l))))
  | Some [] => match day_blocks fuel now zone (s_date st) d0 d1 with
               | None => None
               | Some l => Some (some_of (concat (map b_recs l)))
               end
  end.
