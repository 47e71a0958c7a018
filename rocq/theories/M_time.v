(** Model of the calendar functions of src/core/sis_time.c.

    Simplifications: mktime and localtime_r of the C library are those of a time zone with a fixed
    offset [zone] (in seconds, no daylight saving), computed as below; time_t is unbounded; the
    numbers yyyymmdd do not overflow (years below 200000).  [now] is the present time. *)
From Verif Require Import Base.

(** days from 1970-01-01 to the first of January of year [y] *)
Definition leaps (y : Z) : Z := y / 4 - y / 100 + y / 400.
Definition year_start (y : Z) : Z := 365 * (y - 1970) + (leaps (y - 1) - leaps 1969).
(** days in the year before month [m] = 1..12 *)
Definition month_start (y m : Z) : Z :=
  nth (Z.to_nat (m - 1)) [0; 31; 59; 90; 120; 151; 181; 212; 243; 273; 304; 334] 0
  + (if (2 <? m) && (y mod 4 =? 0) && (negb (y mod 100 =? 0) || (y mod 400 =? 0)) then 1 else 0).
(** mktime: months outside the year are carried, days and hours just count *)
Definition day_number (y m d : Z) : Z :=
  let y' := y + (m - 1) / 12 in let m' := (m - 1) mod 12 + 1 in
  year_start y' + month_start y' m' + (d - 1).
Definition mktime (zone y m d hh mm ss : Z) : Z := ((day_number y m d * 24 + hh) * 60 + mm) * 60 + ss - zone.
(** localtime_r: year, month, day (the time of day is not used here) *)
Definition civil (n : Z) : Z * Z * Z :=
  let z := n + 719468 in
  let era := z / 146097 in
  let doe := z mod 146097 in
  let yoe := (doe - doe / 1460 + doe / 36524 - doe / 146096) / 365 in
  let doy := doe - (365 * yoe + yoe / 4 - yoe / 100) in
  let mp := (5 * doy + 2) / 153 in
  let d := doy - (153 * mp + 2) / 5 + 1 in
  let m := if mp <? 10 then mp + 3 else mp - 9 in
  (yoe + era * 400 + (if m <=? 2 then 1 else 0), m, d).
Definition local_day (zone t : Z) : Z := (t + zone) / 86400.
(** tm_wday *)
Definition local_wday (zone t : Z) : Z := (local_day zone t + 4) mod 7.

(** sis_time_check, src/os/linux/os_time.c:32-43 *)
Definition time_check (now t : Z) : Z := if t =? 0 then now else t.
(** sis_time_get_idate, sis_time.c:18-23 *)
Definition get_idate (now zone t : Z) : Z :=
  let '(y, m, d) := civil (local_day zone (time_check now t)) in y * 10000 + m * 100 + d.
(** sis_time_make_time, sis_time.c:153-166; C division truncates *)
Definition make_time (zone tdate ttime : Z) : Z :=
  mktime zone (Z.quot tdate 10000) (Z.quot (Z.rem tdate 10000) 100) (Z.rem tdate 100)
         (Z.quot ttime 10000) (Z.quot (Z.rem ttime 10000) 100) (Z.rem ttime 100).
(** sis_time_get_week_ofday, sis_time.c:183-198 *)
Definition week_ofday (now zone today : Z) : Z :=
  if today =? 0 then local_wday zone now else local_wday zone (make_time zone today 0).
(** sis_time_get_offset_day, sis_time.c:222-227 *)
Definition get_offset_day (now zone today offset : Z) : Z :=
  get_idate now zone (make_time zone today 0 + to_s 32 (offset * 24 * 3600)).
(** sis_time_get_dayoffset_ofday, sis_time.c:215-221; C division truncates *)
Definition dayoffset_ofday (zone tstart tend : Z) : Z :=
  to_s 32 (Z.quot (make_time zone tend 0 - make_time zone tstart 0) (24 * 3600)).
(** sis_time_next_work_day, sis_time.c:228-239: on a Saturday or Sunday the function calls itself
    (237) and drops the result; the call changes nothing, here it is not made *)
Definition next_work_day (now zone today offset : Z) : Z :=
  get_idate now zone (make_time zone today 0 + to_s 32 (offset * (24 * 3600))).
