(** Model of data files made of blocks: src/core/disk/sis_disk_files.c, with the types of
    sis_disk.io.h, for every style except logs (those are in M_log).

    A file is the list of its bytes, together with the bytes the C library still holds for it; writing
    never fails.  Simplifications: file names are numbers (0 is the file without a suffix); all files of a
    group have the same head of 16 bytes, so the check of the style when a file is opened succeeds; the tail
    is the byte of its head and 47 bytes that are chosen anew for every run ([rest]); a file that is opened a second time by the same run starts empty
    (what the library holds for the first opening is dropped). *)
From Verif Require Import Base S_blocks S_memory M_memory M_log.

(** sizeof(s_sis_disk_main_tail), sis_disk.io.h:227-234 *)
Definition TAIL_SIZE : nat := 48.
(** SIS_DISK_MIN_WSIZE, sis_disk.io.h:246 *)
Definition MIN_WSIZE : nat := 49.
(** the first byte of the tail: fin = 1, zip = 0, hid = SIS_DISK_HID_TAIL, sis_disk_files.c:59-61 *)
Definition TAIL_HEAD : Z := 249.
Definition HID_NONE : Z := 0.

(** s_sis_disk_files_unit, sis_disk.io.h:261-269: bytes of the file and the position in it, whether it is
    open for writing (fp_1, SIS_DISK_STATUS_NOSTOP), whether it exists, offset, fcatch *)
Record funit := mkunit { u_disk : list Z; u_pos : nat; u_open : bool; u_made : bool; u_off : nat; u_cache : mem }.
(** s_sis_disk_files, sis_disk.io.h:277-286 *)
Record files := mkfiles { fs_units : list funit; fs_cur : nat }.

(** sis_disk_files_unit_create, sis_disk_files.c:6-11 *)
Definition new_unit : funit := mkunit [] 0 false false 0 (mem_create_size (SIS_MEMORY_SIZE + SIS_MEMORY_SIZE)).
(** sis_file_write, os_file.c:187-193, at the position *)
Definition put (u : funit) (b : list Z) : funit :=
  mkunit (firstn (u_pos u) (u_disk u) ++ b ++ skipn (u_pos u + length b) (u_disk u)) (u_pos u + length b)
         (u_open u) (u_made u) (u_off u) (u_cache u).
Definition set_cache (u : funit) (m : mem) : funit := mkunit (u_disk u) (u_pos u) (u_open u) (u_made u) (u_off u) m.
Definition set_off (u : funit) (o : nat) : funit := mkunit (u_disk u) (u_pos u) (u_open u) (u_made u) o (u_cache u).
Fixpoint set_nth {A} (k : nat) (x : A) (l : list A) : list A :=
  match l, k with
  | [], _ => []
  | _ :: l', O => x :: l'
  | y :: l', S k' => y :: set_nth k' x l'
  end.

(** cur_unit is a uint8, sis_disk.io.h:282 *)
Definition as_cur (n : nat) : nat := (n mod 256)%nat.
(** sis_disk_files_inc_unit, sis_disk_files.c:134-147 *)
Definition inc_unit (fs : files) : files := mkfiles (fs_units fs ++ [new_unit]) (as_cur (length (fs_units fs))).
(** sis_disk_files_open_create, sis_disk_files.c:148-165 *)
Definition open_create (head : list Z) (u : funit) : funit := mkunit head (length head) true true (length head) (u_cache u).
(** sis_disk_files_write_sync, sis_disk_files.c:394-412, on the current file *)
Definition sync_unit (u : funit) : funit :=
  match mem_live (u_cache u) with
  | [] => u
  | c => set_cache (put u c) (mem_clear (u_cache u))
  end.
Definition sync (fs : files) : files :=
  match nth_error (fs_units fs) (fs_cur fs) with
  | Some u => if u_open u then mkfiles (set_nth (fs_cur fs) (sync_unit u) (fs_units fs)) (fs_cur fs) else fs
  | None => fs
  end.

(** sis_safe_write, sis_disk_files.c:433-459; [lim] is SIS_MEMORY_SIZE.  The unit, and the result. *)
Definition safe_write (lim : Z) (u : funit) (h : Z) (v : list Z) : funit * nat :=
  let z := Z.of_nat (length v) in
  let m := mem_cat_ssize (mem_cat (u_cache u) [h]) z in
  let size := (1 + ssize_ret z + length v)%nat in
  match v with
  | [] => (set_cache u m, size)
  | _ => if lim <? Z.of_nat (mem_get_size m) + z
         then (put (set_cache (put u (mem_live m)) (mem_clear m)) v, size)
         else (set_cache u (mem_cat m v), size)
  end.

(** what is kept of a block: fidx, offset, size of s_sis_disk_idx_unit, sis_disk.io.h:292-303 *)
Record place := mkplace { p_file : nat; p_off : nat; p_size : nat }.

(** sis_disk_files_write_saveidx, sis_disk_files.c:486-517; [max] is max_file_size.  None: no file is open
    (result 0). *)
Definition saveidx (lim max : Z) (head : list Z) (fs : files) (b : block) : option (files * place) :=
  match nth_error (fs_units fs) (fs_cur fs) with
  | Some u =>
    if negb (u_open u) then None
    else
      let fs1 :=
        if (0 <? max) && (max <? Z.of_nat (u_off u + length (b_data b) + MIN_WSIZE))
        then let fs2 := inc_unit (sync fs) in
             match nth_error (fs_units fs2) (fs_cur fs2) with
             | Some u2 => mkfiles (set_nth (fs_cur fs2) (open_create head u2) (fs_units fs2)) (fs_cur fs2)
             | None => fs2
             end
        else fs in
      match nth_error (fs_units fs1) (fs_cur fs1) with
      | Some u1 =>
        let '(u2, size) := safe_write lim u1 (b_head b) (b_data b) in
        Some (mkfiles (set_nth (fs_cur fs1) (set_off u2 (u_off u1 + size)) (fs_units fs1)) (fs_cur fs1),
              mkplace (fs_cur fs1) (u_off u1) size)
      | None => None
      end
  | None => None
  end.
Fixpoint save_all (lim max : Z) (head : list Z) (fs : files) (bs : list block) : option (files * list place) :=
  match bs with
  | [] => Some (fs, [])
  | b :: bs' =>
    match saveidx lim max head fs b with
    | None => None
    | Some (fs1, p) =>
      match save_all lim max head fs1 bs' with
      | None => None
      | Some (fs2, ps) => Some (fs2, p :: ps)
      end
    end
  end.

(** sis_disk_files_close, sis_disk_files.c:64-97: every file that is open gets a tail *)
Definition tail_bytes (rest : list Z) : list Z := TAIL_HEAD :: rest.
Definition close_unit (rest : list Z) (u : funit) : funit :=
  if u_open u
  then let u1 := put u (tail_bytes rest) in mkunit (u_disk u1) (u_pos u1) false (u_made u1) 0 (u_cache u1)
  else u.
Definition on_disk (fs : files) : list (list Z) := map u_disk (filter u_made (fs_units fs)).

(** SIS_DISK_ACCESS_CREATE, sis_disk_files.c:326-338 *)
Definition start_create (head : list Z) : files := mkfiles [open_create head new_unit] 0.
(** SIS_DISK_ACCESS_APPEND, sis_disk_files.c:339-349: sis_disk_files_init, 99-132, finds the files;
    sis_disk_files_open_append, 224-269, opens the last one, and sis_disk_files_seek, 374-384, goes to its tail. *)
Definition start_append (fl : list (list Z)) : files :=
  let n := (length fl - 1)%nat in
  mkfiles (map (fun f => mkunit f 0 false true 0 (u_cache new_unit)) (firstn n fl) ++
           map (fun f => mkunit f (length f - TAIL_SIZE) true true (length f - TAIL_SIZE) (u_cache new_unit)) (skipn n fl))
          (as_cur n).
(** sis_disk_ctrl_write_start, sis_disk.io.c:713-800: create when there is no file, otherwise append *)
Definition start (head : list Z) (fl : list (list Z)) : files :=
  match fl with [] => start_create head | _ => start_append fl end.
(** sis_disk_ctrl_write_stop, sis_disk.io.c:804-861, the part for the data files *)
Definition stop (rest : list Z) (fs : files) : list (list Z) :=
  on_disk (mkfiles (map (close_unit rest) (fs_units (sync fs))) (fs_cur fs)).

(** One run: start, write, stop.  [r_rest]: the tail of the files of this run. *)
Record run := mkrun { r_blocks : list block; r_rest : list Z }.
Definition one_run (lim max : Z) (head : list Z) (fl : list (list Z)) (r : run) : option (list (list Z) * list place) :=
  match save_all lim max head (start head fl) (r_blocks r) with
  | Some (fs, ps) => Some (stop (r_rest r) fs, ps)
  | None => None
  end.
Fixpoint all_runs (lim max : Z) (head : list Z) (fl : list (list Z)) (rs : list run) : option (list (list Z) * list place) :=
  match rs with
  | [] => Some (fl, [])
  | r :: rs' =>
    match one_run lim max head fl r with
    | None => None
    | Some (fl1, ps) =>
      match all_runs lim max head fl1 rs' with
      | None => None
      | Some (fl2, ps') => Some (fl2, ps ++ ps')
      end
    end
  end.

(** sis_disk_files_read, sis_disk_files.c:626-647, through sis_disk_files_read_fromidx, 650-657, into
    an empty buffer: head and data.  None: nothing is read (result 0), or the length cannot be read. *)
Definition read_idx (stale : nat -> Z) (fl : list (list Z)) (p : place) : option (Z * list Z) :=
  match nth_error fl (p_file p) with
  | None => None
  | Some f =>
    let bytes := firstn (p_size p) (skipn (p_off p) f) in
    if (length bytes =? p_size p)%nat then
      match bytes with
      | [] => None
      | h :: l => match get_ssize stale l with
                  | Some (_, d) => Some (h, d)
                  | None => None
                  end
      end
    else None
  end.

(** ** Reading the files from end to end *)
(** local variables of sis_disk_files_read_fulltext, sis_disk_files.c:522-623: unread bytes, LINEEND, head,
    size; how far the file has been read (only to choose what is left over in the buffer); the
    blocks handed to the callback *)
Record fscan := mkfscan { g_live : list Z; g_line : bool; g_head : Z; g_size : Z; g_off : nat; g_out : list block }.
Definition g_take (s : fscan) : fscan :=
  let n := Z.to_nat (g_size s) in
  mkfscan (skipn n (g_live s)) true (g_head s) 0 (g_off s + n) (g_out s ++ [mkblock (g_head s) (firstn n (g_live s))]).
(** how an inner loop ends: read on; the file is at its end; everything ends *)
Inductive verdict := ReadOn | FileEnd | ReadStop.
(** the inner loop, sis_disk_files.c:560-610; the callback never stops the reading (the blocks it gets are
    [g_out]) *)
Fixpoint f_inner (fuel : nat) (stale : nat -> nat -> Z) (s : fscan) : option (fscan * verdict) :=
  match fuel with
  | O => None
  | S f =>
    if (length (g_live s) <? 4)%nat then Some (s, ReadOn)
    else if g_line s then
      match g_live s with
      | [] => None
      | h :: l =>
        if hid h =? HID_TAIL then Some (mkfscan l true h 47 (g_off s + 1) (g_out s), FileEnd)
        else
          match get_ssize (stale (g_off s)) l with
          | None => None
          | Some (size, l') =>
            let o := (g_off s + 1 + (length l - length l'))%nat in
            if Z.of_nat (length l') <? size then Some (mkfscan l' false h size o (g_out s), ReadOn)
            else if hid h =? HID_NONE then Some (mkfscan l' true h size o (g_out s), ReadStop)
            else f_inner f stale (g_take (mkfscan l' true h size o (g_out s)))
          end
      end
    else if hid (g_head s) =? HID_NONE then Some (s, ReadStop)
    else f_inner f stale (g_take s)
  end.
(** the loop over the pieces of one file, sis_disk_files.c:544-611 *)
Fixpoint f_outer (stale : nat -> nat -> Z) (ps : list (list Z)) (s : fscan) : option (fscan * bool) :=
  match ps with
  | [] => Some (s, true)
  | p :: ps' =>
    let s1 := mkfscan (g_live s ++ p) (g_line s) (g_head s) (g_size s) (g_off s) (g_out s) in
    if Z.of_nat (length (g_live s1)) <? g_size s1 then f_outer stale ps' s1
    else
      match f_inner (S (length (g_live s1))) stale s1 with
      | None => None
      | Some (s2, ReadOn) => f_outer stale ps' s2
      | Some (s2, FileEnd) => Some (s2, true)
      | Some (s2, ReadStop) => Some (s2, false)
      end
  end.
(** the loop over the files, sis_disk_files.c:530-539, 620-622; [ch] is SIS_MEMORY_SIZE *)
Fixpoint read_all (ch : nat) (stale : nat -> nat -> nat -> Z) (n : nat) (fl : list (list Z)) : option (list block) :=
  match fl with
  | [] => Some []
  | f :: fl' =>
    let body := skipn HEAD_SIZE f in
    match f_outer (stale n) (pieces (length body) ch body) (mkfscan [] true 0 0 0 []) with
    | None => None
    | Some (s, go) =>
      if go then match read_all ch stale (S n) fl' with Some bs => Some (g_out s ++ bs) | None => None end
      else Some (g_out s)
    end
  end.
