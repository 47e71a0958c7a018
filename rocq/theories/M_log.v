(** Model of log files: src/core/disk/sis_disk_files.c and sis_disk.io.log.c.

    A file is the list of its bytes: a head of 16 bytes and the records.  Simplifications: one file
    per log (sis_disk_files_init makes one, sis_disk_files.c:106-107); the reading buffer is
    kept as the list of the bytes not yet consumed, followed by bytes that are left over from before,
    arbitrary and chosen anew for every record ([stale]), which always exist; reading and writing the
    file never fails; the reader is not stopped by its user; the head of an existing file has the
    style of a log. *)
From Verif Require Import Base S_memory M_memory.

(** sizeof(s_sis_disk_main_head), sis_disk.io.h:213-224 *)
Definition HEAD_SIZE : nat := 16.
(** s_sis_disk_head with fin = 1 (bit 0), zip = 0 (bits 1-2), hid = SIS_DISK_HID_MSG_LOG = 4 (bits
    3-7): sis_disk.io.h:120-123, 137; set in sis_disk_io_write_log, sis_disk.io.log.c:5-27 *)
Definition LOG_HEAD : Z := 33.
Definition HID_MSG_LOG : Z := 4.
Definition HID_TAIL : Z := 31.
Definition hid (h : Z) : Z := h / 8.

(** sis_disk_files_write for a log, sis_disk_files.c:467-479: the bytes added to the file *)
Definition rec_bytes (r : list Z) : list Z :=
  mem_live (mem_cat_ssize (mem_cat mem_create [LOG_HEAD]) (Z.of_nat (length r))) ++ r.
Definition log_bytes (rs : list (list Z)) : list Z := concat (map rec_bytes rs).
Definition rec_size (r : list Z) : nat := length (rec_bytes r).

(** sis_memory_get_ssize (sis_memory.c:260-280) on a buffer with the unread bytes [l] *)
Definition get_ssize (stale : nat -> Z) (l : list Z) : option (Z * list Z) :=
  match mem_get_ssize stale (mkmem l 0 (Z.of_nat (length l) + 16)) with
  | Some (v, m) => Some (v, mem_live m)
  | None => None
  end.

(** local variables of the reading loops: unread bytes, LINEEND, head, size, ssize, and what has
    been found: [k_off] = offset behind the last record, [k_out] = records handed out *)
Record scan := mkscan {
  k_live : list Z; k_line : bool; k_head : Z; k_size : Z; k_ssize : nat; k_off : nat; k_out : list (list Z) }.

(** a record is complete in the buffer: sis_disk_files.c:212-217 and 580-609 *)
Definition take_rec (s : scan) : scan :=
  let n := Z.to_nat (k_size s) in
  mkscan (skipn n (k_live s)) true (k_head s) 0 (k_ssize s) (k_off s + 1 + k_ssize s + n)
         (k_out s ++ [firstn n (k_live s)]).

(** The inner loops of sis_disk_files_seek_log, sis_disk_files.c:191-218 ([thr] = 2, [at_once]: any
    other head stops), and of sis_disk_files_read_fulltext with the callback
    cb_sis_disk_io_read_log, sis_disk_files.c:560-610, sis_disk.io.log.c:29-55 ([thr] = 4, [at_once]: the
    head of a tail stops; other heads stop when the record is complete).  The result tells whether
    to stop. *)
Fixpoint inner (fuel : nat) (thr : nat) (at_once : Z -> bool) (stale : nat -> nat -> Z) (s : scan)
  : option (scan * bool) :=
  match fuel with
  | O => None
  | S f =>
    if (length (k_live s) <? thr)%nat then Some (s, false)
    else if k_line s then
      match k_live s with
      | [] => None
      | h :: l =>
        if at_once h then Some (s, true)
        else
          match get_ssize (stale (k_off s)) l with
          | None => None
          | Some (size, l') =>
            let s1 := mkscan l' true h size (length l - length l') (k_off s) (k_out s) in
            if Z.of_nat (length l') <? size
            then Some (mkscan l' false h size (length l - length l') (k_off s) (k_out s), false)
            else if negb (hid h =? HID_MSG_LOG) then Some (s1, true)
            else inner f thr at_once stale (take_rec s1)
          end
      end
    else if negb (hid (k_head s) =? HID_MSG_LOG) then Some (s, true)
    else inner f thr at_once stale (take_rec s)
  end.

(** The pieces that successive reads of [ch] bytes return; the last one is empty. *)
Fixpoint pieces (fuel ch : nat) (l : list Z) : list (list Z) :=
  match fuel, l with
  | O, _ => [[]]
  | S _, [] => [[]]
  | S f, _ => firstn ch l :: pieces f ch (skipn ch l)
  end.

(** the outer loops, sis_disk_files.c:179-219 and 544-611 *)
Fixpoint outer (thr : nat) (at_once : Z -> bool) (stale : nat -> nat -> Z) (ps : list (list Z)) (s : scan)
  : option scan :=
  match ps with
  | [] => Some s
  | p :: ps' =>
    let s1 := mkscan (k_live s ++ p) (k_line s) (k_head s) (k_size s) (k_ssize s) (k_off s) (k_out s) in
    if Z.of_nat (length (k_live s1)) <? k_size s1 then outer thr at_once stale ps' s1
    else
      match inner (S (length (k_live s1))) thr at_once stale s1 with
      | None => None
      | Some (s2, stop) => if stop then Some s2 else outer thr at_once stale ps' s2
      end
  end.
Definition scan0 : scan := mkscan [] true 0 0 0 0 [].
Definition run_scan (thr : nat) (at_once : Z -> bool) (ch : nat) (stale : nat -> nat -> Z) (body : list Z) : option scan :=
  outer thr at_once stale (pieces (length body) ch body) scan0.

(** sis_disk_files_seek_log, sis_disk_files.c:166-223; [ch] is SIS_MEMORY_SIZE *)
Definition seek_log (ch : nat) (stale : nat -> nat -> Z) (file : list Z) : option nat :=
  match run_scan 2 (fun h => negb (hid h =? HID_MSG_LOG)) ch stale (skipn HEAD_SIZE file) with
  | Some s => Some (HEAD_SIZE + k_off s)%nat
  | None => None
  end.
(** sis_disk_io_sub_log, sis_disk.io.log.c:57-90: the records handed to cb_original *)
Definition replay (ch : nat) (stale : nat -> nat -> Z) (file : list Z) : option (list (list Z)) :=
  match run_scan 4 (fun h => hid h =? HID_TAIL) ch stale (skipn HEAD_SIZE file) with
  | Some s => Some (k_out s)
  | None => None
  end.

(** sis_disk_ctrl_write_start on an existing log, sis_disk.io.c:713-800, sis_disk_files_open,
    sis_disk_files.c:341-348 (the result of open_append is not used), sis_disk_files_open_append,
    224-269, and sis_disk_files_seek, 374-384.  None: the log is not open for writing (result -8);
    otherwise the file, cut behind the last record, where writing goes on. *)
Definition open_log (ch : nat) (stale : nat -> nat -> Z) (file : list Z) : option (list Z) :=
  if (length file <? HEAD_SIZE)%nat then None
  else match seek_log ch stale file with
       | Some o => Some (firstn o file)
       | None => None
       end.
(** sis_disk_io_write_log, one record after the other *)
Definition append (file : list Z) (rs : list (list Z)) : list Z := fold_left (fun f r => f ++ rec_bytes r) rs file.

(** ** The path to the disk.  A stream of the C library: bytes kept in its buffer and bytes handed to the
    system.  [Flush k]: the library hands over the first [k] bytes of its buffer, at any time. *)
Record stream := mkstream { f_sys : list Z; f_buf : list Z }.
Inductive fstep := Write (r : list Z) | Flush (k : nat) | Close.
(** sis_file_write, src/os/linux/os_file.c:187-193 *)
Definition fwrite (f : stream) (b : list Z) : stream := mkstream (f_sys f) (f_buf f ++ b).
(** sis_file_fsync, os_file.c:194-197: what the system has goes to the disk; the buffer stays *)
Definition fsync (f : stream) : stream := f.
(** Write: sis_disk_files_write, sis_disk_files.c:467-479; Close: sis_disk_files_close, 64-97 *)
Definition do_step (f : stream) (a : fstep) : stream :=
  match a with
  | Write r =>
    fsync (fwrite (fwrite f (mem_live (mem_cat_ssize (mem_cat mem_create [LOG_HEAD]) (Z.of_nat (length r))))) r)
  | Flush k => mkstream (f_sys f ++ firstn k (f_buf f)) (skipn k (f_buf f))
  | Close => mkstream (f_sys f ++ f_buf f) []
  end.
Definition do_steps (f : stream) (l : list fstep) : stream := fold_left do_step l f.
(** what is left when the process is killed *)
Definition after_kill (f : stream) : list Z := f_sys f.
(** the records whose write has returned *)
Fixpoint written (l : list fstep) : list (list Z) :=
  match l with [] => [] | Write r :: l' => r :: written l' | _ :: l' => written l' end.
