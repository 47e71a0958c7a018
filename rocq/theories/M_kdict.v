(** Model of the dictionaries of keys in the main file and the files of a store: src/core/disk/sis_disk_write.c 77-108, 145-172,
    339-416, 562-583; sis_disk.io.c 272-290, 309-320, 382-410, 482-493, 713-800; sis_disk_ctrl.c 310-331; src/core/sis_list.c
    2153-2220; src/os/linux/os_str.h 60-89.

    Simplifications: names hold no zero; a dictionary (s_sis_map_list) is the list of its names in order of first setting (C36);
    blocks are read as they were written and in that order (C57, C58); files are numbered; no file fails to open; the main file
    is opened again at once after closing. *)
From Verif Require Import Base S_kdict.

(** sis_trim, os_str.h:60-89: bytes up to the blank are removed at both ends *)
Fixpoint drop_blank (l : list Z) : list Z := match l with [] => [] | c :: l' => if 32 <? c then l else drop_blank l' end.
Definition trim (l : list Z) : list Z := drop_blank (rev (drop_blank (rev l))).
(** sis_string_list_load with the sign ",", sis_list.c:2153-2220; an empty piece at the end is dropped *)
Fixpoint load (cur : list Z) (l : list Z) : list (list Z) :=
  match l with
  | [] => match cur with [] => [] | _ => [trim cur] end
  | c :: l' => if c =? 44 then trim cur :: load [] l' else load (cur ++ [c]) l'
  end.
(** the text of new names, sis_disk.io.c:384-397 *)
Fixpoint join (l : list (list Z)) : list Z :=
  match l with [] => [] | [k] => k | k :: l' => k ++ 44 :: join l' end.

Definition known (l : list (list Z)) (k : list Z) : bool := if in_dec (list_eq_dec Z.eq_dec) k l then true else false.
Fixpoint index_of (l : list (list Z)) (k : list Z) : nat :=
  match l with [] => O | x :: l' => if list_eq_dec Z.eq_dec x k then O else S (index_of l' k) end.

(** a file: map_kdicts, new_kinfos, the blocks of keys in the file, the number of the key in every other block together with the
    name in the index file *)
Record kfile := mkkf { k_map : list (list Z); k_new : list (list Z); k_blocks : list (list Z); k_data : list (nat * list Z) }.
(** sis_disk_ctrl_set_kdict, sis_disk.io.c:482-493 *)
Definition set_kdict (f : kfile) (k : list Z) : kfile :=
  if known (k_map f) k then f else mkkf (k_map f ++ [k]) (k_new f ++ [k]) (k_blocks f) (k_data f).
(** sis_disk_ctrl_write_kdict, 382-410 *)
Definition write_kdict (f : kfile) : kfile :=
  match k_new f with [] => f | _ => mkkf (k_map f) [] (k_blocks f ++ [join (k_new f)]) (k_data f) end.
(** sis_disk_ctrl_cmp_kdict, 309-320 *)
Definition cmp_kdict (main f : kfile) : kfile :=
  fold_left set_kdict (k_map main) (mkkf (k_map f) [] (k_blocks f) (k_data f)).
(** sis_disk_reader_set_kdict, sis_disk_ctrl.c:310-331, over all blocks *)
Definition add_name (l : list (list Z)) (k : list Z) : list (list Z) := if known l k then l else l ++ [k].
Definition read_names (blocks : list (list Z)) : list (list Z) :=
  fold_left (fun l b => match b with [] => l | _ => fold_left add_name (load [] b) l end) blocks [].
(** opening a file for writing: sis_disk_ctrl_write_start, sis_disk.io.c:713-800; reading the index needs every name in the
    dictionary, sis_disk.io.sdb.c:562 (None: a null pointer is read) *)
Definition reopen (f : kfile) : option kfile :=
  let names := read_names (k_blocks f) in
  if forallb (fun d => known names (snd d)) (k_data f) then Some (mkkf names [] (k_blocks f) (k_data f)) else None.

(** s_sis_disk_writer: munit, the files, those open (units) *)
Record store := mkst { s_main : kfile; s_files : nat -> kfile; s_open : nat -> bool }.
Definition no_file : kfile := mkkf [] [] [] [].
Definition empty_store : store := mkst no_file (fun _ => no_file) (fun _ => false).
(** sis_disk_writer_kdict_changed, sis_disk_write.c:99-108 *)
Definition changed (s : store) (k : list Z) : store :=
  mkst (s_main s) (fun i => if s_open s i then set_kdict (s_files s i) k else s_files s i) (s_open s).
(** sis_disk_writer_set_kdict, 145-172 *)
Definition name_key (s : store) (k : list Z) : store := changed (mkst (set_kdict (s_main s) k) (s_files s) (s_open s)) k.
Definition do_keys (s : store) (l : list (list Z)) : store :=
  let s1 := fold_left name_key l s in
  mkst (write_kdict (s_main s1)) (fun i => if s_open s1 i then write_kdict (s_files s1 i) else s_files s1 i) (s_open s1).
(** sis_disk_writer_sdb, 573-579 *)
Definition before_write (s : store) (k : list Z) : store :=
  if known (k_map (s_main s)) k then s
  else changed (mkst (write_kdict (set_kdict (s_main s) k)) (s_files s) (s_open s)) k.
(** _disk_writer_get_date and the like, 339-416, then one block *)
Definition do_write (s : store) (k : list Z) (i : nat) : option store :=
  let s1 := before_write s k in
  match (if s_open s1 i then Some (s_files s1 i) else reopen (s_files s1 i)) with
  | None => None
  | Some f =>
    let f1 := write_kdict (cmp_kdict (s_main s1) f) in
    let f2 := mkkf (k_map f1) (k_new f1) (k_blocks f1) (k_data f1 ++ [(index_of (k_map f1) k, k)]) in
    Some (mkst (s_main s1) (fun j => if Nat.eqb j i then f2 else s_files s1 j) (fun j => if Nat.eqb j i then true else s_open s1 j))
  end.
(** sis_disk_writer_close, 77-96, and opening again; the lists of new names of all files are cleared, sis_disk.io.c:208-229 *)
Definition do_close (s : store) : store :=
  let m := write_kdict (s_main s) in
  mkst (mkkf (read_names (k_blocks m)) [] (k_blocks m) (k_data m)) (s_files s) (fun _ => false).
Definition kstep (s : store) (o : kop) : option store :=
  match o with Keys l => Some (do_keys s l) | Write k i => do_write s k i | Close => Some (do_close s) end.
Fixpoint krun (s : store) (h : list kop) : option store :=
  match h with [] => Some s | o :: h' => match kstep s o with Some s' => krun s' h' | None => None end end.
(** a reader's view of file i: the names by their numbers, and the blocks *)
Definition reader_names (s : store) (i : nat) : list (list Z) := read_names (k_blocks (s_files s i)).
