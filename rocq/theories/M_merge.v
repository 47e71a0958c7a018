(** Model of the merging of the blocks of a data file of time series: src/core/disk/sis_disk.io.c 272-308, 619-710, 864-872,
    915-1028; sis_disk.io.sdb.c 6-37, 39-65, 130-156, 352-389, 490-620; sis_disk_ctrl.c 57-86, 181-193, 301-378;
    sis_disk_read.c 357-376, 671-724.

    Simplifications: named lists are in the form proved by C36; the index is read as it was written (C64), its nodes have a
    table and names of at most 254 bytes; no compression; the place of a block is its number in the file; blocks that cannot
    be read are given, they lie behind the end of their data file so that no byte is read (sis_disk_files.c:626-657); the tables which a block of definitions names are a function of its bytes, [tabs]; creating, deleting
    and renaming files always succeed; entries have only times and place. *)
From Verif Require Import Base M_memory S_index S_merge M_mapfile M_sdb M_kdict.

(** sis_disk_io_read_sdb, sis_disk.io.sdb.c:352-387, after sis_disk_rcatch_init_of_idx, sis_disk_ctrl.c:181-193: the kind and
    the bytes that follow the numbers.  A block that cannot be read leaves hid 0 and no bytes; an empty one is not looked
    into, 359.  None: bytes behind the buffer are read *)
Definition read_unit (stale : nat -> Z) (data : list (option mblk)) (p : nat) : option (mhid * list Z) :=
  match nth_error data p with
  | Some (Some b) =>
    match b_body b, b_hid b with
    | [], h => Some (h, [])
    | _, MsgSdb | _, MsgNon =>
      match mem_get_ssize stale (mem_cat mem_create (b_body b)) with
      | None => None
      | Some (_, m1) => match mem_get_ssize stale m1 with None => None | Some (_, m2) => Some (b_hid b, mem_live m2) end
      end
    | _, h => Some (h, b_body b)
    end
  | _ => Some (NoHid, [])
  end.

(** the bytes of the blocks of a dictionary, sis_disk_ctrl_read_kdict and sis_disk_ctrl_read_sdict, sis_disk.io.c:272-308 *)
Definition dict_blocks (data : list (option mblk)) (ps : list nat) : list (list Z) :=
  flat_map (fun p => match nth_error data p with Some (Some b) => [b_body b] | _ => [] end) ps.
(** sis_disk_reader_set_sdict, sis_disk_ctrl.c:345-378: tables in order of first naming *)
Definition read_tables (tabs : list Z -> list (list Z)) (bs : list (list Z)) : list (list Z) :=
  fold_left (fun l b => fold_left add_name (tabs b) l) bs [].
Definition names_of (data : list (option mblk)) (x : index) : list (list Z) := read_names (dict_blocks data (x_keys x)).
Definition tables_of (tabs : list Z -> list (list Z)) (data : list (option mblk)) (x : index) : list (list Z) :=
  read_tables tabs (dict_blocks data (x_tabs x)).
(** cb_sis_disk_io_read_sdb_widx, sis_disk.io.sdb.c:490-595: a key that is not in the dictionary, or a table if the node has
    entries, is a null pointer that is read (false) *)
Definition opens (tabs : list Z -> list (list Z)) (data : list (option mblk)) (x : index) : bool :=
  forallb (fun n => M_kdict.known (names_of data x) (n_key (snd n)) &&
                    (M_kdict.known (tables_of tabs data x) (n_tab (snd n)) || match n_units (snd n) with [] => true | _ => false end))
          (x_nodes x).

(** the file being written, its index, the bytes gathered (wcatch->memory), wcatch->head.hid and the times of wcatch->winfo *)
Record mstate := mkms { o_data : list (option mblk); o_index : index; o_mem : mem; o_hid : mhid; o_start : Z; o_stop : Z }.
(** sis_disk_io_write_noidx, sis_disk.io.sdb.c:6-26: the place of the block is the next one *)
Definition put_block (st : mstate) (x : index) : mstate :=
  mkms (o_data st ++ [Some (mkmb (o_hid st) (mem_live (o_mem st)))]) x (mem_clear (o_mem st)) (o_hid st) (o_start st) (o_stop st).
(** one entry, sis_disk.io.c:941-995; [nd], the node, None for the nodes of the dictionaries; [first], k is 0 *)
Definition merge_unit (stale : nat -> Z) (ks ts : list (list Z)) (data : list (option mblk)) (nd : option mnode) (first : bool)
                      (st : mstate) (u : munit) : option mstate :=
  match read_unit stale data (u_place u) with
  | None => None
  | Some (h, bytes) =>
    let next := List.length (o_data st) in
    let st1 := mkms (o_data st) (o_index st) (o_mem st) h (u_start u) (u_stop u) in
    let with_mem := fun m => mkms (o_data st) (o_index st) m h (u_start u) (u_stop u) in
    match h with
    | DictKey => Some (put_block (with_mem (mem_cat (o_mem st) bytes)) (mkix [next] (x_tabs (o_index st)) (x_nodes (o_index st))))
    | DictSdb => Some (put_block (with_mem (mem_cat (o_mem st) bytes)) (mkix (x_keys (o_index st)) [next] (x_nodes (o_index st))))
    | MsgSdb | MsgNon =>
      if first then
        match nd with
        | None => None
        | Some d => if M_kdict.known ks (n_key d) && M_kdict.known ts (n_tab d) then
                      Some (with_mem (mem_cat (mem_cat_ssize (mem_cat_ssize (o_mem st) (Z.of_nat (index_of ks (n_key d))))
                                                             (Z.of_nat (index_of ts (n_tab d)))) bytes))
                    else None
        end
      else Some (with_mem (mem_cat (o_mem st) bytes))
    | NoHid => Some st1
    end
  end.
Fixpoint merge_units (stale : nat -> Z) (ks ts : list (list Z)) (data : list (option mblk)) (nd : option mnode) (first : bool)
                     (us : list munit) (st : mstate) : option mstate :=
  match us with
  | [] => Some st
  | u :: us' => match merge_unit stale ks ts data nd first st u with
                | None => None
                | Some st' => merge_units stale ks ts data nd false us' st'
                end
  end.
(** sis_disk_idx_get and sis_disk_idx_set_unit, sis_disk_ctrl.c:57-86 *)
Definition add_unit (x : index) (d : mnode) (u : munit) : index :=
  let n := text_of (n_key d) (Some (n_tab d)) in
  mkix (x_keys x) (x_tabs x)
    (match mget (x_nodes x) n with
     | Some e => mset (x_nodes x) n (mkmn (n_key e) (n_tab e) (n_units e ++ [u]))
     | None => mset (x_nodes x) n (mkmn (n_key d) (n_tab d) [u])
     end).
(** one node, sis_disk.io.c:938-1018; without key, sis_disk_idx_get gives a null pointer, which is written to (None) *)
Definition merge_node (stale : nat -> Z) (ks ts : list (list Z)) (data : list (option mblk)) (nd : option mnode) (us : list munit)
                      (st : mstate) : option mstate :=
  match merge_units stale ks ts data nd true us st with
  | None => None
  | Some st1 =>
    if 0 <? Z.of_nat (mem_get_size (o_mem st1)) then
      match nd with
      | None => None
      | Some d => Some (put_block st1 (add_unit (o_index st1) d (mkmu (o_start st1) (o_stop st1) (List.length (o_data st1)))))
      end
    else Some st1
  end.
Fixpoint merge_nodes (stale : nat -> Z) (ks ts : list (list Z)) (data : list (option mblk)) (l : list (list Z * mnode)) (st : mstate) : option mstate :=
  match l with
  | [] => Some st
  | (_, d) :: l' => match merge_node stale ks ts data (Some d) (n_units d) st with None => None | Some st' => merge_nodes stale ks ts data l' st' end
  end.
Definition no_index : index := mkix [] [] [].
Definition dict_units (ps : list nat) : list munit := map (mkmu 0 0) ps.
(** sis_disk_ctrl_merge, 915-1028.  The result of sis_disk_ctrl_read_start is not looked at: when the index cannot be read, the
    list of nodes is empty, 933-938; the old file is deleted, 1024, and the new one put in its place.  None: a null pointer or
    memory behind a buffer is used *)
Definition merge (stale : nat -> Z) (tabs : list Z -> list (list Z)) (f : dfile) : option dfile :=
  match d_index f with
  | None => Some (mkdf [] (Some no_index))
  | Some x =>
    if opens tabs (d_data f) x then
      let ks := names_of (d_data f) x in
      let ts := tables_of tabs (d_data f) x in
      match merge_node stale ks ts (d_data f) None (dict_units (x_keys x)) (mkms [] no_index mem_create NoHid 0 0) with
      | None => None
      | Some s1 =>
        match merge_node stale ks ts (d_data f) None (dict_units (x_tabs x)) s1 with
        | None => None
        | Some s2 => match merge_nodes stale ks ts (d_data f) (x_nodes x) s2 with
                     | None => None
                     | Some s3 => Some (mkdf (o_data s3) (Some (o_index s3)))
                     end
        end
      end
    else None
  end.

(** the bytes of all entries, sis_disk_read.c:705-716 *)
Fixpoint read_units (stale : nat -> Z) (data : list (option mblk)) (us : list munit) : option (list Z) :=
  match us with
  | [] => Some []
  | u :: us' => match read_unit stale data (u_place u), read_units stale data us' with Some (_, b), Some r => Some (b ++ r) | _, _ => None end
  end.
(** _disk_reader_get_sdb_obj, sis_disk_read.c:671-724, of one file: no index, nothing *)
Definition read_series (stale : nat -> Z) (tabs : list Z -> list (list Z)) (f : dfile) (k s : list Z) : option (list Z) :=
  match d_index f with
  | None => Some []
  | Some x =>
    if opens tabs (d_data f) x then
      match mget (x_nodes x) (text_of k (Some s)) with Some d => read_units stale (d_data f) (n_units d) | None => Some [] end
    else None
  end.
(** a block of records from [start] to [stop] is added to a file that exists: sis_disk_io_write_sdb, sis_disk.io.sdb.c:130-156,
    with sis_disk_io_merge_sdb, 39-65, and sis_disk_io_write_sdb_work, 27-37; key and table are in the dictionaries *)
Definition write_sdb (tabs : list Z -> list (list Z)) (f : dfile) (k s : list Z) (start stop : Z) (recs : list Z) : option dfile :=
  match d_index f with
  | None => None
  | Some x =>
    let ks := names_of (d_data f) x in
    let ts := tables_of tabs (d_data f) x in
    if opens tabs (d_data f) x && M_kdict.known ks k && M_kdict.known ts s then
      let n := text_of k (Some s) in
      let old := match mget (x_nodes x) n with Some d => n_units d | None => [] end in
      let kept := if ((start =? 0) && (stop =? 0)) || (start >? stop) then []
                  else filter (fun u => negb (is_mixed start stop (u_start u) (u_stop u))) old in
      let body := mem_live (mem_cat (mem_cat_ssize (mem_cat_ssize mem_create (Z.of_nat (index_of ks k))) (Z.of_nat (index_of ts s))) recs) in
      Some (mkdf (d_data f ++ [Some (mkmb MsgSdb body)])
                 (Some (mkix (x_keys x) (x_tabs x) (mset (x_nodes x) n (mkmn k s (kept ++ [mkmu start stop (List.length (d_data f))]))))))
    else None
  end.
