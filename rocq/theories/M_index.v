(** Model of the index file of time series: src/core/disk/sis_disk.io.sdb.c 27-37, 251-345, 490-595; sis_disk_ctrl.c 35-86;
    sis_disk_read.c 357-366.

    Simplifications: named lists are in the form proved by C36; a page is read as it was written (C57, C58); no compression;
    keys and tables hold no zero; the nodes of the dictionaries are kept beside the list (they have the names _keys_ and
    _sdbs_ in it); which names are in a dictionary follows from the places of its blocks, [kdict] and [sdict]; unit.ipage is
    always 0 here and left out. *)
From Verif Require Import Base M_memory S_index M_mapfile.

(** s_sis_disk_idx, sis_disk.io.h:306-311 *)
Record inode := mkin { i_key : list Z; i_tab : option (list Z); i_units : list iunit }.
(** sis_disk_idx_get, sis_disk_ctrl.c:67-86, and sis_disk_idx_set_unit, 57-60, as sis_disk_io_write_sdb_work calls them, 27-37 *)
Definition idx_add (m : named inode) (e : entry) : named inode :=
  let n := text_of (e_key e) (e_tab e) in
  match mget m n with
  | Some d => mset m n (mkin (i_key d) (i_tab d) (i_units d ++ [e_unit e]))
  | None => mset m n (mkin (e_key e) (e_tab e) [e_unit e])
  end.

Inductive hid := IndexKey | IndexSdb | IndexMsg.
(** the page of a dictionary, 261-274 and 277-290 *)
Definition dict_cat (m : mem) (d : dplace) : mem :=
  let '(f, o, s) := d in mem_cat_ssize (mem_cat_ssize (mem_cat_ssize m f) o) s.
Definition dict_page (us : list dplace) : list Z :=
  mem_live (fold_left dict_cat us (mem_cat_ssize mem_create (Z.of_nat (List.length us)))).
(** one unit, 317-328 *)
Definition unit_cat (m : mem) (u : iunit) : mem :=
  let m := mem_cat_byte m (iu_active u) 1 in
  let m := mem_cat_byte m (iu_ktype u) 1 in
  let m := mem_cat_byte m (iu_sdict u) 1 in
  let m := mem_cat_ssize m (iu_fidx u) in
  let m := mem_cat_ssize m (iu_offset u) in
  let m := mem_cat_ssize m (iu_size u) in
  let m := mem_cat_ssize m (iu_start u) in
  mem_cat_ssize m (to_u 64 (iu_stop u - iu_start u)).
(** one node, 302-329; the message of line 302 reads node->sname, a null pointer for a node without table (None) *)
Definition node_cat (m : mem) (d : inode) : option mem :=
  match i_tab d with
  | None => None
  | Some s =>
    let m := mem_cat (mem_cat_ssize m (Z.of_nat (List.length (i_key d)))) (i_key d) in
    let m := mem_cat (mem_cat_ssize m (Z.of_nat (List.length s))) s in
    Some (fold_left unit_cat (i_units d) (mem_cat_ssize m (Z.of_nat (List.length (i_units d)))))
  end.
(** the loop over all nodes, 292-340: a page is written when it is larger than [pmax] (SIS_DISK_MAXLEN_IDXPAGE, 16777215) *)
Fixpoint msg_pages (pmax : Z) (m : mem) (l : list inode) : option (list (list Z)) :=
  match l with
  | [] => Some (if 0 <? Z.of_nat (mem_get_size m) then [mem_live m] else [])
  | d :: l' => match node_cat m d with
               | None => None
               | Some m1 => if pmax <? Z.of_nat (mem_get_size m1)
                            then match msg_pages pmax (mem_clear m1) l' with Some ps => Some (mem_live m1 :: ps) | None => None end
                            else msg_pages pmax m1 l'
               end
  end.
(** sis_disk_io_write_sdb_widx, 251-345 *)
Definition write_index (pmax : Z) (kn sn : option (list dplace)) (m : named inode) : option (list (hid * list Z)) :=
  match msg_pages pmax mem_create (map snd m) with
  | None => None
  | Some ps => Some (match kn with Some us => [(IndexKey, dict_page us)] | None => [] end ++
                     match sn with Some us => [(IndexSdb, dict_page us)] | None => [] end ++
                     map (fun p => (IndexMsg, p)) ps)
  end.

(** what has been read *)
Record rstate := mkrs { r_kn : option (list dplace); r_sn : option (list dplace); r_idx : named inode }.
(** the units of a dictionary, 505-514 and 522-531 *)
Fixpoint read_places (stale : nat -> Z) (n : nat) (m : mem) : option (list dplace * mem) :=
  match n with
  | O => Some ([], m)
  | S n' =>
    match mem_get_ssize stale m with
    | None => None
    | Some (f, m1) =>
      match mem_get_ssize stale m1 with
      | None => None
      | Some (o, m2) =>
        match mem_get_ssize stale m2 with
        | None => None
        | Some (s, m3) => match read_places stale n' m3 with
                          | None => None
                          | Some (l, m4) => Some ((to_u 16 f, to_u 64 o, to_u 64 s) :: l, m4)
                          end
        end
      end
    end
  end.
(** one unit, 564-579 *)
Definition read_unit (stale : nat -> Z) (m : mem) : option (iunit * mem) :=
  match mem_get_byte stale m 1 with
  | None => None
  | Some (a, m) =>
  match mem_get_byte stale m 1 with
  | None => None
  | Some (k, m) =>
  match mem_get_byte stale m 1 with
  | None => None
  | Some (s, m) =>
  match mem_get_ssize stale m with
  | None => None
  | Some (f, m) =>
  match mem_get_ssize stale m with
  | None => None
  | Some (o, m) =>
  match mem_get_ssize stale m with
  | None => None
  | Some (z, m) =>
  match mem_get_ssize stale m with
  | None => None
  | Some (b, m) =>
  match mem_get_ssize stale m with
  | None => None
  | Some (d, m) => Some (mkiu (to_u 8 a) (to_u 8 k) (to_u 8 s) (to_u 16 f) o z b (to_u 64 (b + d)), m)
  end end end end end end end end.
Fixpoint read_iunits (stale : nat -> Z) (n : nat) (m : mem) : option (list iunit * mem) :=
  match n with
  | O => Some ([], m)
  | S n' => match read_unit stale m with
            | None => None
            | Some (u, m1) => match read_iunits stale n' m1 with Some (l, m2) => Some (u :: l, m2) | None => None end
            end
  end.
(** a text of a given length: sis_sdsnewlen(sis_memory(memory), len), then sis_memory_move, 538-541, 543-550 *)
Definition read_text (stale : nat -> Z) (m : mem) : option (list Z * mem) :=
  match mem_get_ssize stale m with
  | None => None
  | Some (l, m1) => if to_s 32 l <? 0 then None
                    else match mem_peek stale m1 (moff m1) (Z.to_nat (to_s 32 l)) with
                         | None => None
                         | Some x => Some (x, mem_move m1 (Z.to_nat (to_s 32 l)))
                         end
  end.
Definition has (l : list (list Z)) (n : list Z) : bool := if in_dec (list_eq_dec Z.eq_dec) n l then true else false.
(** one node, 537-582.  A key that is not in the dictionary is a null pointer that is read, 562; so is node->sname, 578, when
    the table is not in the dictionary or the length of its name is zero, unless there are no units (None) *)
Definition read_node (stale : nat -> Z) (keys tabs : list (list Z)) (m : mem) : option (list Z * inode * mem) :=
  match read_text stale m with
  | None => None
  | Some (k, m1) =>
    match read_text stale m1 with
    | None => None
    | Some (s, m2) =>
      let name := firstn 254 (match s with [] => k | _ => k ++ 46 :: s end) in
      let tab := match s with [] => None | _ => if has tabs s then Some s else None end in
      if negb (has keys k) then None
      else match mem_get_ssize stale m2 with
           | None => None
           | Some (c, m3) =>
             match read_iunits stale (Z.to_nat (to_s 32 c)) m3 with
             | None => None
             | Some (us, m4) => match us, tab with
                                | _ :: _, None => None
                                | _, _ => Some (name, mkin k tab us, m4)
                                end
             end
           end
    end
  end.
Section Dictionaries.
(** the names in the dictionary whose blocks lie at the given places, sis_disk_ctrl_read_kdict and sis_disk_ctrl_read_sdict *)
Variables (kdict sdict : list dplace -> list (list Z)).
Definition keys_of (st : rstate) : list (list Z) := match r_kn st with Some us => kdict us | None => [] end.
Definition tabs_of (st : rstate) : list (list Z) := match r_sn st with Some us => sdict us | None => [] end.
(** cb_sis_disk_io_read_sdb_widx, 490-595: the loop over the bytes of a page; every turn takes at least one byte, so that their
    number bounds the turns *)
Fixpoint read_page (fuel : nat) (stale : nat -> Z) (h : hid) (st : rstate) (m : mem) : option rstate :=
  if (0 <? Z.of_nat (mem_get_size m)) then
    match fuel with
    | O => None
    | S fuel' =>
      match h with
      | IndexKey => match mem_get_ssize stale m with
                    | None => None
                    | Some (c, m1) => match read_places stale (Z.to_nat (to_s 32 c)) m1 with
                                      | None => None
                                      | Some (l, m2) => read_page fuel' stale h (mkrs (Some l) (r_sn st) (r_idx st)) m2
                                      end
                    end
      | IndexSdb => match mem_get_ssize stale m with
                    | None => None
                    | Some (c, m1) => match read_places stale (Z.to_nat (to_s 32 c)) m1 with
                                      | None => None
                                      | Some (l, m2) => read_page fuel' stale h (mkrs (r_kn st) (Some l) (r_idx st)) m2
                                      end
                    end
      | IndexMsg => match read_node stale (keys_of st) (tabs_of st) m with
                    | None => None
                    | Some (n, d, m1) => read_page fuel' stale h (mkrs (r_kn st) (r_sn st) (mset (r_idx st) n d)) m1
                    end
      end
    end
  else Some st.
Fixpoint read_pages (stale : nat -> Z) (st : rstate) (l : list (hid * list Z)) : option rstate :=
  match l with
  | [] => Some st
  | (h, b) :: l' => match read_page (S (List.length b)) stale h st (mem_cat mem_create b) with Some st' => read_pages stale st' l' | None => None end
  end.
(** sis_disk_io_read_sdb_widx, 597-620: all pages, into an empty list *)
Definition read_index (stale : nat -> Z) (l : list (hid * list Z)) : option rstate := read_pages stale (mkrs None None []) l.
End Dictionaries.
(** the units that a reader of one series gets, sis_disk_read.c:357-366 *)
Definition find_blocks (st : rstate) (k s : list Z) : list iunit :=
  match mget (r_idx st) (firstn 254 (text_of k (Some s))) with Some d => i_units d | None => [] end.
