(** Model of files that keep the order of arrival: src/core/disk/sis_disk.io.sno.c 9-143, 150-259, 321-370, 381-478, 504-593,
    668-812; sis_disk.io.sdb.c 27-37, 352-389; sis_disk_read.c 766-826; sis_disk_write.c 230-315.

    Simplifications: the dictionaries are fixed and read as they were written (C65), a structure of a table is its size; blocks
    are read as they were written and where the index says (C57, C58), so that the place of a block is its number; no compression;
    named lists are in the form proved by C36; the index is a list of nodes (its bytes are like those of C64), a node takes
    [ilen] bytes; nobody stops a reading; the times of blocks and the count of records, which are not used here, are left out. *)
From Verif Require Import Base S_server S_sub M_sub M_memory S_sno M_mapfile.

Inductive sblock := Msg (b : list Z) | End.
(** s_sis_disk_wcatch, sis_disk.io.h:317-323: numbers of key and table (kname and sname point into the dictionaries), memory,
    winfo.ipage *)
Record catch := mkwc { w_key : nat; w_tab : nat; w_mem : mem; w_page : Z }.
(** s_sis_disk_idx: key, table, units; a unit is the place of a block and ipage *)
Record snode := mksn { n_key : nat; n_tab : nat; n_units : list (nat * Z) }.
(** s_sis_disk_ctrl, sis_disk.io.h:431-437, with the file and map_idxs *)
Record sctrl := mksc { c_pages : Z; c_series : Z; c_size : Z; c_catch : named catch; c_file : list sblock; c_idx : named snode;
                       c_sizes : nat -> nat }.
Definition sstart (sizes : nat -> nat) : sctrl := mksc 0 0 0 [] [] [] sizes.

(** "%s.%s" *)
Definition full_name (keys tabs : list (list Z)) (k t : nat) : list Z := nth k keys [] ++ 46 :: nth t tabs [].
(** sis_disk_io_write_sdb_work, sis_disk.io.sdb.c:27-37: the block, then its place into the index *)
Definition put_block (keys tabs : list (list Z)) (file : list sblock) (idx : named snode) (w : catch) : list sblock * named snode :=
  let n := full_name keys tabs (w_key w) (w_tab w) in
  let u := (List.length file, w_page w) in
  (file ++ [Msg (mem_live (w_mem w))],
   match mget idx n with
   | Some d => mset idx n (mksn (n_key d) (n_tab d) (n_units d ++ [u]))
   | None => mset idx n (mksn (w_key w) (w_tab w) [u])
   end).
(** the loop of _disk_io_write_sno_watch, 170-180, with sis_disk_wcatch_clear *)
Fixpoint put_catches (keys tabs : list (list Z)) (file : list sblock) (idx : named snode) (l : named catch) : list sblock * named snode * named catch :=
  match l with
  | [] => (file, idx, [])
  | (n, w) :: l' =>
    if (0 <? Z.of_nat (mem_get_size (w_mem w))) then
      let '(f1, i1) := put_block keys tabs file idx w in
      let '(f2, i2, r) := put_catches keys tabs f1 i1 l' in
      (f2, i2, (n, mkwc (w_key w) (w_tab w) (mem_clear (w_mem w)) 0) :: r)
    else
      let '(f2, i2, r) := put_catches keys tabs file idx l' in (f2, i2, (n, w) :: r)
  end.
(** _disk_io_write_sno_watch, 166-200 *)
Definition flush (keys tabs : list (list Z)) (c : sctrl) : sctrl :=
  let '(f, i, l) := put_catches keys tabs (c_file c) (c_idx c) (c_catch c) in
  mksc (c_pages c + 1) 0 0 l (f ++ [End]) i (c_sizes c).
(** the loop over the records, 244-249: memory, sno_series, sno_size *)
Fixpoint put_recs (m : mem) (series size : Z) (recs : list (list Z)) : mem * Z * Z :=
  match recs with
  | [] => (m, series, size)
  | x :: l => put_recs (mem_cat (mem_cat_ssize m series) x) (series + 1)
                       (size + Z.of_nat (ssize_ret series) + Z.of_nat (List.length x)) l
  end.
(** sis_disk_writer_sno, sis_disk_write.c:296-315, and sis_disk_io_write_sno, 218-259; [pmax] = max_page_size; a table whose records
    have no bytes divides by zero (None) *)
Definition write_sno (pmax : Z) (keys tabs : list (list Z)) (c : sctrl) (k t : nat) (data : list Z) : option sctrl :=
  if Nat.eqb (c_sizes c t) 0 then None
  else if negb (Nat.eqb (Nat.modulo (List.length data) (c_sizes c t)) 0) then Some c
  else
    let name := firstn 254 (full_name keys tabs k t) in
    let w := match mget (c_catch c) name with Some w => w | None => mkwc k t mem_create 0 end in
    let '(m1, s1) := if (Z.of_nat (mem_get_size (w_mem w)) <? 1)
                     then (mem_cat_ssize (mem_cat_ssize (w_mem w) (Z.of_nat k)) (Z.of_nat t),
                           c_size c + Z.of_nat (ssize_ret (Z.of_nat k)) + Z.of_nat (ssize_ret (Z.of_nat t)))
                     else (w_mem w, c_size c) in
    let '(m2, ser, s2) := put_recs m1 (c_series c) s1 (pieces (List.length data) (c_sizes c t) data) in
    let c1 := mksc (c_pages c) ser s2 (mset (c_catch c) name (mkwc (w_key w) (w_tab w) m2 (to_u 16 (c_pages c)))) (c_file c) (c_idx c) (c_sizes c) in
    Some (if pmax <? s2 then flush keys tabs c1 else c1).
(** sis_disk_io_write_sno_stop, 201-207, and sis_disk_io_write_sno_start, 150-165 (sno_pages is not changed) *)
Definition cut (keys tabs : list (list Z)) (c : sctrl) : sctrl :=
  let c1 := flush keys tabs c in mksc (c_pages c1) 0 0 [] (c_file c1) (c_idx c1) (c_sizes c1).
Definition sact (pmax : Z) (keys tabs : list (list Z)) (c : sctrl) (a : act) : option sctrl :=
  match a with
  | Put k t data => write_sno pmax keys tabs c k t data
  | Cut => Some (cut keys tabs c)
  | Resize t n => Some (mksc (c_pages c) (c_series c) (c_size c) (c_catch c) (c_file c) (c_idx c) (fun j => if Nat.eqb j t then n else c_sizes c j))
  end.
Fixpoint sacts (pmax : Z) (keys tabs : list (list Z)) (c : sctrl) (h : list act) : option sctrl :=
  match h with
  | [] => Some c
  | a :: h' => match sact pmax keys tabs c a with Some c' => sacts pmax keys tabs c' h' | None => None end
  end.
(** a whole writing, ended by sis_disk_writer_stop *)
Definition write_all (pmax : Z) (keys tabs : list (list Z)) (sizes : nat -> nat) (h : list act) : option sctrl :=
  match sacts pmax keys tabs (sstart sizes) h with Some c => Some (cut keys tabs c) | None => None end.

(** a page of s_sis_disk_sno_rctrl: count and the slots, None = data is null *)
Record rpage := mkrp { p_count : Z; p_slot : Z -> option row }.
Definition empty_page : rpage := mkrp 0 (fun _ => None).
(** sis_disk_sno_rctrl_set, 43-60; [pn] = pagenums; a negative number writes outside (None) *)
Definition set_slot (p : rpage) (i : Z) (r : row) : rpage :=
  mkrp (if p_count p - 1 <? i then i + 1 else p_count p) (fun j => if j =? i then Some r else p_slot p j).
Fixpoint upd (l : list rpage) (i : nat) (f : rpage -> rpage) : list rpage :=
  match l, i with
  | [], _ => []
  | p :: l', O => f p :: l'
  | p :: l', S i' => p :: upd l' i' f
  end.
Definition rset (pn : Z) (l : list rpage) (sno : Z) (r : row) : option (list rpage) :=
  if sno <? 0 then None
  else let ip := Z.to_nat (sno / pn) in
       let l1 := l ++ repeat empty_page (S ip - List.length l) in
       Some (upd l1 ip (fun p => set_slot p (sno mod pn) r)).
(** the first loop of sis_disk_sno_rctrl_push, 73-80: numbers and records; every turn takes a byte *)
Fixpoint take_recs (fuel : nat) (stale : nat -> Z) (n : nat) (m : mem) : option (list (Z * list Z)) :=
  if (0 <? Z.of_nat (mem_get_size m)) then
    match fuel with
    | O => None
    | S f =>
      match mem_get_ssize stale m with
      | None => None
      | Some (s, m1) =>
        match mem_peek stale m1 (moff m1) n with
        | None => None
        | Some x => match take_recs f stale n (mem_move m1 n) with Some l => Some ((to_s 32 s, x) :: l) | None => None end
        end
      end
    end
  else Some [].
(** the second loop, 84-91 *)
Fixpoint set_all (pn : Z) (kn tn : list Z) (l : list rpage) (rs : list (Z * list Z)) : option (list rpage) :=
  match rs with
  | [] => Some l
  | (s, x) :: rs' => match rset pn l s (mkrow kn tn x) with Some l' => set_all pn kn tn l' rs' | None => None end
  end.
(** _sis_disk_read_hid_sno, 381-397: the size is that of the last structure of the table *)
Definition read_msg (pn : Z) (stale : nat -> Z) (keys tabs : list (list Z)) (sizes : nat -> nat) (l : list rpage) (b : list Z) : option (list rpage) :=
  match mem_get_ssize stale (mem_cat mem_create b) with
  | None => None
  | Some (k, m1) =>
    match mem_get_ssize stale m1 with
    | None => None
    | Some (s, m2) =>
      if (to_s 32 k <? 0) || (to_s 32 s <? 0) then Some l
      else match nth_error keys (Z.to_nat (to_s 32 k)), nth_error tabs (Z.to_nat (to_s 32 s)) with
           | Some kn, Some tn => match take_recs (S (List.length b)) stale (sizes (Z.to_nat (to_s 32 s))) m2 with
                                 | Some rs => set_all pn kn tn l rs
                                 | None => None
                                 end
           | _, _ => Some l
           end
    end
  end.
(** the loop of sis_disk_sno_rctrl_start, 398-421, over sis_disk_sno_rctrl_rpop, 109-143: the slots of every page in order, up to the
    count of the page, without those whose data is null *)
Fixpoint slots (n : nat) (i : Z) (p : rpage) : list row :=
  match n with
  | O => []
  | S n' => match p_slot p i with Some r => r :: slots n' (i + 1) p | None => slots n' (i + 1) p end
  end.
Definition drain (l : list rpage) : list row := flat_map (fun p => slots (Z.to_nat (p_count p)) 0 p) l.
(** sis_disk_sno_rctrl_clear, 28-42 *)
Definition rclear (l : list rpage) : list rpage := map (fun _ => empty_page) l.
(** cb_sis_disk_io_read_sno, 422-478, over all blocks: what the callback gets *)
Fixpoint read_file (pn : Z) (stale : nat -> Z) (keys tabs : list (list Z)) (sizes : nat -> nat) (l : list rpage) (f : list sblock) : option (list row) :=
  match f with
  | [] => Some []
  | Msg b :: f' => match read_msg pn stale keys tabs sizes l b with Some l' => read_file pn stale keys tabs sizes l' f' | None => None end
  | End :: f' => match read_file pn stale keys tabs sizes (rclear l) f' with Some o => Some (drain l ++ o) | None => None end
  end.
(** sis_disk_io_sub_sno for the whole file, 604-634 *)
Definition sub_whole (pn : Z) (stale : nat -> Z) (keys tabs : list (list Z)) (c : sctrl) : option (list row) :=
  read_file pn stale keys tabs (c_sizes c) [] (c_file c).

(** sis_disk_io_write_sno_widx, 324-370: the nodes of every block of the index; a block is written when it is larger than [imax]
    (SIS_DISK_MAXLEN_IDXPAGE, 16777215) *)
Fixpoint idx_blocks (imax : Z) (ilen : snode -> Z) (cur : list snode) (size : Z) (l : list snode) : list (list snode) :=
  match l with
  | [] => match cur with [] => [] | _ => [cur] end
  | d :: l' => if imax <? size + ilen d then (cur ++ [d]) :: idx_blocks imax ilen [] 0 l'
               else idx_blocks imax ilen (cur ++ [d]) (size + ilen d) l'
  end.
(** cb_sis_disk_io_read_sno_widx, 668-790: map_idxs, and sno_pages, which every block of the index sets anew; the block of the ends of
    pages comes before and sets it to 1 *)
Definition max_page (g : list snode) : Z := fold_left Z.max (map snd (flat_map n_units g)) 0.
Definition read_idx (keys tabs : list (list Z)) (gs : list (list snode)) : named snode * Z :=
  (fold_left (fun m d => mset m (firstn 254 (full_name keys tabs (n_key d) (n_tab d))) d) (concat gs) [], last (map max_page gs) 0 + 1).
(** _disk_io_sub_sno_parts, 504-523 *)
Definition chosen (keys tabs : list (list Z)) (ks ts : list Z) (d : snode) : bool :=
  side_ok true (nth (n_tab d) tabs []) (Some ts) && side_ok false (nth (n_key d) keys []) (Some ks).
(** one page, 549-577: every part whose next unit is of this page is read, and its cursor moves (the units left are kept) *)
Fixpoint read_parts (pn : Z) (stale : nat -> Z) (keys tabs : list (list Z)) (sizes : nat -> nat) (file : list sblock) (page : Z)
                    (l : list rpage) (parts : list (list (nat * Z))) : option (list rpage * list (list (nat * Z))) :=
  match parts with
  | [] => Some (l, [])
  | us :: ps =>
    let go l us := match read_parts pn stale keys tabs sizes file page l ps with Some (l', ps') => Some (l', us :: ps') | None => None end in
    match us with
    | (b, p) :: us' =>
      if p =? page then
        match nth_error file b with
        | Some (Msg x) => match read_msg pn stale keys tabs sizes l x with Some l' => go l' us' | None => None end
        | _ => go l us'
        end
      else go l us
    | [] => go l us
    end
  end.
(** the loop over the pages, 546-588; [n] pages are left *)
Fixpoint read_pages (pn : Z) (stale : nat -> Z) (keys tabs : list (list Z)) (sizes : nat -> nat) (file : list sblock) (n : nat) (page : Z)
                    (l : list rpage) (parts : list (list (nat * Z))) : option (list row) :=
  match n with
  | O => Some []
  | S n' =>
    match read_parts pn stale keys tabs sizes file page l parts with
    | None => None
    | Some (l', ps) => match read_pages pn stale keys tabs sizes file n' (page + 1) (rclear l') ps with
                       | Some o => Some (drain l' ++ o)
                       | None => None
                       end
    end
  end.
(** the smallest first page, 535-542 *)
Definition min_page (parts : list (list (nat * Z))) : Z :=
  match map (fun us => match us with (_, p) :: _ => p | [] => 0 end) parts with
  | [] => 0
  | p :: l => fold_left Z.min l p
  end.
(** sis_disk_io_sub_sno for some keys and tables, 524-593, 636-641, after the index was read *)
Definition sub_part (pn imax : Z) (ilen : snode -> Z) (stale : nat -> Z) (keys tabs : list (list Z)) (ks ts : list Z) (c : sctrl) : option (list row) :=
  let '(idx, pages) := read_idx keys tabs (idx_blocks imax ilen [] 0 (map snd (c_idx c))) in
  let parts := map n_units (filter (chosen keys tabs ks ts) (map snd idx)) in
  match parts with
  | [] => Some []
  | _ => read_pages pn stale keys tabs (c_sizes c) (c_file c) (Z.to_nat (pages - min_page parts)) (min_page parts) [] parts
  end.
