(** Model of the list of contents of a store of time series: src/core/disk/sis_disk.io.sdb.c 158-234, 622-694;
    sis_disk_ctrl.c 387-402, 421-430.

    The list of maps is kept in the form proved for named lists (C36), the list of units of a map in the form proved for sorted
    lists (C14).  Simplifications: keys and tables are given by their numbers in the dictionaries, which are the same when the
    file is read (C57, C58: blocks are read as they were written and in that order); texts hold no zero; the file is read into
    memory without compression; the value of ktype is between 0 and 255. *)
From Verif Require Import Base M_memory S_mapfile.

(** s_sis_disk_map, sis_disk.io.h:374-380, with the units: date and active, ascending *)
Record dmap := mkdm { d_key : nat; d_tab : option nat; d_active : Z; d_ktype : Z; d_units : list (Z * Z) }.
(** a named list, s_sis_map_list, in order of first setting *)
Definition named (A : Type) : Type := list (list Z * A).
Definition maps : Type := named dmap.
(** sis_map_list_get, sis_map.c:198-213 *)
Fixpoint mget {A} (m : named A) (n : list Z) : option A :=
  match m with
  | [] => None
  | (x, d) :: m' => if list_eq_dec Z.eq_dec x n then Some d else mget m' n
  end.
(** sis_map_list_set, sis_map.c:216-234 *)
Fixpoint mset {A} (m : named A) (n : list Z) (d : A) : named A :=
  match m with
  | [] => [(n, d)]
  | (x, e) :: m' => if list_eq_dec Z.eq_dec x n then (x, d) :: m' else (x, e) :: mset m' n d
  end.
(** sis_sort_list_find and sis_sort_list_set, sis_list.c:701-722, 779-795 *)
Fixpoint uget (l : list (Z * Z)) (k : Z) : option Z :=
  match l with [] => None | (x, v) :: l' => if x =? k then Some v else uget l' k end.
Fixpoint uset (l : list (Z * Z)) (k v : Z) : list (Z * Z) :=
  match l with
  | [] => [(k, v)]
  | (x, w) :: l' => if x =? k then (x, v) :: l' else if k <? x then (k, v) :: l else (x, w) :: uset l' k v
  end.

(** the text by which a map is found: "%s.%s" cut to 254 bytes, 161-169 and 651-658; a key or table that is not in the
    dictionary is a null pointer that is read (None) *)
Definition name_of (keys tabs : list (list Z)) (k : nat) (t : option nat) : option (list Z) :=
  match nth_error keys k with
  | None => None
  | Some kn => match t with
               | None => Some (firstn 254 kn)
               | Some j => match nth_error tabs j with Some tn => Some (firstn 254 (kn ++ 46 :: tn)) | None => None end
               end
  end.

Record mfile := mkmf { f_maps : maps; f_blocks : list (list Z) }.
(** the bytes of a block, 205-233 *)
Definition block_bytes (k : nat) (t : option nat) (active ktype uactive date : Z) : list Z :=
  let m := mem_cat_ssize mem_create (Z.of_nat k) in
  let m := mem_cat_ssize m (match t with Some j => Z.of_nat j + 1 | None => 0 end) in
  let m := mem_cat_byte m active 1 in
  let m := mem_cat_byte m ktype 1 in
  let m := mem_cat_ssize m 1 in
  let m := mem_cat_byte m 1 (Z.to_nat uactive) in   (* value and width exchanged, 232 *)
  let m := mem_cat_ssize m date in
  mem_live m.
(** sis_disk_io_write_map, 158-234 *)
Definition write_map (keys tabs : list (list Z)) (f : mfile) (ktype : Z) (p : place) (moved : bool) : option mfile :=
  match name_of keys tabs (p_key p) (p_tab p) with
  | None => None
  | Some n =>
    let found := mget (f_maps f) n in
    let map := match found with Some d => d | None => mkdm (p_key p) (p_tab p) 1 ktype [] end in
    let put a := Some (mkmf (mset (f_maps f) n (mkdm (d_key map) (d_tab map) (d_active map) (d_ktype map) (uset (d_units map) (p_date p) a)))
                            (f_blocks f ++ [block_bytes (p_key p) (p_tab p) (d_active map) (d_ktype map) a (p_date p)])) in
    match found with
    | None => if moved then Some f else put 1
    | Some d => match uget (d_units d) (p_date p) with
                | None => if moved then Some f else put 1
                | Some _ => if moved then put 0 else Some f
                end
    end
  end.

(** the loop over the units, 664-672 *)
Fixpoint read_units (stale : nat -> Z) (n : nat) (m : mem) (l : list (Z * Z)) : option (list (Z * Z)) :=
  match n with
  | O => Some l
  | S n' => match mem_get_byte stale m 1 with
            | None => None
            | Some (a, m1) =>
              match mem_get_ssize stale m1 with
              | None => None
              | Some (d, m2) => read_units stale n' m2 (uset l (to_u 32 d) (to_u 8 a))
              end
            end
  end.
(** cb_sis_disk_io_read_sdb_map, 639-687, with sis_disk_map_merge, sis_disk_ctrl.c:421-430; a number that is not one of a table is
    taken for none; None, memory outside is read *)
Definition read_block (stale : nat -> Z) (keys tabs : list (list Z)) (m : maps) (b : list Z) : option maps :=
  match mem_get_ssize stale (mem_cat mem_create b) with
  | None => None
  | Some (k, m1) =>
    match mem_get_ssize stale m1 with
    | None => None
    | Some (s, m2) =>
      let kidx := Z.to_nat (to_s 32 k) in
      let tidx := if (0 <=? to_s 32 (s - 1)) && (to_s 32 (s - 1) <? Z.of_nat (List.length tabs)) then Some (Z.to_nat (to_s 32 (s - 1))) else None in
      match (if to_s 32 k <? 0 then None else name_of keys tabs kidx tidx) with
      | None => None
      | Some n =>
        match mem_get_byte stale m2 1 with
        | None => None
        | Some (act, m3) =>
          match mem_get_byte stale m3 1 with
          | None => None
          | Some (kt, m4) =>
            match mem_get_ssize stale m4 with
            | None => None
            | Some (c, m5) =>
              match read_units stale (Z.to_nat (to_s 32 c)) m5 [] with
              | None => None
              | Some us =>
                match mget m n with
                | Some d => Some (mset m n (mkdm (d_key d) (d_tab d) (d_active d) (d_ktype d)
                                                 (fold_left (fun l '(k, v) => uset l k v) us (d_units d))))
                | None => Some (mset m n (mkdm kidx tidx (to_u 8 act) (to_u 8 kt) us))
                end
              end
            end
          end
        end
      end
    end
  end.
(** sis_disk_io_read_sdb_map, 695-720: all blocks, into an empty list *)
Fixpoint read_blocks (stale : nat -> Z) (keys tabs : list (list Z)) (m : maps) (bs : list (list Z)) : option maps :=
  match bs with
  | [] => Some m
  | b :: bs' => match read_block stale keys tabs m b with Some m' => read_blocks stale keys tabs m' bs' | None => None end
  end.
Definition empty_file : mfile := mkmf [] [].
(** one change; the type of a key is [ktype] of the key and table *)
Definition mstep (stale : nat -> Z) (keys tabs : list (list Z)) (ktype : nat -> option nat -> Z) (f : mfile) (c : change) : option mfile :=
  match c with
  | Added p => write_map keys tabs f (ktype (p_key p) (p_tab p)) p false
  | Removed p => write_map keys tabs f (ktype (p_key p) (p_tab p)) p true
  | Reopened => match read_blocks stale keys tabs [] (f_blocks f) with Some m => Some (mkmf m (f_blocks f)) | None => None end
  end.
Fixpoint mrun (stale : nat -> Z) (keys tabs : list (list Z)) (ktype : nat -> option nat -> Z) (f : mfile) (h : list change) : option mfile :=
  match h with
  | [] => Some f
  | c :: h' => match mstep stale keys tabs ktype f c with Some f' => mrun stale keys tabs ktype f' h' | None => None end
  end.
(** what the list shows: a map of this key and table has an active unit of this date *)
Definition shown (m : maps) (p : place) : Prop :=
  exists n d a, In (n, d) m /\ d_key d = p_key p /\ d_tab d = p_tab p /\ In (p_date p, a) (d_units d) /\ a <> 0.
