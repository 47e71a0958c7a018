(** Model of records shown as JSON texts and set from them: src/core/sis_utils.c, src/core/sis_dynamic.h and workers/sisdb/sisdb_io.c.
    Nodes and texts are those of M_json, fields and tables those of M_table and M_tabdef.

    Simplification: fields with decimals (floats and prices) are not modelled; a table with one gives [None] here (no result).
    [None] is also an access outside the memory of a record. *)
From Coq Require Import String.
From Verif Require Import Base S_server S_map S_table M_dynamic M_table S_json M_json M_netmsg M_tabdef.
Open Scope list_scope. Open Scope Z_scope.

(** * Showing *)
(** the unit at the record that begins at [base] *)
Definition at_base (base : nat) (f : field) : field := mkfield (fstyle f) (flen f) (fcount f) (base + foff f).
(** the kinds handled as unsigned whole numbers, sis_dynamic.h:448-452, 499-503 *)
Definition uint_kind (k : Z) : bool := time_kind k || (k =? K_UINT).
(** one turn of the loop of sis_dynamic_field_to_array, sis_dynamic.h:441-473; sis_lldtoa (os_str.h:96-143) changes the sign of the
    smallest number, which has no result; texts are copied by sis_strdup (sis_str.c:111-126) and used up to the first zero *)
Definition elem_item (base : nat) (u : tfield) (mem : list Z) (i : nat) : option item :=
  let f := at_base base (f_at u) in
  let k := f_style u in
  if k =? K_INT then
    match fget_int f mem i with Some v => if v =? - 2 ^ 63 then None else Some (IUint v) | None => None end
  else if uint_kind k then option_map IUint (fget_uint f mem i)
  else if (k =? K_FLOAT) || (k =? K_PRICE) then None
  else if k =? K_CHAR then option_map (fun b => IStr (cstr b)) (slice mem (foff f + i * flen f) (flen f))
  else Some (IStr [32]).
(** the loop 441 *)
Fixpoint elem_items (base : nat) (u : tfield) (mem : list Z) (n i : nat) : option (list item) :=
  match n with
  | O => Some []
  | S n' => match elem_item base u mem i, elem_items base u mem n' (S i) with Some x, Some r => Some (x :: r) | _, _ => None end
  end.
(** the loop over the fields of a record, sis_utils.c:141-145 *)
Fixpoint row_items (base : nat) (us : list tfield) (mem : list Z) : option (list item) :=
  match us with
  | [] => Some []
  | u :: r => match elem_items base u mem (f_count u) 0, row_items base r mem with Some a, Some b => Some (a ++ b) | _, _ => None end
  end.
(** the loop over the records, 138-156 *)
Fixpoint mem_rows (size : nat) (us : list tfield) (mem : list Z) (n k : nat) : option (list (list item)) :=
  match n with
  | O => Some []
  | S n' => match row_items (k * size) us mem, mem_rows size us mem n' (S k) with Some a, Some b => Some (a :: b) | _, _ => None end
  end.
(** the array of the records: of a single one only its values (146-150); rows are added without a key (sis_json_array_add_node,
    sis_json.c:658-676) *)
Definition rows_node (key : option (list Z)) (rs : list (list item)) : jnode :=
  match rs with
  | [r] => JN 6 key None (items 0 r)
  | _ => JN 6 key None (map (fun r => JN 6 None None (items 0 r)) rs)
  end.
(** sis_sdb_to_array_sds, sis_utils.c:123-170 *)
Definition to_array_text (t : table) (key : option (list Z)) (mem : list Z) : option wres :=
  let count := to_s 32 (Z.of_nat (List.length mem) / t_size t) in
  if (count <? 1) || (Z.of_nat (List.length (t_fields t)) <? 1) then Some WNull
  else match mem_rows (Z.to_nat (t_size t)) (fields_of t) mem (Z.to_nat count) 0 with
       | None => None
       | Some rs => Some (json_output false (match key with
                                             | Some k => JN 7 None None [rows_node (Some k) rs]
                                             | None => rows_node None rs
                                             end))
       end.

(** * Setting *)
(** sis_str_split at a point, sis_str.c:140-150, as used in sis_json_find_node: what is before the first point, if there is one
    and something before it *)
Fixpoint to_point (p : list Z) : option (list Z * list Z) :=
  match p with
  | [] => None
  | c :: r => if c =? 46 then Some ([], r) else match to_point r with Some (a, b) => Some (c :: a, b) | None => None end
  end.
(** sis_json_find_node, sis_json.c:1600-1618; the name before a point is copied to 128 bytes (os_str.h:43-58); [fuel]: points *)
Fixpoint find_path (fuel : nat) (kids : list jnode) (path : list Z) : option jnode :=
  match fuel with
  | O => find_key kids path
  | S f =>
      match to_point path with
      | Some (c :: a, r) => match find_key kids (firstn 127 (c :: a)) with Some n => find_path f (jkids n) r | None => None end
      | _ => find_key kids path
      end
  end.
Definition find_node (n : jnode) (path : list Z) : option jnode := find_path (List.length path) (jkids n) path.
(** sis_dynamic_field_json_to_struct, sis_dynamic.h:477-535, at the record that begins at [base] *)
Definition put_elem (base : nat) (u : tfield) (i : nat) (key : list Z) (n : jnode) (out : list Z) : option (list Z) :=
  let f := at_base base (f_at u) in
  let k := f_style u in
  if k =? K_CHAR then
    match find_node n key with
    | Some c => match jval c with
                | Some s =>
                    let len := Nat.min (flen f) (List.length s) in
                    match splice out (foff f + i * flen f) (firstn len s) with
                    | Some o => if (len <? flen f)%nat then splice o (foff f + i * flen f + len) [0] else Some o
                    | None => None
                    end
                | None => Some out
                end
    | None => Some out
    end
  else if uint_kind k || (k =? K_INT) then
    match find_node n key with
    | Some c => fset f out (match jval c with Some v => atoll v | None => 0 end) i
    | None => Some out
    end
  else if (k =? K_FLOAT) || (k =? K_PRICE) then None
  else Some out.
(** what comes out: the null pointer, bytes, no result, or a text nested too deeply for the stack *)
Inductive cres := CNull | CBytes (b : list Z) | CBad | CDeep.

(** the inner loop of sis_array_to_struct_sds, sis_utils.c:481-487: [fidx] counts the values used *)
Fixpoint put_elems (base : nat) (u : tfield) (n i : nat) (fidx : Z) (jv : jnode) (out : list Z) : option (list Z) :=
  match n with
  | O => Some out
  | S n' => match put_elem base u i (lldtoa fidx) jv out with
            | Some o => put_elems base u n' (S i) (fidx + 1) jv o
            | None => None
            end
  end.
(** the loop over the fields, 478-488 *)
Fixpoint put_row (base : nat) (us : list tfield) (fidx : Z) (jv : jnode) (out : list Z) : option (list Z) :=
  match us with
  | [] => Some out
  | u :: r => match put_elems base u (f_count u) 0 fidx jv out with
              | Some o => put_row base r (fidx + Z.of_nat (f_count u)) jv o
              | None => None
              end
  end.
(** the loop over the rows, 467-491: a row with another number of values than there are fields is passed over *)
Fixpoint put_rows (size : nat) (nf : nat) (us : list tfield) (index : nat) (l : list jnode) (out : list Z) : option (list Z) :=
  match l with
  | [] => Some out
  | j :: r =>
      if (List.length (jkids j) =? nf)%nat then
        match put_row (index * size) us 0 j out with
        | Some o => put_rows size nf us (S index) r o
        | None => None
        end
      else put_rows size nf us index r out
  end.
(** sis_array_to_struct_sds, sis_utils.c:436-494; sis_sdsnewlen without bytes gives zeros (sis_sds.c:59-130) *)
Definition array_to_struct (d : nat) (t : table) (txt : list Z) : cres :=
  match json_load d txt with
  | LNull => CNull
  | LTree n =>
      let two := match jkids n with c :: _ => jty c =? 6 | [] => false end in
      let l := if two then jkids n else [n] in
      let size := Z.to_nat (t_size t) in
      match put_rows size (List.length (t_fields t)) (fields_of t) 0 l (repeat 0 (List.length l * size)) with
      | Some o => CBytes o
      | None => CBad
      end
  | _ => CDeep
  end.
(** the loops of sis_json_to_struct_sds, sis_utils.c:515-532; the name and number are written to 64 bytes *)
Fixpoint put_named (u : tfield) (n i : nat) (jv : jnode) (out : list Z) : option (list Z) :=
  match n with
  | O => Some out
  | S n' =>
      let key := if (1 <? f_count u)%nat then firstn 63 (f_name u ++ lldtoa (Z.of_nat i)) else f_name u in
      match put_elem 0 u i key jv out with
      | Some o => put_named u n' (S i) jv o
      | None => None
      end
  end.
Fixpoint put_fields (us : list tfield) (jv : jnode) (out : list Z) : option (list Z) :=
  match us with
  | [] => Some out
  | u :: r => match put_named u (f_count u) 0 jv out with Some o => put_fields r jv o | None => None end
  end.
(** sis_json_to_struct_sds, sis_utils.c:496-535, with ago_ = NULL as at all its calls (sisdb_io.c:220, frwdb.c:453) *)
Definition json_to_struct (d : nat) (t : table) (txt : list Z) : cres :=
  match json_load d txt with
  | LNull => CNull
  | LTree n => match put_fields (fields_of t) n (repeat 0 (Z.to_nat (t_size t))) with Some o => CBytes o | None => CBad end
  | _ => CDeep
  end.
(** the bytes that sisdb_io_set_chars, sisdb_io.c:209-234, hands to the update (CNull: refused with -1 or -3); the text is an object
    or an array according to its first byte *)
Definition set_bytes (d : nat) (t : table) (txt : list Z) : cres :=
  match txt with
  | c :: _ => if c =? 123 then json_to_struct d t txt else if c =? 91 then array_to_struct d t txt else CNull
  | [] => CNull
  end.
