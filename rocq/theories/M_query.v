(** Model of the commands get and del for a key with a series of records ordered by time: workers/sisdb/sisdb.c 217-259, 311-336,
    workers/sisdb/sisdb_io.c 23-178, 246-290, src/core/sis_utils.c 277-306, 360-433, src/core/sis_db.c 30-70.
    JSON texts are those of M_json, tables those of M_table, texts of records those of M_rectext, the series and the search in it
    those of M_fmap with records that are lists of bytes.

    Simplifications: the key exists and is of style SDB, all its records are in memory (loading from disk is not modelled);
    answers as CSV texts and fields with decimals are not modelled ([QNone]); bytes read outside of the records of the answer are
    not given ([QOutside]); products of an index or a count and a length do not overflow an int. *)
From Coq Require Import String.
From Verif Require Import Base S_server S_map S_table M_dynamic M_table S_json M_json M_netmsg M_tabdef M_rectext M_fmap M_sub M_csv.
Open Scope list_scope. Open Scope Z_scope.

(** * The request *)
(** s_sisdb_fmap_cmd, sisdb_fmap.h:144-168: cmpmode (true: WHERE), start, stop (msec_t, kept as the int64 they come from), offset
    (int), ifprev (int8) *)
Record qcmd := mkq { q_where : bool; q_start : Z; q_stop : Z; q_offset : Z; q_prev : Z }.
(** if (sis_json_cmp_child_node(n, offset)) cmd_->offset = ..., sisdb_io.c:38-41, 61-64 *)
Definition get_offset (n : jnode) : Z := to_s 32 (node_int n (bs "offset"%string) 0).
Definition has_start (n : jnode) : bool := match find_key (jkids n) (bs "start"%string) with Some _ => true | None => false end.
(** _init_cmd_from_get, sisdb_io.c:23-77; its result is not looked at (100, 129) *)
Definition init_cmd (node : option jnode) : qcmd :=
  match node with
  | None => mkq false (- 1) 0 0 0
  | Some n =>
      match find_key (jkids n) (bs "range"%string) with
      | Some r =>
          if has_start r then
            mkq false (node_int r (bs "start"%string) 0) (node_int r (bs "stop"%string) 0) (get_offset r)
                (to_s 8 (node_int r (bs "ifprev"%string) 0))
          else mkq false (- 1) 0 (get_offset r) 0
      | None =>
          match find_key (jkids n) (bs "where"%string) with
          | Some w => mkq true (if has_start w then node_int w (bs "start"%string) 0 else - 1) 0 (get_offset w) 0
          | None => mkq false (- 1) 0 0 0
          end
      end
  end.
(** _read_fields, sisdb_io.c:79-93: all fields, some, or sis_strncmp on a NULL pointer *)
Inductive fsel := FAll | FSome (names : list (list Z)) | FCrash.
Definition read_fields (node : option jnode) : fsel :=
  match node with
  | None => FAll
  | Some n =>
      match find_key (jkids n) (bs "fields"%string) with
      | None => FAll
      | Some c =>
          match jval c with
          | None => FCrash
          | Some v => match v with 42 :: _ => FAll | _ => FSome (pieces 44 [] v) end
          end
      end
  end.
(** sis_db_get_format_from_node, sis_db.c:30-70, and the numbers of sis_db.h:20-30; OStr: no form of the answer (sisdb_io.c:149-175) *)
Inductive ofmt := OBytes | OJson | OArray | OCsv | OStr.
Definition get_format (n : jnode) : ofmt :=
  match find_key (jkids n) (bs "format"%string) with
  | Some c =>
      match jval c with
      | Some (ch :: _) =>
          if (ch =? 122) || (ch =? 90) || (ch =? 115) || (ch =? 83) || (ch =? 98) || (ch =? 66) then OBytes
          else if (ch =? 106) || (ch =? 74) then OJson
          else if (ch =? 97) || (ch =? 65) then OArray
          else if (ch =? 99) || (ch =? 67) then OCsv
          else OStr
      | _ => OArray
      end
  | None => OArray
  end.

(** * The answer *)
(** NULL, a text, bytes, a crash (NULL pointer, or a buffer on the stack is overrun), bytes from outside, texts too deep or too
    long for their buffers, what is not modelled *)
Inductive qres := QNull | QText (t : list Z) | QBytes (b : list Z) | QCrash | QOutside | QDeep | QOver | QNone.
Definition of_text (w : option wres) : qres :=
  match w with None => QNone | Some (WText t) => QText t | Some WOver => QOver | Some WNull => QNull end.

(** sis_dynamic_db_get_field, sis_dynamic.c:267-283, with an index; the parts of the name go to two buffers of 128 bytes.
    None: these are overrun *)
Definition get_field (t : table) (name : list Z) : option (option (tfield * Z)) :=
  match field_named t name with
  | Some f => Some (Some (f, 0))
  | None =>
      match divide 128 name [] with
      | None => None
      | Some (n, a, b) =>
          Some (match field_named t a with
                | Some f => if n =? 2 then Some (f, to_s 32 (atoll b)) else None
                | None => None
                end)
      end
  end.
Inductive ures := UBytes (o : option (list Z)) | UCrash | UOutside.
(** the inner loop of sisdb_sdb_struct_to_sds, sis_utils.c:286-302, for the record at [base]; [o] is the string so far *)
Fixpoint cat_fields (t : table) (mem : list Z) (base : nat) (names : list (list Z)) (o : option (list Z)) : ures :=
  match names with
  | [] => UBytes o
  | n :: r =>
      match get_field t n with
      | None => UCrash
      | Some None => cat_fields t mem base r o
      | Some (Some (f, index)) =>
          let p := Z.of_nat base + Z.of_nat (f_off f) + index * Z.of_nat (f_len f) in
          if (0 <=? p) && (p + Z.of_nat (f_len f) <=? Z.of_nat (List.length mem)) then
            match slice mem (Z.to_nat p) (f_len f) with
            | Some b => cat_fields t mem base r (Some (match o with Some x => x ++ b | None => b end))
            | None => UOutside
            end
          else UOutside
      end
  end.
(** the outer loop, 284-304 *)
Fixpoint cat_rows (t : table) (mem : list Z) (names : list (list Z)) (n k : nat) (o : option (list Z)) : ures :=
  match n with
  | O => UBytes o
  | S n' => match cat_fields t mem (k * Z.to_nat (t_size t)) names o with
            | UBytes o' => cat_rows t mem names n' (S k) o'
            | r => r
            end
  end.
Definition rec_count (t : table) (mem : list Z) : nat := Z.to_nat (to_s 32 (Z.of_nat (List.length mem) / t_size t)).
(** sisdb_sdb_struct_to_sds, sis_utils.c:277-306 *)
Definition struct_to_sds (t : table) (mem : list Z) (names : list (list Z)) : qres :=
  match cat_rows t mem names (rec_count t mem) 0 None with
  | UBytes None => QNull
  | UBytes (Some b) => QBytes b
  | UCrash => QCrash
  | UOutside => QOutside
  end.
(** sis_map_list_get for each name; None: for one of them the NULL pointer *)
Fixpoint units_named (t : table) (names : list (list Z)) : option (list tfield) :=
  match names with
  | [] => Some []
  | n :: r => match field_named t n, units_named t r with Some f, Some l => Some (f :: l) | _, _ => None end
  end.
(** the rows, sis_utils.c:365-377, 413-426: each is an array, also a single one; None: not modelled *)
Definition rows_of (t : table) (us : list tfield) (mem : list Z) : option (list (list item)) :=
  mem_rows (Z.to_nat (t_size t)) us mem (rec_count t mem) 0.
Definition array_of (key : option (list Z)) (rs : list (list item)) : jnode :=
  JN 6 key None (map (fun r => JN 6 None None (items 0 r)) rs).
(** sis_sdb_fields_to_array_sds, sis_utils.c:360-381; the fields are looked at for each record *)
Definition fields_to_array (t : table) (mem : list Z) (names : list (list Z)) : qres :=
  match rec_count t mem, units_named t names with
  | O, _ => of_text (Some (json_output false (array_of None [])))
  | _, None => QCrash
  | _, Some us => match rows_of t us mem with
                  | Some rs => of_text (Some (json_output false (array_of None rs)))
                  | None => QNone
                  end
  end.
(** the member fields, sis_utils.c:391-410: the name of a unit (several with their numbers if it is repeated, written to 64 bytes)
    and the number of the name in the request *)
Fixpoint repeated_names (u : tfield) (i : Z) (n k : nat) : list jnode :=
  match n with
  | O => []
  | S n' => JN 2 (Some (firstn 63 (f_name u ++ lldtoa (Z.of_nat k)))) (Some (lldtoa i)) [] :: repeated_names u i n' (S k)
  end.
Fixpoint names_nodes (i : Z) (us : list tfield) : list jnode :=
  match us with
  | [] => []
  | u :: r => (if (1 <? f_count u)%nat then repeated_names u i (f_count u) 0 else [JN 2 (Some (f_name u)) (Some (lldtoa i)) []]) ++ names_nodes (i + 1) r
  end.
(** sis_sdb_fields_to_json_sds, sis_utils.c:383-433, with isfields_ and a key *)
Definition fields_to_json (t : table) (key mem : list Z) (names : list (list Z)) : qres :=
  match units_named t names with
  | None => QCrash
  | Some us =>
      match rows_of t us mem with
      | Some rs => of_text (Some (json_output false (JN 7 None None [JN 7 (Some w_fields) None (names_nodes 0 us); array_of (Some key) rs])))
      | None => QNone
      end
  end.

Section Query.
(** the time of a record and the quotient in the search, see M_fmap *)
Variable mi : list Z -> Z.
Variable quot : Z -> Z -> Z.
(** sisdb_fmap_cxt_tsdb_read without a callback, sisdb_fmap_read.c:11-49: the records that imem and isize stand for.
    start goes as msec_t to the search for one time, as int64 to the search for a range *)
Definition read_recs (u : @funit (list Z)) (c : qcmd) : option (list (list Z)) :=
  match (if q_where c then cmp_where mi quot u (to_u 64 (q_start c)) (q_offset c)
         else cmp_range mi quot u (q_start c) (q_stop c) (negb (q_prev c =? 0))) with
  | None => None
  | Some None => Some []
  | Some (Some (i, n)) => Some (if (0 <? n) && (0 <=? i) then firstn (Z.to_nat n) (skipn (Z.to_nat i) (fu_recs u)) else [])
  end.
(** sisdb_io_get_sds, sisdb_io.c:97-124 *)
Definition get_sds (t : table) (u : @funit (list Z)) (node : option jnode) : qres :=
  match read_recs u (init_cmd node) with
  | None => QNone
  | Some recs =>
      match read_fields node with
      | FCrash => QCrash
      | FAll => QBytes (List.concat recs)
      | FSome names => struct_to_sds t (List.concat recs) names
      end
  end.
(** sisdb_io_get_chars_sds, sisdb_io.c:126-178 *)
Definition get_chars (t : table) (u : @funit (list Z)) (key : list Z) (fmt : ofmt) (node : option jnode) : qres :=
  match read_recs u (init_cmd node) with
  | None => QNone
  | Some recs =>
      let mem := List.concat recs in
      match read_fields node with
      | FCrash => QCrash
      | FAll =>
          match fmt with
          | OJson | OArray => of_text (to_array_text t (Some key) mem)
          | OCsv => QNone
          | _ => QNull
          end
      | FSome names =>
          match fmt with
          | OJson => fields_to_json t key mem names
          | OArray => fields_to_array t mem names
          | OCsv => QNone
          | _ => QNull
          end
      end
  end.
(** cmd_sisdb_get, sisdb.c:217-243; [info]: the request, if there is one; [d]: the depth of calls, see M_json *)
Definition cmd_get (d : nat) (t : table) (u : @funit (list Z)) (key : list Z) (info : option (list Z)) : qres :=
  match info with
  | None => get_chars t u key OArray None
  | Some txt =>
      match json_load d txt with
      | LTree n =>
          match get_format n with
          | OBytes => get_sds t u (Some n)
          | f => get_chars t u key f (Some n)
          end
      | LNull => get_chars t u key OArray None
      | _ => QDeep
      end
  end.

(** what a del does: nothing, the series afterwards, a crash *)
Inductive dres := DNothing | DDone (u : @funit (list Z)) | DCrash | DDeep | DFuel.
(** sisdb_io_del, sisdb_io.c:247-290 *)
Definition io_del (u : @funit (list Z)) (n : jnode) : dres :=
  let go range start stop := match M_fmap.del mi quot range u start stop with Some u' => DDone u' | None => DFuel end in
  match find_key (jkids n) (bs "range"%string) with
  | Some r =>
      if has_start r then
        let start := node_int r (bs "start"%string) 0 in go true start (node_int r (bs "stop"%string) start)
      else DNothing
  | None =>
      match find_key (jkids n) (bs "where"%string) with
      | Some w => if has_start w then go false (to_u 64 (node_int w (bs "start"%string) 0)) 0 else DNothing
      | None => go false 0 0
      end
  end.
(** cmd_sisdb_del, sisdb.c:311-336, for a key with a point: the length of the request is read without looking whether there is one *)
Definition cmd_del (d : nat) (u : @funit (list Z)) (info : option (list Z)) : dres :=
  match info with
  | None => DCrash
  | Some txt =>
      match json_load d txt with
      | LTree n => io_del u n
      | LNull => DNothing
      | _ => DDeep
      end
  end.
End Query.
