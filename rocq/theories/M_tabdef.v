(** Model of the definitions of tables as they are written to dictionaries and sent to clients, and read back: JSON nodes made
    by src/core/sis_utils.c, the text of M_json, and the reading in src/core/sis_dynamic.c and src/core/disk/sis_disk_ctrl.c.
    The node of a definition is that of M_json; the maps by name are in the form proved for them in C36. *)
From Coq Require Import String.
From Verif Require Import Base S_server S_map S_table M_dynamic M_table S_json M_json M_netmsg.
Open Scope list_scope. Open Scope Z_scope.

(** _sis_dynamic_get_style, sis_dynamic.c:13-57; 0 = SIS_DYNAMIC_TYPE_NONE; sis_strcasecmp of NULL says different *)
Definition get_style (s : option (list Z)) : Z :=
  match s with
  | None => 0
  | Some s =>
    let is w c := case_eq s (bs w) || case_eq s [c] in
    if is "int"%string 73 then 73 else if is "wsec"%string 87 then 87 else if is "msec"%string 84 then 84
    else if is "second"%string 83 then 83 else if is "minute"%string 77 then 77 else if is "date"%string 68 then 68
    else if is "uint"%string 85 then 85 else if is "float"%string 70 then 70 else if is "char"%string 67 then 67
    else if is "price"%string 80 then 80 else 0
  end.
(** sis_json_get_str, sis_json.c:1504-1512, and sis_json_get_int, 1477-1485, for keys without a point *)
Definition node_str (n : jnode) (key : list Z) : option (list Z) :=
  match find_key (jkids n) key with Some c => jval c | None => None end.
Definition node_int (n : jnode) (key : list Z) (default : Z) : Z :=
  match node_str n key with Some v => atoll v | None => default end.
(** strchr on the flags, sis_dynamic.c:177-178 *)
Definition flagged (flag : option (list Z)) (a b : Z) : bool :=
  match flag with Some s => existsb (fun c => (c =? a) || (c =? b)) s | None => false end.
(** one turn of the loop of sis_dynamic_db_create, sis_dynamic.c:132-178, up to the definition of M_table: a node without key
    is skipped; the numbers are stored in ints *)
Definition def_of (n : jnode) : option fdef :=
  match jkey n with
  | None => None
  | Some name =>
      let flag := node_str n [52] in
      Some (mkdef name (get_style (node_str n [48])) (to_s 32 (node_int n [49] 4)) (to_s 32 (node_int n [50] 1))
                  (to_s 32 (node_int n [51] 0)) (flagged flag 73 105) (flagged flag 79 111))
  end.
Fixpoint defs_of (l : list jnode) : list fdef :=
  match l with [] => [] | n :: r => match def_of n with Some d => d :: defs_of r | None => defs_of r end end.
Definition w_fields : list Z := bs "fields"%string.
(** sis_dynamic_db_create, sis_dynamic.c:114-219 *)
Definition create_node (n : jnode) : option table :=
  match find_key (jkids n) w_fields with Some f => create (defs_of (jkids f)) | None => None end.

(** sis_json_array_add_string and sis_json_array_add_uint, sis_json.c:911-916, 935-940, 744-756, 800-812: the key is the number
    of nodes so far; sis_llutoa (os_str.h:145-183) gives the same digits as sis_lldtoa for these values *)
Inductive item := IStr (s : list Z) | IUint (v : Z).
Fixpoint items (i : Z) (l : list item) : list jnode :=
  match l with
  | [] => []
  | IStr s :: r => JN 5 (Some (lldtoa i)) (Some s) [] :: items (i + 1) r
  | IUint v :: r => JN 2 (Some (lldtoa i)) (Some (lldtoa v)) [] :: items (i + 1) r
  end.
(** the loop of sis_sdbinfo_to_json, sis_utils.c:76-118, for one field *)
Definition unit_items (u : tfield) : list item :=
  let sign := (if f_idx u then [73] else []) ++ (if f_only u then [79] else []) in
  let c := Z.of_nat (f_count u) in
  [IStr [f_style u]; IUint (Z.of_nat (f_len u))] ++
  match sign with
  | _ :: _ => [IUint c; IUint (f_dot u); IStr sign]
  | [] => if 0 <? f_dot u then [IUint c; IUint (f_dot u)] else if 0 <? c then [IUint c] else []
  end.
Definition unit_node (u : tfield) : jnode := JN 6 (Some (f_name u)) None (items 0 (unit_items u)).
(** the fields in order, sis_map_list_geti; a missing one is skipped (80) *)
Fixpoint fields_from (t : table) (n i : nat) : list tfield :=
  match n with O => [] | S n' => match field_at t i with Some u => u :: fields_from t n' (S i) | None => fields_from t n' (S i) end end.
Definition fields_of (t : table) : list tfield := fields_from t (length (t_fields t)) 0.
(** sis_sdbinfo_to_json, sis_utils.c:67-121, under the name it is added with (sis_json_object_add_node, sis_json.c:677-689) *)
Definition table_node (name : list Z) (t : table) : jnode :=
  JN 7 (Some name) None [JN 7 (Some w_fields) None (map unit_node (fields_of t))].
(** sis_disk_ctrl_write_sdict, sis_disk.io.c:420-429 (the same in sis_disk_ctrl_get_sdbs_sds, 467-478): the tables as one text
    (sis_json_to_sds, sis_utils.c:539-558, in the short form) *)
Definition dict_text (ts : list (list Z * table)) : wres :=
  json_output false (JN 7 None None (map (fun nt => table_node (fst nt) (snd nt)) ts)).

(** sis_dynamic_dbinfo_same, sis_dynamic.c:285-309: the units are compared byte by byte *)
Definition same_unit (u v : tfield) : bool :=
  (if list_eq_dec Z.eq_dec (f_name u) (f_name v) then true else false) && (f_style u =? f_style v) && (f_len u =? f_len v)%nat && (f_count u =? f_count v)%nat
  && (f_off u =? f_off v)%nat && (f_dot u =? f_dot v) && Bool.eqb (f_idx u) (f_idx v) && Bool.eqb (f_only u) (f_only v).
Fixpoint same_from (t t' : table) (n i : nat) : bool :=
  match n with
  | O => true
  | S n' => match field_at t i, field_at t' i with Some u, Some v => same_unit u v && same_from t t' n' (S i) | _, _ => false end
  end.
Definition same_info (t t' : table) : bool := (length (t_fields t) =? length (t_fields t'))%nat && same_from t t' (length (t_fields t)) 0.
(** the tables known by name with their versions: map_sdicts and sis_disk_sdict_isnew, sis_disk_ctrl.c:279-290, 348-362 *)
Fixpoint add_table (m : list (list Z * list table)) (name : list Z) (t : table) : list (list Z * list table) :=
  match m with
  | [] => [(name, [t])]
  | (k, l) :: r =>
      if same_name name k then (k, match rev l with x :: _ => if same_info x t then l else l ++ [t] | [] => [t] end) :: r
      else (k, l) :: add_table r name t
  end.
Fixpoint add_nodes (m : list (list Z * list table)) (l : list jnode) : list (list Z * list table) :=
  match l with
  | [] => m
  | n :: r => match create_node n, jkey n with Some t, Some k => add_nodes (add_table m k t) r | _, _ => add_nodes m r end
  end.
(** sis_disk_reader_set_sdict, sis_disk_ctrl.c:333-367; [d] is the depth of the stack of the parser *)
Definition read_dict (d : nat) (content : list Z) (m : list (list Z * list table)) : option (list (list Z * list table)) :=
  if (length content <? 16)%nat then Some m
  else match json_load d content with
       | LTree n => Some (add_nodes m (jkids n))
       | LNull => Some m
       | _ => None
       end.
(** the version in use: sis_map_list_get and sis_disk_sdict_last, sis_disk_ctrl.c:270-273 *)
Definition latest (m : list (list Z * list table)) (name : list Z) : option table :=
  match find (fun e => same_name name (fst e)) m with Some (_, l) => hd_error (rev l) | None => None end.
