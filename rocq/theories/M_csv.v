(** Model of CSV texts: src/core/sis_csv.c 5-251, 254-354; src/core/sis_csv.h 58-72; src/core/sis_memory.c 338-363, 475-514;
    src/core/sis_list.c 2153-2220; src/core/sis_str.c 412-432; src/core/sis_sds.c 513-578, 682-778; src/os/linux/os_str.h
    60-89; src/os/linux/os_file.c 100-135.

    Simplifications: a buffer is the list of its bytes that are not consumed (offset to size, C06); the map of the heading is
    its list of names (the last one of equal names is found, sis_dict.c:465-476, C36); %.*f of the C library is given by its
    result; atoll of the C library is modelled for decimal texts; files do not fail. *)
From Verif Require Import Base S_csv.

(** ** reading *)
(** sis_memory_get_line_sign, sis_memory.c:475-503: the length of the first line with its end, 0 if there is no end *)
Fixpoint get_line (len : nat) (l : list Z) : nat :=
  match l with
  | [] => 0
  | c :: l' => if c =? 10 then S len else match l' with [] => 0%nat | _ => get_line (S len) l' end
  end.
(** sis_trim, os_str.h:60-89, on a C string: what is up to the blank goes at the end, then at the beginning *)
Fixpoint drop_low (l : list Z) : list Z := match l with [] => [] | c :: l' => if 32 <? c then l else drop_low l' end.
Definition c_trim (l : list Z) : list Z := drop_low (rev (drop_low (rev (chars l)))).
(** sis_string_list_load, sis_list.c:2153-2220, with a sign of one byte *)
Fixpoint pieces (sep : Z) (cur : list Z) (l : list Z) : list (list Z) :=
  match l with
  | [] => match cur with [] => [] | _ => [c_trim cur] end
  | c :: l' => if c =? sep then c_trim cur :: pieces sep [] l' else pieces sep (cur ++ [c]) l'
  end.
(** the inner loop of _sis_file_csv_parse, sis_csv.c:22-50: the complete lines; what is left *)
Fixpoint take_lines {A} (f : list Z -> list A) (fuel : nat) (buf : list Z) : option (list A * list Z) :=
  match fuel with
  | O => None
  | S fuel' =>
    match get_line 0 buf with
    | O => Some ([], buf)
    | n => match take_lines f fuel' (skipn n buf) with Some (rs, lft) => Some (f (firstn n buf) ++ rs, lft) | None => None end
    end
  end.
(** the loop over the pieces of the file, sis_csv.c:13-51 (piece = SIS_MEMORY_SIZE) and 275-340 (64 MB) *)
Fixpoint read_pieces {A} (f : list Z -> list A) (piece : nat) (fuel : nat) (file buf : list Z) : option (list A) :=
  match fuel with
  | O => None
  | S fuel' =>
    match firstn piece file with
    | [] => Some []
    | got =>
      match take_lines f (S (length (buf ++ got))) (buf ++ got) with
      | None => None
      | Some (rs, lft) => match read_pieces f piece fuel' (skipn piece file) lft with Some rs2 => Some (rs ++ rs2) | None => None end
      end
    end
  end.
(** sis_csv.c:30-47: a line without cells is not kept *)
Definition parse_line (sep : Z) (line : list Z) : list (list (list Z)) :=
  match pieces sep [] line with [] => [] | r => [r] end.
(** sis_file_csv_open, sis_csv.c:57-80 *)
Definition csv_read (piece : nat) (sep : Z) (file : list Z) : option (list (list (list Z))) :=
  read_pieces (parse_line sep) piece (S (length file)) file [].

(** ** access *)
(** sis_file_csv_getsize, sis_csv.c:94-101 *)
Definition csv_size (rows : list (list (list Z))) : Z := Z.of_nat (length rows) - 1.
(** sis_pointer_list_get: none outside of the list *)
Definition lget {A} (l : list A) (i : Z) : option A := if (i <? 0) then None else nth_error l (Z.to_nat i).
(** sis_file_csv_fget_str, sis_csv.c:120-128 *)
Definition fget_str (rows : list (list (list Z))) (idx field : Z) : option (list Z) :=
  match lget rows (idx + 1) with
  | None => None
  | Some r => if (field <? 0) || (field >? Z.of_nat (length r) - 1) then None else lget r field
  end.
(** sis_map_int_get of the heading: the last of equal names; -1 without one *)
Fixpoint head_index (i : Z) (head : list (list Z)) (name : list Z) (found : Z) : Z :=
  match head with
  | [] => found
  | h :: hs => head_index (i + 1) hs name (if list_eq_dec Z.eq_dec h name then i else found)
  end.
Definition head_of (rows : list (list (list Z))) : list (list Z) := match rows with [] => [] | r :: _ => r end.
(** sis_file_csv_get_str, sis_csv.c:150-159 *)
Definition get_str (rows : list (list (list Z))) (idx : Z) (name : list Z) : option (list Z) :=
  fget_str rows idx (head_index 0 (head_of rows) name (-1)).
(** atoll: blanks, a sign, digits; None, out of range (undefined) *)
Fixpoint skip_space (l : list Z) : list Z :=
  match l with [] => [] | c :: l' => if (c =? 32) || ((9 <=? c) && (c <=? 13)) then skip_space l' else l end.
Fixpoint read_digits (a : Z) (l : list Z) : Z :=
  match l with [] => a | c :: l' => if (48 <=? c) && (c <=? 57) then read_digits (a * 10 + (c - 48)) l' else a end.
Definition c_atoll (l : list Z) : option Z :=
  let v := match skip_space l with
           | c :: l' => if c =? 45 then - read_digits 0 l' else if c =? 43 then read_digits 0 l' else read_digits 0 (c :: l')
           | [] => 0
           end in
  if (- 2 ^ 63 <=? v) && (v <? 2 ^ 63) then Some v else None.
(** sis_file_csv_fget_int, sis_csv.c:102-110 *)
Definition fget_int (rows : list (list (list Z))) (idx field dflt : Z) : option Z :=
  match fget_str rows idx field with None => Some dflt | Some t => c_atoll t end.
(** sis_file_csv_get_int, sis_csv.c:129-138 *)
Definition get_int (rows : list (list (list Z))) (idx : Z) (name : list Z) (dflt : Z) : option Z :=
  match get_str rows idx name with None => Some dflt | Some t => c_atoll t end.

(** ** the reader with a callback *)
(** sis_str_substr_nums, sis_str.c:412-432 *)
Definition substr_nums (l : list Z) (sep : Z) : nat :=
  (length (filter (fun c => Z.eqb c sep) l) + (if ((0 <? Z.of_nat (length l)) && negb (last l 0 =? sep))%Z then 1 else 0))%nat.
(** the loop over a line, sis_csv.c:313-331: position and length of the columns; columns that are not met keep length 0 *)
Fixpoint columns (sep : Z) (cols col start i : nat) (l : list Z) : list (nat * nat) :=
  match l with
  | [] => if Nat.eqb (S col) cols then [(start, (i - start)%nat)] else if Nat.ltb col cols then [(start, 0%nat)] else []
  | c :: l' =>
    if Nat.ltb col cols then
      if c =? sep then (start, (i - start)%nat) :: columns sep cols (S col) (S i) (S i) l'
      else columns sep cols col start (S i) l'
    else []
  end.
Definition sub_line (sep : Z) (line : list Z) : list (list (list Z)) :=
  [map (fun p => firstn (snd p) (skipn (fst p) line)) (columns sep (substr_nums line sep) 0 0 0 line)].
(** sis_file_csv_read_sub, sis_csv.c:254-354: the calls of the callback *)
Definition csv_sub (piece : nat) (sep : Z) (file : list Z) : option (list (list (list Z))) :=
  read_pieces (sub_line sep) piece (S (length file)) file [].
(** SIS_CSV_GET_INT, sis_csv.h:58-61: None, outside of char s[64] *)
Definition sub_int (c : list Z) : option Z := if Nat.ltb (length c) 64 then c_atoll (c_trim c) else None.
(** SIS_CSV_GET_STRING, sis_csv.h:68-71 *)
Definition sub_string (c : list Z) (oz : nat) : list Z := chars (firstn (oz - 1) c).

(** ** writing *)
(** the comma, sis_csv.c:200, 213, 225, 238 *)
Definition comma (out : list Z) : list Z := match out with [] => [] | _ => if last out 0 =? 10 then [] else [44] end.
(** sis_csv_make_str, sis_csv.c:192-209; None, the byte before the text is read (len_ is 0) *)
Definition make_str (out raw : list Z) : option (list Z) :=
  match raw with
  | [] => None
  | _ => Some (out ++ comma out ++ (if last raw 0 =? 0 then chars raw else raw))
  end.
(** sis_sdsull2str, sis_sds.c:549-578: digits from the right *)
Fixpoint digits (fuel : nat) (v : Z) : list Z :=
  match fuel with O => [] | S f => if v / 10 =? 0 then [48 + v mod 10] else digits f (v / 10) ++ [48 + v mod 10] end.
Definition ull2str (v : Z) : list Z := digits 20 v.
(** sis_sdsll2str, sis_sds.c:513-546; None, -2^63 is negated *)
Definition ll2str (v : Z) : option (list Z) :=
  if v =? - 2 ^ 63 then None else Some (if v <? 0 then 45 :: ull2str (- v) else ull2str v).
(** sis_csv_make_int, sis_csv.c:210-221 with sis_sdscatfmt *)
Definition make_int (out : list Z) (v : Z) : option (list Z) :=
  match ll2str v with Some t => Some (out ++ comma out ++ t) | None => None end.
(** sis_csv_make_uint, sis_csv.c:222-233 *)
Definition make_uint (out : list Z) (v : Z) : list Z := out ++ comma out ++ ull2str v.
(** sis_csv_make_double, sis_csv.c:234-247: snprintf into 16 bytes *)
Definition make_double (out t : list Z) : list Z := out ++ firstn 15 (comma out ++ t).
(** sis_csv_make_end, sis_csv.c:248-251 *)
Definition make_end (out : list Z) : list Z := out ++ [13; 10].
(** sis_dynamic_field_to_csv, sis_dynamic.h:396-435, one value *)
Definition put_cell (out : list Z) (c : cell) : option (list Z) :=
  match c with
  | CInt v => make_int out v
  | CUint v => Some (make_uint out v)
  | CText raw => make_str out raw
  | CDec t => Some (make_double out t)
  | CNone => make_str out [32]
  end.
Fixpoint put_cells (out : list Z) (r : list cell) : option (list Z) :=
  match r with [] => Some out | c :: r' => match put_cell out c with Some o => put_cells o r' | None => None end end.
(** the loop of sis_db_struct_to_csv_sds, sis_db.c:172-184 *)
Fixpoint put_rows (out : list Z) (rows : list (list cell)) : option (list Z) :=
  match rows with
  | [] => Some out
  | r :: rows' => match put_cells out r with Some o => put_rows (make_end o) rows' | None => None end
  end.
(** sis_csv_write_open and sis_csv_write, sis_csv.c:170-186 with sis_file_open, os_file.c:100-135: the file before (None, there
    is none) and after; an existing file is opened with "rb+", at its beginning *)
Definition write_file (isnew : bool) (old : option (list Z)) (text : list Z) : list Z :=
  match (if isnew then None else old) with
  | None => text
  | Some o => text ++ skipn (length text) o
  end.
