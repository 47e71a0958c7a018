(** The JSON parser and writer, sis_json.c. *)
From Coq Require Import ZArith List Lia Bool.
From Verif Require Import Base S_json M_netmsg.
Import ListNotations.
Open Scope Z_scope.

(** ** Reading.  A pointer into the text is the rest of the text from there on, [] being the final 0;
    [None] is the null pointer.  Of handle_->error only whether it is null matters (399). *)
(** result of a parse function: out of stack, loop count used up, or the pointer returned, whether
    handle_->error is set, and the node *)
Inductive pres : Type :=
| PDeep
| PFuel
| POk (p : option (list Z)) (err : bool) (n : jnode).

(** skip, sis_json.c:11-18 *)
Fixpoint skip (p : list Z) : list Z :=
  match p with
  | c :: t => if c <=? 32 then skip t else p
  | [] => []
  end.
Definition skip_p (p : option (list Z)) : option (list Z) := option_map skip p.

(** the loop 161-166: the bytes passed over and what is left; [ago] is the byte before *)
Fixpoint scan_str (ago : Z) (p : list Z) : list Z * list Z :=
  match p with
  | [] => ([], [])
  | c :: t => if negb (c =? 34) || (ago =? 92)
              then let r := scan_str c t in (c :: fst r, snd r) else ([], p)
  end.
(** sis_strdup, sis_str.c:111-126: a length of 0 means up to the final 0 *)
Definition strdup (p : list Z) (len : nat) : list Z := match len with O => p | _ => firstn len p end.
(** _sis_replace_string, 128-149, on the bytes in_[0 .. size_); str[size_] is the final 0 *)
Fixpoint unesc (l : list Z) : list Z :=
  match l with
  | [] => []
  | c :: t =>
      match t with
      | d :: t' => if (c =? 92) && (d =? 34) then 34 :: unesc t' else c :: unesc t
      | [] => [c]
      end
  end.
(** the loop 178-181 *)
Fixpoint to_colon (p : list Z) : list Z :=
  match p with
  | [] => []
  | c :: t => if (c =? 58) || (c =? 44) then p else to_colon t
  end.
(** the loop of _sis_parse_info, 228-232: the bytes passed over and what is left *)
Fixpoint scan_info (p : list Z) : list Z * list Z :=
  match p with
  | [] => ([], [])
  | c :: t => if (c =? 44) || (c =? 32) then ([], p)
              else let r := scan_info t in (c :: fst r, snd r)
  end.
(** strchr("-.0123456789e", c) && c, 243 *)
Definition num_char (c : Z) : bool :=
  (c =? 45) || (c =? 46) || ((48 <=? c) && (c <=? 57)) || (c =? 101).
(** the loop of _sis_parse_number, 243-251: the bytes passed over, what is left, isfloat *)
Fixpoint scan_num (p : list Z) : list Z * list Z * bool :=
  match p with
  | [] => ([], [], false)
  | c :: t =>
      if num_char c then
        let '(s, r, f) := scan_num t in
        (c :: s, r, ((c =? 46) && (48 <=? hd 0 t) && (hd 0 t <=? 57)) || f)
      else ([], p, false)
  end.
(** tolower in the C locale *)
Definition lower (c : Z) : Z := if (65 <=? c) && (c <=? 90) then c + 32 else c.
(** !sis_strncasecmp(p, w, len), sis_str.c:68-88, for the word [w] of [len] letters *)
Fixpoint starts_ci (p w : list Z) {struct w} : bool :=
  match w, p with
  | [], _ => true
  | d :: w', c :: p' => (lower c =? lower d) && starts_ci p' w'
  | _ :: _, [] => false
  end.

Section Parse.
(** the recursive calls of _sis_parse_value *)
Variable pv : bool -> jnode -> option (list Z) -> pres.

(** _sis_parse_string, 151-207; [p] is what follows the opening quote *)
Definition parse_string (err : bool) (n : jnode) (p : list Z) : pres :=
  let '(s, rest) := scan_str 34 p in
  match rest with
  | [] => POk None true n
  | _ :: r =>
      let out := strdup p (length s) in
      match n with
      | JN ty None v kids =>
          match to_colon r with
          | [] => POk None true (JN ty (Some out) v kids)
          | c :: r' =>
              if c =? 58 then
                match pv err (JN ty (Some out) v kids) (Some (skip r')) with
                | POk q e m => POk (skip_p q) e m
                | x => x
                end
              else POk (Some (c :: r')) err (JN 0 (Some out) None kids)
          end
      | JN _ (Some k) _ kids =>
          POk (Some r) err (JN 5 (Some k) (Some (match length s with O => [] | _ => unesc out end)) kids)
      end
  end.

(** _sis_parse_info, 222-235 *)
Definition parse_info (ty : Z) (err : bool) (n : jnode) (p : list Z) : pres :=
  let '(s, r) := scan_info p in
  match n with JN _ k _ kids => POk (Some r) err (JN ty k (Some (strdup p (length s))) kids) end.

(** _sis_parse_number, 236-264 *)
Definition parse_number (err : bool) (n : jnode) (p : list Z) : pres :=
  let '(s, r, f) := scan_num p in
  match n with
  JN _ k _ kids => POk (Some r) err (JN (if f then 4 else 2) k (Some (strdup p (length s))) kids) end.

Definition set_key (n : jnode) (k : list Z) : jnode := match n with JN t _ v l => JN t (Some k) v l end.
(** sis_json_create_node, 951-957 *)
Definition new_node : jnode := JN 0 None None [].

(** the loop of _sis_parse_array, 286-311 ([arr = true], closing byte 93), and of _sis_parse_object,
    332-354 ([arr = false], closing byte 125).  [done] are the children left behind, [child] the
    current one, [idx] the counter of the array (the 32 bytes of the key always suffice). *)
Fixpoint kid_loop (arr : bool) (fuel : nat) (idx : Z) (err : bool) (ty : Z) (key val : option (list Z))
    (done : list jnode) (child : jnode) (p : list Z) : pres :=
  match fuel with
  | O => PFuel
  | S f =>
      match p with
      | [] => POk None err (JN ty key val (done ++ [child]))
      | _ :: _ =>
          let child := if arr then set_key child (lldtoa idx) else child in
          match pv err child (Some (skip p)) with
          | POk q e child =>
              match skip_p q with
              | None => POk None false (JN ty key val (done ++ [child]))
              | Some [] => POk None true (JN ty key val (done ++ [child]))
              | Some (c :: r) =>
                  if c =? (if arr then 93 else 125) then POk (Some r) e (JN ty key val (done ++ [child]))
                  else if c =? 44 then kid_loop arr f (idx + 1) e ty key val (done ++ [child]) new_node r
                  else kid_loop arr f (idx + 1) e ty key val done child (c :: r)
              end
          | x => x
          end
      end
  end.

(** _sis_parse_array, 267-312, and _sis_parse_object, 314-355; [p] is what follows the bracket *)
Definition parse_kids (arr : bool) (err : bool) (n : jnode) (p : list Z) : pres :=
  match n with
  JN _ k v kids =>
      let ty := if arr then 6 else 7 in
      let q := skip p in
      let go := kid_loop arr (S (length q)) 0 err ty k v [] new_node q in
      match q with
      | c :: r => if c =? (if arr then 93 else 125) then POk (Some r) err (JN ty k v kids) else go
      | [] => go
      end
  end.

(** _sis_parse_value, 356-389 *)
Definition value_body (err : bool) (n : jnode) (p : option (list Z)) : pres :=
  match p with
  | None => POk None false n
  | Some [] => POk None err n
  | Some (c :: t) =>
      if c =? 34 then parse_string err n t
      else if (c =? 45) || ((48 <=? c) && (c <=? 57)) then parse_number err n (c :: t)
      else if c =? 91 then parse_kids true err n t
      else if c =? 123 then parse_kids false err n t
      else if starts_ci (c :: t) [102; 97; 108; 115; 101] || starts_ci (c :: t) [116; 114; 117; 101]
        then parse_info 3 err n (c :: t)
      else if starts_ci (c :: t) [110; 97; 110] then parse_info 4 err n (c :: t)
      else POk None err n
  end.
End Parse.

(** _sis_parse_value calls itself (through _sis_parse_string, _sis_parse_array and _sis_parse_object)
    without a limit; [d] is the number of nested calls the stack has room for. *)
Fixpoint parse_value (d : nat) : bool -> jnode -> option (list Z) -> pres :=
  match d with
  | O => fun _ _ _ => PDeep
  | S d' => value_body (parse_value d')
  end.

(** the bytes up to the first 0 *)
Fixpoint cstr (l : list Z) : list Z :=
  match l with [] => [] | c :: t => if c =? 0 then [] else c :: cstr t end.

(** sis_json_load, 465-492, with _sis_json_parse, 391-406: the tree, or none.  The text is copied and
    a 0 put behind it (474-476). *)
Inductive load_res : Type := LDeep | LFuel | LNull | LTree (n : jnode).
Definition json_load (d : nat) (content : list Z) : load_res :=
  match content with
  | [] => LNull
  | _ =>
      match parse_value d false new_node (Some (skip (cstr content))) with
      | PDeep => LDeep
      | PFuel => LFuel
      | POk _ err n => if err then LNull else LTree n
      end
  end.

(** ** Writing.  [WOver]: more bytes are written than were allocated; [WNull]: the null pointer. *)
Inductive wres : Type := WOver | WNull | WText (t : list Z).
(** a buffer of [cap] bytes takes the text and its final 0 *)
Definition fit (cap : Z) (t : list Z) : wres := if Z.of_nat (length t) + 1 <=? cap then WText t else WOver.

(** what one byte adds to len, 1038-1049 *)
Definition esc_len (c : Z) : Z :=
  if (c =? 34) || (c =? 92) || (c =? 8) || (c =? 12) || (c =? 10) || (c =? 13) || (c =? 9) then 2
  else if c <? 32 then 6 else 1.
Definition hex (d : Z) : Z := if d <? 10 then 48 + d else 87 + d.
(** what is written for one byte, 1062-1098; the default is sprintf("u%04x") of a byte below 32 *)
Definition esc_byte (c : Z) : list Z :=
  if (32 <=? c) && negb (c =? 34) && negb (c =? 92) then [c]
  else 92 :: (if c =? 92 then [92] else if c =? 34 then [34] else if c =? 8 then [98]
              else if c =? 12 then [102] else if c =? 10 then [110] else if c =? 13 then [114]
              else if c =? 9 then [116] else [117; 48; 48; hex (c / 16); hex (c mod 16)]).
(** _sis_json_to_string, 1026-1103; len is an int *)
Definition to_string (s : option (list Z)) : wres :=
  match s with
  | None => WText []
  | Some s => fit (to_s 32 (fold_left (fun a c => a + esc_len c) s 0) + 3)
                  (34 :: flat_map esc_byte s ++ [34])
  end.

Definition tabs (n : Z) : list Z := repeat 9 (Z.to_nat n).
Definition opt {A} (b : bool) (l : list A) : list A := if b then l else [].
Definition zlen (t : list Z) : Z := Z.of_nat (length t).

(** the loop 1193-1219 over the entries of an array; [nl] = fmt_ and the first child is an array *)
Fixpoint arr_body (fmt nl : bool) (depth : Z) (es : list (list Z)) : list Z :=
  match es with
  | [] => []
  | e :: es' =>
      opt nl (tabs depth) ++ e ++ match es' with [] => [] | _ => 44 :: opt fmt [32] end ++
      opt nl [10] ++ arr_body fmt nl depth es'
  end.
(** the loop 1344-1379 over the entries of an object: the key as written and the value, if any *)
Fixpoint obj_body (fmt : bool) (depth : Z) (es : list (list Z * option (list Z))) : list Z :=
  match es with
  | [] => []
  | (k, e) :: es' =>
      opt fmt (tabs depth) ++ k ++
      match e with Some t => 58 :: opt fmt [9] ++ t | None => [] end ++
      match es' with [] => [] | _ => [44] end ++ opt fmt [10] ++ obj_body fmt depth es'
  end.

(** the values of the children of an array, 1146-1159: none if one of them fails *)
Fixpoint arr_entries (l : list wres) : option (option (list (list Z))) :=
  match l with
  | [] => Some (Some [])
  | WOver :: _ => None
  | WNull :: _ => Some None
  | WText t :: l' =>
      match arr_entries l' with
      | Some (Some r) => Some (Some (t :: r))
      | x => x
      end
  end.
(** the names and values of the children of an object, 1283-1307; a value may be missing *)
Fixpoint obj_entries (l : list (wres * wres)) : option (list (list Z * option (list Z))) :=
  match l with
  | [] => Some []
  | (WText k, WText t) :: l' => option_map (cons (k, Some t)) (obj_entries l')
  | (WText k, WNull) :: l' => option_map (cons (k, None)) (obj_entries l')
  | _ => None
  end.

(** _sis_json_to_array, 1105-1231: the length is summed up as at 1109, 1144 and 1152 *)
Definition to_array (fmt : bool) (depth : Z) (ty1 : Z) (es : list wres) : wres :=
  match es with
  | [] => fit 3 [91; 93]
  | _ =>
      match arr_entries es with
      | None => WOver
      | Some None => WNull
      | Some (Some l) =>
          let depth := depth + 1 in
          let nl := fmt && (ty1 =? 6) in
          fit (fold_left (fun a t => a + (zlen t + 2 + (if fmt then 2 + depth else 0))) l
                         (5 + (if fmt then depth else 0)))
              (91 :: opt nl [10] ++ arr_body fmt nl depth l ++ opt nl (tabs (depth - 1)) ++ [93])
      end
  end.

(** _sis_json_to_object, 1233-1393: the length is summed up as at 1237, 1281 and 1293-1301 *)
Definition to_object (fmt : bool) (depth : Z) (es : list (wres * wres)) : wres :=
  match es with
  | [] => fit 3 [123; 125]
  | _ =>
      match obj_entries es with
      | None => WOver
      | Some l =>
          let depth := depth + 1 in
          fit (fold_left (fun a e => a + (zlen (fst e) + 1) +
                             match snd e with Some t => zlen t + 1 | None => 0 end +
                             (if fmt then 2 + depth else 0)) l
                         (7 + (if fmt then depth else 0)))
              (123 :: opt fmt [10] ++ obj_body fmt depth l ++ opt fmt (tabs (depth - 1)) ++ [125])
      end
  end.

(** _sis_json_to_value, 1395-1426; numbers and booleans are copied (1011-1018) *)
Fixpoint to_value (fmt : bool) (depth : Z) (n : jnode) : wres :=
  match n with
  | JN ty k v kids =>
      if (ty =? 2) || (ty =? 3) || (ty =? 4) then match v with Some s => WText s | None => WNull end
      else if ty =? 5 then to_string v
      else if ty =? 6 then
        to_array fmt depth (match kids with c :: _ => jty c | [] => 0 end)
                 (map (to_value fmt (depth + 1)) kids)
      else if (ty =? 1) || (ty =? 7) then
        to_object fmt depth (map (fun c => (to_string (jkey c), to_value fmt (depth + 1) c)) kids)
      else WNull
  end.
(** sis_json_output, 1432-1442 ([fmt = true]), and sis_json_output_zip, 1443-1451 *)
Definition json_output (fmt : bool) (n : jnode) : wres := to_value fmt 0 n.

(** ** Looking up. *)
(** !sis_strcasecmp, sis_str.c:48-67, on two strings *)
Definition case_eq (a b : list Z) : bool :=
  if list_eq_dec Z.eq_dec (map lower a) (map lower b) then true else false.
(** sis_json_cmp_child_node, 1587-1599 *)
Fixpoint find_key (l : list jnode) (key : list Z) : option jnode :=
  match l with
  | [] => None
  | c :: l' => match jkey c with
               | Some k => if case_eq k key then Some c else find_key l' key
               | None => find_key l' key
               end
  end.
(** sis_json_get_bool, 1513-1525, for a name without a point (then sis_json_find_node, 1600-1618, is
    sis_json_cmp_child_node) *)
Definition get_bool (n : jnode) (key : list Z) (default : bool) : bool :=
  match find_key (jkids n) key with
  | Some c => match jval c with
              | Some v => case_eq v [49] || case_eq v [116; 114; 117; 101] || case_eq v [121; 101; 115]
              | None => false
              end
  | None => default
  end.
