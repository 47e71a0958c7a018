(** Model of subscriptions: workers/sisdb_server/sisdb_sub.c 1-308, sisdb_sub.h 10-46, the string
    helpers of src/core/sis_str.c 48-88, 177-236, 342-355, 433-494 and cmd_sisdb_clear of
    workers/sisdb/sisdb.c 686-706 as called by _cb_connect_close of sisdb_server.c 52-73.
    None = a crash (null pointer) or a write outside a buffer.
    Simplified: names hold no zero byte; a map of units is a list of entries looked up by name
    ignoring case (C43 proves the dictionary is such a map, C44 that a loop whose bodies delete at
    most the entry delivered visits each entry once); the order in which the loop of a publication
    meets the entries is any order; a message kept for a subscriber is its client number; what is
    delivered is the list of client numbers passed to cb_net_message. *)
From Coq Require Import ZArith List Bool Lia String.
From Verif Require Import Base S_server M_server S_sub.
Import ListNotations.
Open Scope list_scope.
Open Scope Z_scope.

(** sis_str_exist_ch, sis_str.c:342-355, [cs] the characters looked for *)
Definition exist_ch (l cs : str) : bool := existsb (fun c => existsb (Z.eqb c) cs) l.

(** sis_strncasecmp, sis_str.c:68-88: true = returns 0; [i] counts from 1.  The end of a string is
    the character 0. *)
Fixpoint ncasecmp (a b : str) (i n : Z) {struct a} : bool :=
  match a, b with
  | [], [] => true
  | x :: a', y :: b' => (lower x =? lower y) && (if n <=? i then true else ncasecmp a' b' (i + 1) n)
  | _, _ => false
  end.

(** sis_str_subcmp 433-463 and sis_str_subcmp_strict 464-494: [start] = &s[pos], [n] = i - pos,
    [rest] = &s[i]; None = -1 *)
Definition sub_hit (strict : bool) (sub start : str) (n : Z) : bool :=
  ncasecmp sub start 1 n && (if strict then Z.of_nat (List.length sub) =? n else true).
Fixpoint subcmp_go (strict : bool) (sub start : str) (n : Z) (rest : str) (count : Z) : option Z :=
  match rest with
  | [] => if 0 <? n then if sub_hit strict sub start n then Some count else None else None
  | c :: r =>
    if c =? COMMA then
      if sub_hit strict sub start n then Some count else subcmp_go strict sub r 0 r (count + 1)
    else subcmp_go strict sub start (n + 1) r count
  end.
(** with NULL for [s] the answer is -1, 435-438 and 466-469 *)
Definition subcmp (strict : bool) (sub : str) (s : option str) : bool :=
  match s with
  | None => false
  | Some s => match subcmp_go strict sub s 0 s 0 with Some _ => true | None => false end
  end.

(** sis_str_divide, sis_str.c:177-208, into two buffers of [cap] bytes (sisdb_sub.c:269, 282 with
    cap = 128): the number of parts and the parts; each part and its final zero must fit *)
Fixpoint divide (cap : Z) (l one : str) : option (Z * str * str) :=
  match l with
  | [] => if Z.of_nat (List.length one) <? cap then Some (1, one, []) else None
  | c :: t =>
    if c =? DOT then
      if (Z.of_nat (List.length one) <? cap) && (Z.of_nat (List.length t) <? cap) then Some (2, one, t) else None
    else if Z.of_nat (List.length one) <? cap then divide cap t (one ++ [c]) else None
  end.
(** sis_str_divide_sds, sis_str.c:209-236: an empty part is NULL *)
Definition sds_part (l : str) : option str := match l with [] => None | _ => Some l end.
Fixpoint divide_sds (l one : str) : option str * option str :=
  match l with
  | [] => (sds_part one, None)
  | c :: t => if c =? DOT then (sds_part one, sds_part t) else divide_sds t (one ++ [c])
  end.

(** the kinds, sisdb_sub.h:10-18 *)
Inductive stype := ONE_ONE | ONE_MUL | ONE_CMP | ONE_ALL | MUL_ONE | MUL_MUL | MUL_CMP | MUL_ALL.
(** s_sisdb_sub_unit, sisdb_sub.h:28-34 *)
Record sunit := mkunit { u_type : stype; u_keys : option str; u_sdbs : option str; u_msgs : list Z }.
(** s_sisdb_sub_cxt, sisdb_sub.h:36-46: the two maps *)
Definition smap : Type := list (str * sunit).
Record scxt := mkcxt { s_one : smap; s_mul : smap }.
(** sisdb_sub_cxt_create, sisdb_sub.c:83-90 *)
Definition scxt0 : scxt := mkcxt [] [].

(** sis_str_exist_ch(s, sis_sdslen(s), ..) reads the header of a NULL string, sis_sds.h:73-74 *)
Definition exist_sds (s : option str) (cs : str) : option bool :=
  match s with None => None | Some l => Some (exist_ch l cs) end.
(** _set_sub_unit_type, sisdb_sub.c:9-63 *)
Definition set_type (key : str) (head : bool) : option (stype * option str * option str) :=
  if casecmp key [STAR] then Some (ONE_ALL, None, None)
  else if casecmp key [STAR; DOT; STAR] then Some (MUL_ALL, None, None)
  else if exist_ch key [DOT] then
    let '(keys, sdbs) := divide_sds key [] in
    if head then Some (MUL_CMP, keys, sdbs)
    else
      match exist_sds keys [COMMA] with
      | None => None
      | Some true => Some (MUL_MUL, keys, sdbs)
      | Some false =>
        match exist_sds sdbs [COMMA] with
        | None => None
        | Some true => Some (MUL_MUL, keys, sdbs)
        | Some false => Some (MUL_ONE, keys, sdbs)
        end
      end
  else
    Some (if head then ONE_CMP else if exist_ch key [COMMA] then ONE_MUL else ONE_ONE, Some key, None).

(** sis_map_pointer_get / _set: by name ignoring case, sis_map.c:32-35 *)
Fixpoint find_unit (m : smap) (k : str) : option sunit :=
  match m with [] => None | (k', u) :: m' => if casecmp k k' then Some u else find_unit m' k end.
Fixpoint put_unit (m : smap) (k : str) (u : sunit) : smap :=
  match m with
  | [] => [(k, u)]
  | (k', u') :: m' => if casecmp k k' then (k', u) :: m' else (k', u') :: put_unit m' k u
  end.

(** sisdb_sub_notice, sisdb_sub.c:108-127: the map after, and the answer *)
Definition sub_notice (m : smap) (cid : Z) (subject : str) (head : bool) : option (smap * Z) :=
  match find_unit m subject with
  | Some u =>
    if existsb (Z.eqb cid) (u_msgs u) then Some (m, 0)
    else Some (put_unit m subject (mkunit (u_type u) (u_keys u) (u_sdbs u) (u_msgs u ++ [cid])), 1)
  | None =>
    match set_type subject head with
    | None => None
    | Some (t, k, s) => Some (put_unit m subject (mkunit t k s [cid]), 1)
    end
  end.
(** sisdb_sub_cxt_sub 129-145, sisdb_sub_cxt_hsub 146-155 *)
Definition cxt_sub (x : scxt) (cid : Z) (head : bool) (subject : str) : option (scxt * Z) :=
  match subject with
  | [] => Some (x, 0)
  | _ =>
    if head || exist_ch subject [STAR; COMMA] then
      match sub_notice (s_mul x) cid subject head with Some (m, o) => Some (mkcxt (s_one x) m, o) | None => None end
    else
      match sub_notice (s_one x) cid subject head with Some (m, o) => Some (mkcxt m (s_mul x), o) | None => None end
  end.

(** the inner loop of sisdb_unsub_notice, 172-189: the first message of the client is removed *)
Fixpoint del_first (cid : Z) (l : list Z) : list Z :=
  match l with [] => [] | c :: t => if c =? cid then t else c :: del_first cid t end.
(** sisdb_unsub_notice, 156-194: the map after and the count *)
Fixpoint unsub_notice (m : smap) (cid count : Z) : smap * Z :=
  match m with
  | [] => ([], count)
  | (k, u) :: m' =>
    if cid =? -1 then unsub_notice m' cid (Z.of_nat (List.length (u_msgs u)))
    else if existsb (Z.eqb cid) (u_msgs u) then
      let l := del_first cid (u_msgs u) in
      let '(r, n) := unsub_notice m' cid (count + 1) in
      (match l with [] => r | _ => (k, mkunit (u_type u) (u_keys u) (u_sdbs u) l) :: r end, n)
    else let '(r, n) := unsub_notice m' cid count in ((k, u) :: r, n)
  end.
(** sisdb_sub_cxt_unsub, 196-204 *)
Definition cxt_unsub (x : scxt) (cid : Z) : scxt * Z :=
  let '(a, n) := unsub_notice (s_one x) cid 0 in
  let '(b, k) := unsub_notice (s_mul x) cid 0 in
  (mkcxt a b, n + k).
(** cmd_sisdb_clear, sisdb.c:686-706, the part on subscriptions: sis_strcasecmp is 0 on equality *)
Definition cmd_clear (x : scxt) (mode : str) (cid : Z) : scxt :=
  if negb (casecmp mode (bs "reader"%string)) then fst (cxt_unsub x cid) else x.

(** one request; a closed connection sends the mode 'reader', sisdb_server.c:61-70 *)
Definition sreq_step (x : scxt) (r : sreq) : option (scxt * Z) :=
  match r with
  | RSub c h p => cxt_sub x c h p
  | RUnsub c => Some (cxt_unsub x c)
  | RGone c => Some (cmd_clear x (bs "reader"%string) c, 0)
  end.
Fixpoint srun (x : scxt) (rs : list sreq) : option (scxt * list Z) :=
  match rs with
  | [] => Some (x, [])
  | r :: rs' =>
    match sreq_step x r with
    | None => None
    | Some (y, o) => match srun y rs' with Some (z, os) => Some (z, o :: os) | None => None end
    end
  end.

(** !sis_strcasecmp(s, "*") with NULL for [s] is false, sis_str.c:50-53 *)
Definition is_star (s : option str) : bool := match s with None => false | Some l => casecmp l [STAR] end.
(** the switch of sisdb_sub_cxt_pub, 247-294 *)
Definition side_ok (strict : bool) (name : str) (s : option str) : bool := is_star s || subcmp strict name s.
Definition notice (u : sunit) (subject : str) : option bool :=
  match u_type u with
  | ONE_ALL | MUL_ALL => Some true
  | ONE_CMP => Some (subcmp false subject (u_keys u))
  | ONE_MUL => Some (subcmp true subject (u_keys u))
  | MUL_CMP =>
    match divide 128 subject [] with
    | None => None
    | Some (n, k, s) => Some ((n =? 2) && side_ok false k (u_keys u) && side_ok false s (u_sdbs u))
    end
  | MUL_MUL =>
    match divide 128 subject [] with
    | None => None
    | Some (n, k, s) => Some ((n =? 2) && side_ok true k (u_keys u) && side_ok true s (u_sdbs u))
    end
  | ONE_ONE | MUL_ONE => Some false
  end.
(** the loop over the units of the second map, 243-304, in the order [es] *)
Fixpoint pub_mul (es : smap) (subject : str) : option (list Z) :=
  match es with
  | [] => Some []
  | (_, u) :: es' =>
    match notice u subject, pub_mul es' subject with
    | Some b, Some out => Some ((if b then u_msgs u else []) ++ out)
    | _, _ => None
    end
  end.
(** sisdb_sub_cxt_pub, 223-308: the clients a message is sent to; [es] is the order in which the
    loop meets the entries of s_mul *)
Definition cxt_pub (x : scxt) (es : smap) (subject : str) : option (list Z) :=
  match pub_mul es subject with
  | None => None
  | Some out => Some (match find_unit (s_one x) subject with Some u => u_msgs u | None => [] end ++ out)
  end.
