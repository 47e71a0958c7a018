(** Model of the binary form of network messages: sis_net_encoded_normal and
    sis_net_decoded_normal, src/core/net/sis_net.node.c:944-1015, 1084-1185.

    Simplifications: only messages in the byte format; the text (JSON) form is in M_nettext
    (finding it is a separate result); memory allocation succeeds; the strings of a message are
    byte lists (sds strings carry their length).  None = memory read outside the buffer. *)
From Verif Require Import Base M_memory.

(** the fields of s_sis_net_message used here, sis_net.msg.h:97-128; switches sis_net.msg.h:53-62;
    argvs are the objects' contents *)
Record netmsg := mkmsg {
  m_name : option (list Z);
  sw_sno : bool; sw_service : bool; sw_cmd : bool; sw_subject : bool; sw_tag : bool; sw_info : bool; sw_more : bool;
  m_sno : Z;
  m_service : option (list Z);
  m_cmd : option (list Z);
  m_subject : option (list Z);
  m_tag : Z;
  m_info : option (list Z);
  m_argvs : option (list (list Z)) }.

Definition b2z (b : bool) (k : Z) : Z := if b then 2 ^ k else 0.

(** the switch byte as laid out by gcc, sw_mark = 1 *)
Definition sw_byte (m : netmsg) : Z :=
  b2z (sw_sno m) 0 + b2z (sw_service m) 1 + b2z (sw_cmd m) 2 + b2z (sw_subject m) 3 + b2z (sw_tag m) 4 +
  b2z (sw_info m) 5 + b2z (sw_more m) 6 + 128.

(** the digit loop of sis_lldtoa, os_str.h:110-126 with radix 10, digits in the order written;
    the 32 bytes always suffice for an int *)
Fixpoint lld_loop (fuel : nat) (v : Z) : list Z :=
  match fuel with
  | O => []
  | S f => (48 + v mod 10) :: if 0 <? v / 10 then lld_loop f (v / 10) else []
  end.
(** sis_lldtoa, os_str.h:96-142; the digits are then reversed in place *)
Definition lldtoa (v : Z) : list Z :=
  if v <? 0 then 45 :: rev (lld_loop 20 (- v)) else rev (lld_loop 20 v).

(** sis_net_str_set_memory, 944-954 *)
Definition str_set (m : mem) (ok : bool) (s : option (list Z)) : mem :=
  if ok then
    let sz := match s with Some b => Z.of_nat (length b) | None => 0 end in
    let m1 := mem_cat_ssize m sz in
    match s with Some b => if 0 <? sz then mem_cat m1 b else m1 | None => m1 end
  else m.

(** sis_net_int_set_memory, 955-971; the parameter is an int *)
Definition int_set (m : mem) (ok : bool) (v : Z) : mem :=
  if ok then
    let v' := to_s 32 v in
    if v' =? 0 then mem_cat_ssize m 0
    else mem_cat (mem_cat_ssize m (Z.of_nat (length (lldtoa v')))) (lldtoa v')
  else m.

(** SIS_NET_TAG_CHARS, SIS_NET_TAG_BYTES, sis_net.msg.h:36-38 *)
Definition list_tag (t : Z) : bool := (t =? 5) || (t =? 7).

(** sis_net_encoded_normal, 972-1015 *)
Definition encoded_normal (msg : netmsg) (out : mem) : mem :=
  let o := mem_clear out in
  let o := match m_name msg with Some n => mem_cat o n | None => o end in
  let o := mem_cat o [58] in
  let o := mem_cat o [sw_byte msg] in
  let o := int_set o (sw_sno msg) (m_sno msg) in
  let o := str_set o (sw_service msg) (m_service msg) in
  let o := str_set o (sw_cmd msg) (m_cmd msg) in
  let o := str_set o (sw_subject msg) (m_subject msg) in
  let o := int_set o (sw_tag msg) (m_tag msg) in
  if list_tag (m_tag msg) then
    match m_argvs msg with
    | Some l => fold_left (fun o b => mem_cat (mem_cat_ssize o (Z.of_nat (length b))) b) l
                          (mem_cat_ssize o (Z.of_nat (length l)))
    | None => mem_cat_ssize o 0
    end
  else str_set o (sw_info msg) (m_info msg).

(** sis_str_pos, sis_str.c:357-371, over the first [n] bytes of the list; strchr also finds the
    terminating NUL; -1 = None *)
Fixpoint str_pos (l : list Z) (n : nat) (i : nat) : option nat :=
  match n, l with
  | S n', c :: l' =>
    if existsb (Z.eqb c) [123; 125; 91; 93; 0] then None
    else if c =? 58 then Some i else str_pos l' n' (S i)
  | _, _ => None
  end.

(** sis_net_memory_get_sds, 1084-1097 *)
Definition get_sds (stale : nat -> Z) (m : mem) (ok : bool) : option (option (list Z) * mem) :=
  if ok then
    match mem_get_ssize stale m with
    | None => None
    | Some (size, m1) =>
      if 0 <? size then
        if mmax m1 <? Z.of_nat (moff m1) + size then None
        else match mem_peek stale m1 (moff m1) (Z.to_nat size) with
             | None => None
             | Some b => Some (Some b, mem_move m1 (Z.to_nat size))
             end
      else Some (None, m1)
    end
  else Some (None, m).

Definition is_space (c : Z) : bool := (c =? 32) || ((9 <=? c) && (c <=? 13)).
Fixpoint skip_space (l : list Z) : list Z :=
  match l with c :: l' => if is_space c then skip_space l' else l | [] => [] end.
Fixpoint atoll_digits (l : list Z) (acc : Z) : Z :=
  match l with
  | c :: l' => if (48 <=? c) && (c <=? 57) then atoll_digits l' (acc * 10 + (c - 48)) else acc
  | [] => acc
  end.
Definition clamp64 (v : Z) : Z := Z.max (- 2 ^ 63) (Z.min (2 ^ 63 - 1) v).
(** sis_atoll = atoll, os_str.h:19, with the clamping of glibc *)
Definition atoll (l : list Z) : Z :=
  match skip_space l with
  | 45 :: l' => clamp64 (- atoll_digits l' 0)
  | 43 :: l' => clamp64 (atoll_digits l' 0)
  | l' => clamp64 (atoll_digits l' 0)
  end.

(** sis_net_memory_get_int, 1098-1113; sis_strncpy (os_str.h:43-58) takes at most 31 bytes *)
Definition get_int (stale : nat -> Z) (m : mem) (ok : bool) : option (Z * mem) :=
  if ok then
    match mem_get_ssize stale m with
    | None => None
    | Some (size, m1) =>
      if 0 <? size then
        match mem_peek stale m1 (moff m1) (Z.to_nat (Z.min size 31)) with
        | None => None
        | Some b => Some (atoll b, mem_move m1 (Z.to_nat size))
        end
      else Some (0, m1)
    end
  else Some (0, m).

(** result of decoding: refused, the text form, or a message *)
Inductive decoded := DRefused | DText | DMsg (m : netmsg).

(** sis_net_decoded_normal, 1114-1185; the position is restored at the end *)
Definition decoded_normal (stale : nat -> Z) (inp : mem) : option (decoded * mem) :=
  let start := moff inp in
  match str_pos (mem_live inp) (Nat.min (mem_get_size inp) 128) 0 with
  | None => Some (DRefused, inp)
  | Some cursor =>
    let name := if Nat.eqb cursor 0 then None else Some (firstn cursor (mem_live inp)) in
    let m0 := mem_move inp (cursor + 1) in
    match mem_byte stale m0 (moff m0) with
    | None => None
    | Some sw =>
      if negb (Z.testbit sw 7) then Some (DText, mem_jumpto m0 start)
      else
        let m1 := mem_move m0 1 in
        match get_int stale m1 (Z.testbit sw 0) with None => None | Some (sno, m2) =>
        match get_sds stale m2 (Z.testbit sw 1) with None => None | Some (service, m3) =>
        match get_sds stale m3 (Z.testbit sw 2) with None => None | Some (cmd, m4) =>
        match get_sds stale m4 (Z.testbit sw 3) with None => None | Some (subject, m5) =>
        match get_int stale m5 (Z.testbit sw 4) with None => None | Some (tag0, m6) =>
        let tag := to_s 8 tag0 in
        match (if list_tag tag then Some (None, m6) else get_sds stale m6 (Z.testbit sw 5)) with
        | None => None
        | Some (info, m7) =>
          Some (DMsg (mkmsg name (Z.testbit sw 0) (Z.testbit sw 1) (Z.testbit sw 2) (Z.testbit sw 3)
                            (Z.testbit sw 4) (Z.testbit sw 5) (Z.testbit sw 6)
                            sno service cmd subject tag info None), mem_jumpto m7 start)
        end end end end end end
    end
  end.
