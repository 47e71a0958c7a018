(** Model of the text form of network messages and of a connection between two ends:
    _net_encoded_chars, src/core/net/sis_net.node.c:883-942, sis_net_decoded_chars with
    sis_json_to_netmsg, 1017-1082, their callers sis_net_encoded_normal and sis_net_decoded_normal,
    972-1015 and 1114-1185 (binary form: M_netmsg), sis_net_make_message and sis_net_recv_message,
    src/core/net/sis_net.c:1040-1087 and 932-980, and _make_read_data, 676-731.

    Simplifications: no encryption (compression is never set, sis_net.c:195-200); [d] is the number of
    nested calls the stack has room for while JSON is parsed; of a message that arrives while the
    connection is not working nothing is modelled.  None = undefined behaviour. *)
From Coq Require Import ZArith List Bool Lia String.
From Verif Require Import Base S_server M_memory M_netmsg S_json M_json M_ws.
Import ListNotations.
Open Scope list_scope.
Open Scope Z_scope.

Notation K_sno := (bs "sno"%string).
Notation K_service := (bs "service"%string).
Notation K_cmd := (bs "cmd"%string).
Notation K_subject := (bs "subject"%string).
Notation K_tag := (bs "tag"%string).
Notation K_info := (bs "info"%string).
Notation K_infos := (bs "infos"%string).
Notation K_more := (bs "more"%string).

(** the child of that name gets a new value; sis_json_cmp_child_node, sis_json.c:1587-1599 *)
Fixpoint set_value (l : list jnode) (key : list Z) (v : option (list Z)) : list jnode :=
  match l with
  | [] => []
  | JN t k w kids :: l' =>
    match k with
    | Some k' => if case_eq k' key then JN t k v kids :: l' else JN t k w kids :: set_value l' key v
    | None => JN t k w kids :: set_value l' key v
    end
  end.
(** sis_json_object_set_int and _set_string, sis_json.c:690-717 and 800-826: [ty] the type of a new child *)
Definition set_kid (l : list jnode) (key : list Z) (ty : Z) (v : option (list Z)) : list jnode :=
  match find_key l key with
  | Some _ => set_value l key v
  | None => l ++ [JN ty (Some key) v []]
  end.
(** sis_strdup, sis_str.c:111-126, of a string of that length: what the copy reads as *)
Definition dup (s : option (list Z)) : option (list Z) := option_map cstr s.

(** the object of _net_encoded_chars, 884-930 *)
Definition text_kids (m : netmsg) : list jnode :=
  let l := @nil jnode in
  let l := if sw_sno m then set_kid l K_sno 2 (Some (lldtoa (m_sno m))) else l in
  let l := if sw_service m then set_kid l K_service 5 (dup (m_service m)) else l in
  let l := if sw_cmd m then set_kid l K_cmd 5 (dup (m_cmd m)) else l in
  let l := if sw_subject m then set_kid l K_subject 5 (dup (m_subject m)) else l in
  let l := if sw_tag m then set_kid l K_tag 2 (Some (lldtoa (m_tag m))) else l in
  if list_tag (m_tag m) then
    match m_argvs m with
    | Some _ => l
    | None => set_kid l K_infos 5 (Some [91; 91; 93; 93])
    end
  else if sw_info m then set_kid l K_info 5 (dup (m_info m)) else l.

(** sis_net_encoded_normal, 972-1015, for either form; sis_json_output_zip, 934-937 *)
Definition encoded (bytes : bool) (msg : netmsg) (out : mem) : option mem :=
  if bytes then Some (encoded_normal msg out)
  else
    let o := mem_clear out in
    let o := match m_name msg with Some n => mem_cat o n | None => o end in
    let o := mem_cat o [58] in
    match json_output false (JN 7 None None (text_kids msg)) with
    | WText t => Some (mem_cat o t)
    | WNull | WOver => None
    end.

(** _sis_json_node_get_sds, 1017-1038; sis_sdsnew of NULL is an empty string, sis_sds.c:140-144.
    Some None = NULL *)
Definition node_sds (kids : list jnode) (key : list Z) : option (option (list Z)) :=
  match find_key kids key with
  | None => Some None
  | Some (JN ty k v l) =>
    if ty =? 5 then Some (Some (match v with Some s => s | None => [] end))
    else if (ty =? 6) || (ty =? 7) then
      match json_output false (JN ty k v l) with WText t => Some (Some t) | _ => None end
    else Some None
  end.
(** sis_json_get_int, sis_json.c:1477-1485; the names have no point *)
Definition node_int (kids : list jnode) (key : list Z) : Z :=
  match find_key kids key with Some (JN _ _ (Some v) _) => atoll v | _ => 0 end.
Definition has_key (kids : list jnode) (key : list Z) : bool :=
  match find_key kids key with Some _ => true | None => false end.
Definition some {A} (o : option A) : bool := match o with Some _ => true | None => false end.

(** sis_json_to_netmsg, 1039-1068, into a cleared message with the name set *)
Definition to_netmsg (name : option (list Z)) (n : jnode) : option netmsg :=
  let l := jkids n in
  let? service := node_sds l K_service in
  let? cmd := node_sds l K_cmd in
  let? subject := node_sds l K_subject in
  let? info := node_sds l K_info in
  Some (mkmsg name (has_key l K_sno) (some service) (some cmd) (some subject) (has_key l K_tag) (some info) (has_key l K_more)
          (node_int l K_sno) service cmd subject (to_s 8 (node_int l K_tag)) info None).

(** sis_net_decoded_normal, 1114-1185, with sis_net_decoded_chars, 1070-1082: whether the message was
    accepted, the message and its form *)
Definition decoded_any (d : nat) (stale : nat -> Z) (inp : mem) : option (option (bool * netmsg)) :=
  match decoded_normal stale inp with
  | None => None
  | Some (DRefused, _) => Some None
  | Some (DMsg m, _) => Some (Some (true, m))
  | Some (DText, _) =>
    match str_pos (mem_live inp) (Nat.min (mem_get_size inp) 128) 0 with
    | None => Some None
    | Some cursor =>
      match json_load d (skipn (cursor + 1) (mem_live inp)) with
      | LTree n => let? m := to_netmsg (if Nat.eqb cursor 0 then None else Some (firstn cursor (mem_live inp))) n in Some (Some (false, m))
      | LNull => Some None
      | LDeep | LFuel => None
      end
    end
  end.

(** sis_net_make_message, sis_net.c:1040-1087: the bytes sent for a message *)
Definition make_message (stale : nat -> Z) (bytes : bool) (msg : netmsg) : option (list Z) :=
  let? enc := encoded bytes msg (mem_create_size (16 * 1024)) in
  let? out := ws_pack stale (mem_live enc) (if bytes then 1 else 0) (mem_create_size (16 * 1024)) in
  Some (mem_live out).

(** sis_net_recv_message, sis_net.c:932-980: 0, an error, or a message *)
Inductive rres := RWait | RError | RMsg (bytes : bool) (m : netmsg).
Definition recv_message (d : nat) (stale : nat -> Z) (m : mem) : option (rres * mem) :=
  let? (res, m', out) := ws_unpack m (mem_create_size (16 * 1024)) in
  match res with
  | WsWait => Some (RWait, m')
  | WsError => Some (RError, m')
  | WsMsg _ =>
    let? r := decoded_any d stale out in
    match r with
    | None => Some (RError, m')
    | Some (b, x) => Some (RMsg b x, m')
    end
  end.

(** the while loop of _make_read_data, sis_net.c:685-724, for one chunk: messages handed to
    cb_reply, and false when the connection is given up *)
Fixpoint recv_loop (d : nat) (stale : nat -> Z) (fuel : nat) (m : mem) : option (list (bool * netmsg) * mem * bool) :=
  match fuel with
  | O => None
  | S fuel' =>
    let? (res, m') := recv_message d stale m in
    match res with
    | RWait => Some ([], m', true)
    | RError => Some ([], m', false)
    | RMsg b x => let? (l, m2, ok) := recv_loop d stale fuel' m' in Some ((b, x) :: l, m2, ok)
    end
  end.
(** one call of _make_read_data, sis_net.c:676-731, for the chunks read from the queue *)
Fixpoint recv_chunks (d : nat) (stale : nat -> Z) (m : mem) (chunks : list (list Z)) : option (list (bool * netmsg) * mem * bool) :=
  match chunks with
  | [] => Some ([], m, true)
  | c :: chunks' =>
    let m1 := mem_cat m c in
    let? (l, m2, ok) := recv_loop d stale (S (mem_get_size m1)) m1 in
    if ok then let? (l', m3, ok') := recv_chunks d stale m2 chunks' in Some (l ++ l', m3, ok')
    else Some (l, m2, false)
  end.
(** a connection: calls of _make_read_data one after the other, each ending with sis_memory_pack
    (729); a connection given up reads no more (751) *)
Fixpoint recv (d : nat) (stale : nat -> Z) (m : mem) (batches : list (list (list Z))) : option (list (bool * netmsg) * mem * bool) :=
  match batches with
  | [] => Some ([], m, true)
  | b :: batches' =>
    let? (l, m1, ok) := recv_chunks d stale m b in
    if ok then let? (l', m2, ok') := recv d stale (mem_pack m1) batches' in Some (l ++ l', m2, ok')
    else Some (l, mem_pack m1, false)
  end.
