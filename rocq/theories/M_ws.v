(** Model of websocket framing: src/core/net/sis_net.ws.c (also used for plain tcp,
    sis_net.ws.h:47-48), on top of the bit stream and the memory buffer.

    Simplification: positions of the bit stream are natural numbers that do not wrap while
    reading single fields; moving over a payload wraps as in C ([bmove_bytes]). *)
From Verif Require Import Base M_memory M_bits.

Notation "'let?' p ':=' e 'in' b" := (match e with Some p => b | None => None end)
  (at level 200, p pattern, e at level 200, b at level 200).

(** WS_MAX_HEAD_LEN, WS_MAX_SEND_BUFF, sis_net.ws.h:16-17 *)
Definition WS_MAX_HEAD_LEN : nat := 16.
Definition WS_MAX_SEND_BUFF : nat := Z.to_nat (16 * 1024 - 16).

(** sis_bits_stream_put_buffer, sis_bits.h:251-258 *)
Fixpoint bput_buffer (s : bstream) (bs : list Z) : option bstream :=
  match bs with
  | [] => Some s
  | b :: bs' => match bput s b 8 with Some s' => bput_buffer s' bs' | None => None end
  end.

(** one fragment, sis_net.ws.c:120-172 and the cursor of 177: what is in the buffer up to
    the cursor.  [d] is the allocation from the write position on. *)
Definition ws_put_frame (d : list Z) (fin : bool) (opc : Z) (data tail : list Z) : option (list Z) :=
  let size := Z.of_nat (length data + length tail) in
  let? s := bput (mkbs d 0) (if fin then 1 else 0) 1 in
  let? s := bput s 0 3 in
  let? s := bput s opc 4 in
  let? s := bput s 0 1 in
  let? s := (if size <? 126 then bput s size 7
             else if size <=? 0xFFFF then let? s := bput s 126 7 in bput s size 16
             else let? s := bput s 127 7 in bput s size 64) in
  let? s := bput_buffer s data in
  let? s := bput_buffer s tail in
  Some (firstn ((bpos s + 7) / 8) (bdat s)).

(** sis_memory_set_size after the cursor, then sis_memory_move to it, sis_net.ws.c:178-179:
    the written bytes become content and are skipped.  None = the allocation would be
    replaced and the bytes just written lost. *)
Definition ws_accept (out : mem) (bs : list Z) : option mem :=
  if Z.of_nat (moff out + length bs) <=? mmax out
  then Some (mkmem (firstn (moff out) (mbuf out) ++ bs) (moff out + length bs) (mmax out))
  else None.

(** the loop of sis_net_pack_ws_message, sis_net.ws.c:113-182: [n] iterations left,
    [first] is i == 0.  [stale] is what the allocation contains, by absolute position. *)
Fixpoint ws_pack_loop (stale : nat -> Z) (isstr : bool) (tail : list Z) (n : nat) (first : bool)
    (inb : list Z) (out : mem) : option mem :=
  match n with
  | O => Some out
  | S n' =>
    let last := Nat.eqb n' 0 in
    let size := Nat.min (length inb) WS_MAX_SEND_BUFF in
    let opc := if first then (if isstr then 1 else 2) else 0 in
    let room := map stale (seq (moff out) (Z.to_nat (mmax out) - moff out)) in
    let? bs := ws_put_frame room last opc (firstn size inb) (if last then tail else []) in
    let? out' := ws_accept out bs in
    ws_pack_loop stale isstr tail n' false (skipn size inb) out'
  end.

(** sis_net_pack_ws_message, sis_net.ws.c:89-193; [tail] is [] for info == NULL *)
Definition ws_pack_message (stale : nat -> Z) (isstr : bool) (inb : list Z) (tail : list Z) (out : mem) : option mem :=
  let total := (length inb + length tail)%nat in
  let count := (total / WS_MAX_SEND_BUFF + (if Nat.eqb (total mod WS_MAX_SEND_BUFF) 0 then 0 else 1))%nat in
  let out1 := mem_set_maxsize (mem_clear out) (Z.of_nat (total + count * WS_MAX_HEAD_LEN)) in
  let? out2 := ws_pack_loop stale isstr tail count true inb out1 in
  Some (mem_jumpto out2 0).

(** sis_net_pack_ws, sis_net.ws.c:402-414.  s_sis_net_tail is one byte, sis_net.msg.h:70-76;
    bytes is its lowest bit. *)
Definition ws_pack (stale : nat -> Z) (inb : list Z) (info : Z) (out : mem) : option mem :=
  if Z.odd info then ws_pack_message stale false inb [info] out
  else ws_pack_message stale true inb [] out.

(** sis_bits_stream_moveto and _move_bytes, sis_bits.h:107-122: bit positions pass through
    int, maxsize is uint32 *)
Definition bmove_bytes (s : bstream) (n : nat) : bstream :=
  let pos := to_s 32 (Z.of_nat (bpos s) + Z.of_nat n * 8) in
  let maxsize := to_u 32 (Z.of_nat (length (bdat s)) * 8) in
  mkbs (bdat s) (Z.to_nat (if pos <? 0 then 0 else if pos >? to_s 32 maxsize then maxsize else pos)).

(** what one pass over a header finds *)
Record whead := mkwh { h_fin : Z; h_op : Z; h_mask : Z; h_key : list Z; h_len : Z; h_st : bstream; h_mem : mem }.

(** the mask key: one 32-bit read in the check (sis_net.ws.c:255), four 8-bit reads in the
    unpacking (344-347) *)
Definition ws_getkey (check : bool) (s : bstream) : option (list Z * bstream) :=
  if check then let? (_, s) := bget s 32 in Some ([], s)
  else
    let? (k0, s) := bget s 8 in
    let? (k1, s) := bget s 8 in
    let? (k2, s) := bget s 8 in
    let? (k3, s) := bget s 8 in
    Some ([k0; k1; k2; k3], s).

(** the common part of the two loops, sis_net.ws.c:205-262 and 295-354: outer None = read
    outside the received bytes, Some None = break *)
Definition ws_header (check : bool) (s : bstream) (m : mem) (first : bool) (op : Z) : option (option whead) :=
  if Nat.ltb (mem_get_size m) 2 then Some None
  else
    let? (fin, s) := bget s 1 in
    let? (_, s) := bget s 3 in
    let? (o, s) := bget s 4 in
    let op := if first then o else op in
    let? (mask, s) := bget s 1 in
    let? (signlen, s) := bget s 7 in
    let m := mem_move m 2 in
    let? r := (if signlen =? 126 then
                 if Nat.ltb (mem_get_size m) 2 then Some None
                 else let? (v, s) := bget s 16 in Some (Some (v, s, mem_move m 2))
               else if signlen =? 127 then
                 if Nat.ltb (mem_get_size m) 8 then Some None
                 else let? (v, s) := bget s 64 in Some (Some (v, s, mem_move m 8))
               else Some (Some (signlen, s, m))) in
    match r with
    | None => Some None
    | Some (len, s, m) =>
      let? r := (if mask =? 1 then
                   if Nat.ltb (mem_get_size m) 4 then Some None
                   else let? (k, s) := ws_getkey check s in Some (Some (k, s, mem_move m 4))
                 else Some (Some ([], s, m))) in
      match r with
      | None => Some None
      | Some (key, s, m) =>
        if Z.of_nat (mem_get_size m) <? len then Some None
        else Some (Some (mkwh fin op mask key len s m))
      end
    end.

(** the loop of sis_net_unpack_ws_check, sis_net.ws.c:203-272; true = complete *)
Fixpoint ws_check_loop (fuel : nat) (s : bstream) (m : mem) (first : bool) (op : Z) : option bool :=
  match fuel with
  | O => None
  | S fuel' =>
    let? r := ws_header true s m first op in
    match r with
    | None => Some false
    | Some h =>
      let n := Z.to_nat (h_len h) in
      if h_fin h =? 1 then Some true
      else ws_check_loop fuel' (bmove_bytes (h_st h) n) (mem_move (h_mem h) n) false (h_op h)
    end
  end.

(** sis_net_unpack_ws_check, sis_net.ws.c:195-282.  The stream only sees the received
    bytes; a read past them is None here although C would read allocated memory. *)
Definition ws_check (m : mem) : option bool :=
  ws_check_loop (S (length (mbuf m))) (mkbs (mem_live m) 0) m true 0.

(** ptr[i] ^ maskkey[i % 4], sis_net.ws.c:360-363 *)
Fixpoint ws_xor (key : list Z) (i : nat) (d : list Z) : list Z :=
  match d with [] => [] | b :: d' => Z.lxor b (nth (i mod 4) key 0) :: ws_xor key (S i) d' end.

(** appending the fragment, sis_net.ws.c:355-364.  ptr points behind what out held. *)
Definition ws_append (out : mem) (h : whead) : mem :=
  let n := Z.to_nat (h_len h) in
  let offset := mem_get_size out in
  let out1 := mem_cat out (firstn n (mem_live (h_mem h))) in
  if h_mask h =? 1 then
    mkmem (firstn (moff out1 + offset) (mbuf out1) ++ ws_xor (h_key h) 0 (skipn (moff out1 + offset) (mbuf out1)))
          (moff out1) (mmax out1)
  else out1.

(** the loop of sis_net_unpack_ws_message, sis_net.ws.c:293-384; None inside = break *)
Fixpoint ws_unpack_loop (fuel : nat) (s : bstream) (m out : mem) (first : bool) (op : Z)
    : option (option (Z * mem * mem)) :=
  match fuel with
  | O => None
  | S fuel' =>
    let? r := ws_header false s m first op in
    match r with
    | None => Some None
    | Some h =>
      let n := Z.to_nat (h_len h) in
      let out' := ws_append out h in
      let s' := bmove_bytes (h_st h) n in
      let m' := mem_move (h_mem h) n in
      if h_fin h =? 1 then Some (Some (h_op h, m', out'))
      else ws_unpack_loop fuel' s' m' out' false (h_op h)
    end
  end.

(** result of sis_net_unpack_ws: 0, -1, or 1 with the tail byte *)
Inductive wsres := WsWait | WsError | WsMsg (info : Z).

(** sis_net_unpack_ws, sis_net.ws.c:416-460 with sis_net_unpack_ws_message, 284-400:
    result, in_ and out_ afterwards.  None = undefined behaviour; the last byte of an empty
    binary payload (445) lies before the buffer. *)
Definition ws_unpack (m out : mem) : option (wsres * mem * mem) :=
  let? ok := ws_check m in
  if negb ok then Some (WsWait, m, out)
  else
    let? r := ws_unpack_loop (S (length (mbuf m))) (mkbs (mem_live m) 0) m (mem_clear out) true 0 in
    match r with
    | None => Some (WsWait, m, mem_clear out)
    | Some (op, m', out') =>
      if op =? 1 then Some (WsMsg 0, m', out')
      else if op =? 2 then
        let size := mem_get_size out' in
        match size with
        | O => None
        | S size' =>
          Some (WsMsg (nth (moff out' + size') (mbuf out') 0),
                m', mkmem (firstn (moff out' + size') (mbuf out')) (moff out') (mmax out'))
        end
      else Some (WsError, m', out')
    end.

(** sis_net_recv_message, sis_net.c:932-980, restricted to the framing: a fresh output buffer
    of 16 KB for every attempt; decompression and decoding of the content are not part of
    this model. *)
Definition ws_recv_message (m : mem) : option (wsres * mem * list Z) :=
  let? (res, m', out) := ws_unpack m (mem_create_size (16 * 1024)) in Some (res, m', mem_live out).

(** the while loop of _make_read_data, sis_net.c:685-724, for one chunk: messages handed to
    cb_reply, and false when the connection is given up *)
Fixpoint ws_recv_loop (fuel : nat) (m : mem) : option (list (Z * list Z) * mem * bool) :=
  match fuel with
  | O => None
  | S fuel' =>
    let? (res, m', data) := ws_recv_message m in
    match res with
    | WsWait => Some ([], m', true)
    | WsError => Some ([], m', false)
    | WsMsg info => let? (l, m2, ok) := ws_recv_loop fuel' m' in Some ((info, data) :: l, m2, ok)
    end
  end.

(** one call of _make_read_data, sis_net.c:674-731, for the chunks read from the queue *)
Fixpoint ws_recv_chunks (m : mem) (chunks : list (list Z)) : option (list (Z * list Z) * mem * bool) :=
  match chunks with
  | [] => Some ([], m, true)
  | c :: chunks' =>
    let m1 := mem_cat m c in
    let? (l, m2, ok) := ws_recv_loop (S (mem_get_size m1)) m1 in
    if ok then let? (l', m3, ok') := ws_recv_chunks m2 chunks' in Some (l ++ l', m3, ok')
    else Some (l, m2, false)
  end.

(** a connection: calls of _make_read_data one after the other, each ending with
    sis_memory_pack (729); a connection given up reads no more (751) *)
Fixpoint ws_recv (m : mem) (batches : list (list (list Z))) : option (list (Z * list Z) * mem * bool) :=
  match batches with
  | [] => Some ([], m, true)
  | b :: batches' =>
    let? (l, m1, ok) := ws_recv_chunks m b in
    if ok then let? (l', m2, ok') := ws_recv (mem_pack m1) batches' in Some (l ++ l', m2, ok')
    else Some (l, mem_pack m1, false)
  end.
