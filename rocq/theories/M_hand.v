(** Model of the websocket handshake: src/core/net/sis_net.ws.c 3-88, src/core/net/sis_net.c 296-362, 387-420, 445-470; sis_strsub,
    src/core/sis_str.c:295-303; sis_str_get_id, 705-732.

    The receive buffer is modelled with everything that is allocated, because strstr runs on behind the bytes received:
    [x_all] is the whole allocation (maxsize bytes), [x_size] and [x_off] as in s_sis_memory.  New allocations have arbitrary
    contents: [junk k i] is byte i of the k-th allocation.  Sizes are below 2^31. *)
From Coq Require Import String.
From Verif Require Import Base M_memory M_sha1 S_hand.
Open Scope list_scope.
Open Scope Z_scope.

Record xbuf := mkx { x_all : list Z; x_size : nat; x_off : nat; x_allocs : nat }.
Definition x_max (x : xbuf) : nat := List.length (x_all x).
Definition x_live (x : xbuf) : list Z := skipn (x_off x) (firstn (x_size x) (x_all x)).
Definition fresh (junk : nat -> nat -> Z) (k : nat) (live : list Z) (n : nat) : list Z :=
  live ++ map (junk k) (seq (List.length live) (n - List.length live)).
(** sis_memory_create, sis_memory.c:5-13 *)
Definition x_create (junk : nat -> nat -> Z) (k : nat) : xbuf := mkx (fresh junk k [] 255) 0 0 (S k).
(** sis_memory_clear, sis_memory.c:62-66 *)
Definition x_clear (x : xbuf) : xbuf := mkx (x_all x) 0 0 (x_allocs x).
(** sis_memory_grow, sis_memory.c:114-135 *)
Definition x_grow (junk : nat -> nat -> Z) (x : xbuf) (n : nat) : xbuf :=
  if (x_max x <? n)%nat
  then mkx (fresh junk (x_allocs x) (x_live x) (n + Z.to_nat (Z.min SIS_MEMORY_SIZE ((Z.of_nat n + Z.of_nat (x_max x)) / 2))))
           (List.length (x_live x)) 0 (S (x_allocs x))
  else x.
(** sis_memory_cat, sis_memory.c:136-145 *)
Definition x_cat (junk : nat -> nat -> Z) (x : xbuf) (b : list Z) : xbuf :=
  match b with
  | [] => x
  | _ => let x1 := x_grow junk x (List.length b + x_size x) in
         mkx (firstn (x_size x1) (x_all x1) ++ b ++ skipn (x_size x1 + List.length b) (x_all x1))
             (x_size x1 + List.length b) (x_off x1) (x_allocs x1)
  end.
(** sis_memory_move, sis_memory.c:505-515 *)
Definition x_move (x : xbuf) (n : nat) : xbuf :=
  mkx (x_all x) (x_size x) (if (x_off x + n <=? x_size x)%nat then x_off x + n else x_size x)%nat (x_allocs x).
(** the bytes from sis_memory() to the end of the allocation *)
Definition x_rest (x : xbuf) : list Z := skipn (x_off x) (x_all x).

Fixpoint starts (sub l : list Z) : bool :=
  match sub, l with
  | [], _ => true
  | c :: sub', d :: l' => (c =? d) && starts sub' l'
  | _, [] => false
  end.
(** strstr on an array of bytes: None, it reads behind the array *)
Fixpoint strstr (sub l : list Z) : option (option nat) :=
  match l with
  | [] => None
  | c :: l' =>
    if starts sub l then Some (Some O)
    else if c =? 0 then Some None
    else match strstr sub l' with
         | Some (Some p) => Some (Some (S p))
         | r => r
         end
  end.

(** __ws_define_eof, sis_net.ws.c:6 *)
Definition EOH : list Z := [13; 10; 13; 10].
(** __ws_define_ans, __ws_define_ask, sis_net.ws.c:4-5 *)
Definition lines (l : list string) : list Z := concat (map (fun s => txt s ++ [13; 10]) l).
Definition ANS : list Z :=
  lines ["HTTP/1.1 101 Switching Protocols"; "Upgrade: websocket"; "Connection: Upgrade"]%string ++ txt "Sec-WebSocket-Accept: ".
Definition ASK : list Z :=
  lines ["GET / HTTP/1.1"; "Upgrade: websocket"; "Connection: Upgrade"; "Sec-WebSocket-Version: 13"]%string ++ txt "Sec-WebSocket-Key: ".
Definition WSKEY : list Z := txt "Sec-WebSocket-Key".
(** bytes 24 to 59 of __ws_define_hash, sis_net.ws.c:3 *)
Definition WSGUID : list Z := txt "258EAFA5-E914-47DA-95CA-C5AB0DC85B11".

(** sis_net_ws_head_complete, 37-45: None, a read outside; Some None, not complete *)
Definition head_complete (x : xbuf) : option (option nat) :=
  match strstr EOH (x_rest x) with
  | None => None
  | Some None => Some None
  | Some (Some p) => Some (Some (p + 4)%nat)
  end.

(** skipping of blanks and colons, 55-58 *)
Fixpoint skip_blank (l : list Z) : list Z :=
  match l with
  | c :: l' => if (c =? 32) || (c =? 58) then skip_blank l' else l
  | [] => []
  end.
(** the loop 61-70: [n] more bytes; None, a read outside; Some None, an end of line comes first *)
Fixpoint take_key (n : nat) (l : list Z) : option (option (list Z)) :=
  match n with
  | O => Some (Some [])
  | S n' => match l with
            | [] => None
            | c :: l' => if (c =? 13) || (c =? 10) then Some None
                         else match take_key n' l' with
                              | Some (Some k) => Some (Some (c :: k))
                              | r => r
                              end
            end
  end.
Fixpoint until_zero (l : list Z) : list Z :=
  match l with [] => [] | c :: l' => if c =? 0 then [] else c :: until_zero l' end.
(** sis_net_ws_get_key, 47-77, with the copy by sis_strcpy (it stops at a zero; behind the 24 bytes of the local array
    there is taken to be a zero somewhere) *)
Definition get_key (x : xbuf) : option (option (list Z)) :=
  match strstr WSKEY (x_rest x) with
  | None => None
  | Some None => Some None
  | Some (Some set) =>
    match take_key 24 (skip_blank (skipn (set + List.length WSKEY) (x_rest x))) with
    | Some (Some k) => Some (Some (until_zero k))
    | r => r
    end
  end.
(** sis_net_ws_get_ans, 21-35: the string that is hashed ends with a key that ends early; [w] is the array of sis_shacalc *)
Definition get_ans (w key : list Z) : list Z :=
  let src := if (List.length key =? 24)%nat then key ++ WSGUID else key in
  ANS ++ shacalc src w ++ EOH.

(** A connection that is in state HANDING, and what one piece does to it: it waits, it is working after [out] has been
    sent, it is given up (SIS_NET_DISCONNECT, or closed), or the code has read outside its memory. *)
Inductive hres := HWait (x : xbuf) | HWork (x : xbuf) (out : list Z) | HStop (x : xbuf) | HBad.
(** the copy of the head, sis_net.c:319-321 and 353-355: [ans], and the receive buffer behind *)
Definition take_head (junk : nat -> nat -> Z) (x : xbuf) (size : nat) : xbuf * xbuf :=
  (x_cat junk (x_create junk (x_allocs x)) (firstn size (x_rest x)), x_move x size).
(** cb_server_recv_after in state HANDING, sis_net.c:387-414, with sis_ws_recv_hand_ask, 312-343 *)
Definition server_recv (junk : nat -> nat -> Z) (w : list Z) (x : xbuf) (b : list Z) : hres :=
  let x := x_cat junk x b in
  match head_complete x with
  | None => HBad
  | Some None => HWait x
  | Some (Some size) =>
    let '(ans, x1) := take_head junk x size in
    match get_key ans with
    | None => HBad
    | Some None => HStop x1
    | Some (Some key) => HWork x1 (get_ans w key)
    end
  end.
(** cb_client_recv_after in state HANDING, sis_net.c:445-470, with sis_ws_match_hand_ans, 346-362 and
    sis_net_ws_chk_ans, sis_net.ws.c:79-87 *)
Definition client_recv (junk : nat -> nat -> Z) (x : xbuf) (b : list Z) : hres :=
  let x := x_cat junk x b in
  match head_complete x with
  | None => HBad
  | Some None => HWait x
  | Some (Some size) =>
    let '(ans, x1) := take_head junk x size in
    match strstr (txt "101") (x_rest ans) with
    | None => HBad
    | Some None => HStop x1
    | Some (Some _) => HWork x1 []
    end
  end.
(** several pieces; what comes after the handshake is left *)
Fixpoint feed (recv : xbuf -> list Z -> hres) (x : xbuf) (ps : list (list Z)) : hres * list (list Z) :=
  match ps with
  | [] => (HWait x, [])
  | p :: ps' => match recv x p with
                | HWait x1 => feed recv x1 ps'
                | r => (r, ps')
                end
  end.

(** the table of sis_str_get_id, sis_str.c:707 *)
Definition SIGN : list Z := map Z.of_nat (seq 65 26 ++ seq 48 10 ++ seq 97 26).
(** struct tm *)
Record tm := mktm { t_year : Z; t_mon : Z; t_day : Z; t_hour : Z; t_min : Z; t_sec : Z }.
Definition sign_at (k : Z) : Z := nth (Z.to_nat k) SIGN 0.
(** sis_str_get_id(key, 25), sis_str.c:705-732, as used in sis_net.ws.c:13-15: 24 bytes; [rnd i]: results of rand() *)
Definition get_id (t : tm) (rnd : nat -> Z) : list Z :=
  [sign_at (Z.rem (t_year t - 118) 62); sign_at (Z.rem (t_mon t + 1) 62); sign_at (t_day t); sign_at (t_hour t);
   sign_at (Z.rem (t_min t) 62); sign_at (t_min t / 62); sign_at (Z.rem (t_sec t) 62); sign_at (t_sec t / 62)] ++
  map (fun i => sign_at (Z.rem (rnd i) 62)) (seq 8 16).
(** sis_net_ws_get_ask, sis_net.ws.c:9-18 *)
Definition get_ask (key : list Z) : list Z := ASK ++ key ++ EOH.
