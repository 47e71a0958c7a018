(** Model of the store of shared texts: workers/memdb/memdb.c 9-17, 31-46, 65-69, 89-189, with
    sis_net_message_set_char, tag_* of src/core/net/sis_net.msg.c 246, 428-432, 462-493, sis_sdsnew of
    src/core/sis_sds.c 140-144, and subscriptions as in M_sub.
    None = a crash.  Simplified: the map of contents is a list of entries looked up by name ignoring
    case (C43 proves the dictionary is such a map); names hold no zero byte; the answer holds what
    the service puts into the message: its tag, and for AText its content (on AOk and ANil the
    content of the request goes back with the answer). *)
From Coq Require Import ZArith List Bool Lia String.
From Verif Require Import Base S_server M_server S_sub M_sub S_memdb.
Import ListNotations.
Open Scope list_scope.
Open Scope Z_scope.

(** memdb_methods, memdb.c:9-17: the commands and their access flags *)
Definition memdb_methods : list (str * Z) :=
  [ (bs "init"%string, 0); (bs "get"%string, 0); (bs "set"%string, 0); (bs "sub"%string, 0);
    (bs "hsub"%string, 0); (bs "pub"%string, 0); (bs "unsub"%string, 0) ].

(** s_memdb_cxt, memdb.h:16-29: work_keys with the content of each unit, work_sub_cxt, and whether
    there is a cb_net_message to send with.  The style of a unit (memdb.h:12) is never set, so
    memdb.c:121-124 is never reached. *)
Record mdb := mkmdb { d_keys : list (str * str); d_subs : scxt; d_out : bool }.
(** memdb_init, memdb.c:65-69, and the call of init by the server that follows it, memdb.c:89-106,
    sisdb_server.c:647-655 *)
Definition mdb0 : mdb := mkmdb [] scxt0 true.

(** strlen, as in sis_sdsnew, sis_sds.c:140-144 *)
Fixpoint cstr (l : str) : str :=
  match l with [] => [] | c :: t => if c =? 0 then [] else c :: cstr t end.
(** memdb_unit_create, memdb.c:31-40 *)
Definition unit_create (info : option str) : option str :=
  match info with Some v => Some (cstr v) | None => None end.

(** sis_map_pointer_get, sis_map.c:274-286; a missing name is equal to no other, sis_str.c:48-57 *)
Fixpoint key_get (m : list (str * str)) (k : option str) : option str :=
  match m with
  | [] => None
  | (k', v) :: m' => if casecmp_o k (Some k') then Some v else key_get m' k
  end.
(** sis_map_pointer_set, sis_map.c:300-304, sis_dict.c:443-465: the copy of a missing name is empty,
    sis_map.c:61-67 *)
Fixpoint key_replace (m : list (str * str)) (k : option str) (v : str) : list (str * str) :=
  match m with
  | [] => []
  | (k', v') :: m' => if casecmp_o k (Some k') then (k', v) :: m' else (k', v') :: key_replace m' k v
  end.
Definition key_set (m : list (str * str)) (k : option str) (v : str) : list (str * str) :=
  match key_get m k with
  | Some _ => key_replace m k v
  | None => (match k with Some n => n | None => [] end, v) :: m
  end.

(** SIS_NET_SET_BUF, sis_net.msg.c:246: an empty content is none *)
Definition set_buf (v : str) : option str := match v with [] => None | _ => Some v end.

(** the commands, memdb.c:89-189; [ord] is the order in which the loop of a publication meets the
    patterns.  MGone: _cb_connect_close of sisdb_server.c:61-70 calls the command clear, which the
    service does not have, so sis_worker_command does nothing (src/worker.c:516-541).  MReset: init
    called over the network; such a message holds no cb_net_message (sis_message.c:57-64, 194-212),
    and without one nothing is sent (sisdb_sub.c:216-219). *)
Definition mstep (ord : smap -> smap) (x : mdb) (r : mreq) : option (mdb * mans) :=
  match r with
  | MInit => Some (mkmdb [] scxt0 true, ADone)
  | MReset _ => Some (mkmdb [] scxt0 false, ADone)
  | MGet _ n => Some (x, match key_get (d_keys x) n with None => ANil | Some v => AText (set_buf v) end)
  | MSet _ n v =>
    match unit_create v with
    | Some u => Some (mkmdb (key_set (d_keys x) n u) (d_subs x) (d_out x), AOk)
    | None => Some (x, AError)
    end
  | MSub c h n =>
    match cxt_sub (d_subs x) c h n with
    | Some (y, o) => Some (mkmdb (d_keys x) y (d_out x), AInt o)
    | None => None
    end
  | MPub _ n =>
    match cxt_pub (d_subs x) (ord (s_mul (d_subs x))) n with
    | Some out => Some (x, ASent (if d_out x then out else []))
    | None => None
    end
  | MUnsub c => let '(y, o) := cxt_unsub (d_subs x) c in Some (mkmdb (d_keys x) y (d_out x), AInt o)
  | MGone _ => Some (x, ADone)
  end.
(** a history; [ord] gives the order of the loop at each request *)
Fixpoint mrun (ord : nat -> smap -> smap) (i : nat) (x : mdb) (rs : list mreq) : option (mdb * list mans) :=
  match rs with
  | [] => Some (x, [])
  | r :: rs' =>
    match mstep (ord i) x r with
    | None => None
    | Some (y, a) => match mrun ord (S i) y rs' with Some (z, l) => Some (z, a :: l) | None => None end
    end
  end.
