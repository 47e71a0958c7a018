(** Model of request handling in the server: workers/sisdb_server/sisdb_server.c and
    sisdb_sys.c, with the connection bookkeeping of src/core/net/sis_net.c.

    Simplifications: strings hold no zero byte; the websocket hand-shake is not modelled, a
    connection counts as WORKING from the start; the request queue hands every request to the
    reader, in order; data sets (works) and their method tables are fixed, and what a method of
    a data set does is not modelled, only that it runs; the reply is not modelled; a user
    record reached through a pointer is looked up by its name (records are never removed). *)
From Verif Require Import Base S_server.
From Coq Require Import String.

(** sis_strcasecmp, sis_str.c:48-67: true = returns 0 *)
Fixpoint casecmp (a b : str) : bool :=
  match a, b with
  | [], [] => true
  | x :: a', y :: b' => (lower x =? lower y) && casecmp a' b'
  | _, _ => false
  end.
Definition casecmp_o (a b : option str) : bool :=
  match a, b with
  | None, None => true
  | Some x, Some y => casecmp x y
  | _, _ => false
  end.

(** look-up in a map with case-insensitive string keys, sis_map.c:32-35, 198-213, 274-286 *)
Fixpoint ci_find {V} (l : list (str * V)) (key : str) : option V :=
  match l with [] => None | (k, v) :: l' => if casecmp k key then Some v else ci_find l' key end.

(** s_sisdb_userinfo *)
Record user := mkuser { u_pw : str; u_level : Z }.

(** s_sisdb_server_cxt with the connections of s_sis_net_class: a connection number, which
    connection it is, and whether its status is SIS_NET_WORKING *)
Record srv := mksrv {
  s_works : list (str * list (str * Z));
  s_users : list (str * user);
  s_auth : bool;                        (* user_access exists *)
  s_access : list (Z * str);            (* user_access: cid -> user *)
  s_conns : list (Z * (nat * bool));
  s_queue : list (nat * Z * req);       (* socket_recv *)
  s_next : nat }.

Definition SIS_METHOD_ACCESS_ADMIN : Z := 7.

(** sisdb_server_methods, sisdb_server.c:14-28 *)
Definition server_methods : list (str * Z) :=
  [ (bs "auth", 1); (bs "show", 1); (bs "setuser", 7); (bs "sub", 1); (bs "unsub", 1); (bs "open", 7);
    (bs "close", 7); (bs "save", Z.lor 7 0x200); (bs "pack", Z.lor 7 0x200); (bs "call", 1) ].

Fixpoint zfind {V} (l : list (Z * V)) (k : Z) : option V :=
  match l with [] => None | (k', v) :: l' => if k' =? k then Some v else zfind l' k end.
Fixpoint zdel {V} (l : list (Z * V)) (k : Z) : list (Z * V) :=
  match l with [] => [] | (k', v) :: l' => if k' =? k then zdel l' k else (k', v) :: zdel l' k end.
(** sis_map_kint_set, sis_map.c:380-385 *)
Definition zset {V} (l : list (Z * V)) (k : Z) (v : V) : list (Z * V) := (k, v) :: zdel l k.

(** sis_sys_access_method, sisdb_sys.c:106-132; access flags combined from the user level *)
Definition access_method (flags access : Z) : bool :=
  if flags =? 0 then true
  else if negb (Z.land flags FL_NONET =? 0) then false
  else if access =? SIS_METHOD_ACCESS_ADMIN then true
  else if (access =? FL_WRITE) && negb (Z.land flags FL_DEL =? 0) then false
  else if (access =? FL_READ) && (negb (Z.land flags FL_DEL =? 0) || negb (Z.land flags FL_WRITE =? 0)) then false
  else true.

(** sisdb_server_get_access, sisdb_server.c:397-409 *)
Definition get_access (s : srv) (cid : Z) : Z :=
  if s_auth s then
    match zfind (s_access s) cid with
    | None => -1
    | Some name => match ci_find (s_users s) name with Some u => u_level u | None => -1 end
    end
  else SIS_METHOD_ACCESS_ADMIN.

(** sis_sys_access_atoi, sisdb_sys.c:88-104 *)
Definition access_atoi (l : option str) : Z :=
  if casecmp_o l (Some (bs "write")) then LV_WRITE
  else if casecmp_o l (Some (bs "worker")) then LV_WORKER
  else if casecmp_o l (Some (bs "admin")) then LV_ADMIN
  else LV_READ.

(** cmd_sisdb_server_auth, sisdb_server.c:500-531: the user logged in with the password given,
    if any; None = the server crashes: sis_sdslen of a missing info (500, sis_sds.h:73-74
    reads s[-1]), userinfo->password of an unknown user (529) *)
Definition auth_check (users : list (str * user)) (info : rinfo) : option (option (str * str)) :=
  match info with
  | RNoInfo => None
  | RBadInfo => Some None
  | RJson None _ _ => None
  | RJson (Some n) pw _ =>
    match ci_find users n with
    | None => None
    | Some u =>
      match pw with
      | Some p => if casecmp (u_pw u) p then Some (Some (n, p)) else Some None
      | None => Some None
      end
    end
  end.

Definition set_access (s : srv) (a : list (Z * str)) : srv :=
  mksrv (s_works s) (s_users s) (s_auth s) a (s_conns s) (s_queue s) (s_next s).
Definition set_users (s : srv) (u : list (str * user)) : srv :=
  mksrv (s_works s) u (s_auth s) (s_access s) (s_conns s) (s_queue s) (s_next s).
Definition set_conns (s : srv) (c : list (Z * (nat * bool))) : srv :=
  mksrv (s_works s) (s_users s) (s_auth s) (s_access s) c (s_queue s) (s_next s).
Definition set_queue (s : srv) (q : list (nat * Z * req)) : srv :=
  mksrv (s_works s) (s_users s) (s_auth s) (s_access s) (s_conns s) q (s_next s).

Definition do_auth (s : srv) (k : nat) (cid : Z) (info : rinfo) : option (srv * list tev) :=
  if negb (s_auth s) then Some (s, [])
  else match auth_check (s_users s) info with
       | None => None
       | Some None => Some (s, [])
       | Some (Some (n, p)) => Some (set_access s (zset (s_access s) cid n), [TLogin k cid n p])
       end.

(** cmd_sisdb_server_setuser, sisdb_server.c:564-603: a new user, or another level for an
    existing one; the password of an existing user is not touched.  None = crash (no info,
    570).  Simplified: a missing name makes a user with an empty name (sis_sds.c:140-144); if
    there is one already, the model changes nothing. *)
Fixpoint relevel (l : list (str * user)) (n : str) (lv : Z) : list (str * user) :=
  match l with
  | [] => []
  | (k, u) :: l' => if casecmp k n then (k, mkuser (u_pw u) lv) :: l' else (k, u) :: relevel l' n lv
  end.
Definition oget (x : option str) : str := match x with Some y => y | None => [] end.
Definition do_setuser (s : srv) (info : rinfo) : option srv :=
  match info with
  | RNoInfo => None
  | RBadInfo => Some s
  | RJson n pw lv =>
    match ci_find (s_users s) (oget n), n with
    | None, _ => Some (set_users s (s_users s ++ [(oget n, mkuser (oget pw) (access_atoi lv))]))
    | Some _, Some n' => Some (set_users s (relevel (s_users s) n' (access_atoi lv)))
    | Some _, None => Some s
    end
  end.

(** sis_worker_command on the server itself, src/worker.c:516-541, called from sisdb_server.c:335-340 *)
Definition server_command (s : srv) (k : nat) (cid : Z) (r : req) : option (srv * list tev) :=
  if casecmp_o (r_cmd r) (Some (bs "auth")) then do_auth s k cid (r_info r)
  else if casecmp_o (r_cmd r) (Some (bs "setuser")) then
    match do_setuser s (r_info r) with Some s' => Some (s', []) | None => None end
  else Some (s, []).

Definition ci_find_o {V} (l : list (str * V)) (key : option str) : option V :=
  match key with Some k => ci_find l k | None => None end.

(** cb_reader_recv, sisdb_server.c:411-485.  [logs] says whether the call of "wlog" (452)
    appends to the log; its result is ignored. *)
Definition process (logs : bool) (s : srv) (k : nat) (cid : Z) (r : req) : option (srv * list tev) :=
  let access := get_access s cid in
  if (access <? 0) && negb (casecmp_o (Some (bs "auth")) (r_cmd r)) then Some (s, [TRefuse k cid r])
  else match r_service r with
  | Some sv =>
    match ci_find (s_works s) sv with
    | None => Some (s, [TRefuse k cid r])
    | Some ms =>
      match ci_find_o ms (r_cmd r) with
      | None => Some (s, [TRefuse k cid r])
      | Some flags =>
        if access_method flags access then
          Some (s, (if negb (Z.land flags FL_WRITE =? 0) && (Z.land flags FL_NOLOG =? 0) && logs
                    then [TLog k cid r] else []) ++ [TExec k cid flags r])
        else Some (s, [TRefuse k cid r])
      end
    end
  | None =>
    match ci_find_o server_methods (r_cmd r) with
    | None => Some (s, [TRefuse k cid r])
    | Some flags =>
      if access_method flags access then
        match server_command s k cid r with
        | Some (s', t) => Some (s', TExec k cid flags r :: t)
        | None => None
        end
      else Some (s, [TRefuse k cid r])
    end
  end.

(** one event.
    EOpen: cb_server_connected, sis_net.c:487-520, a context in status WORKING (the number
    comes from sis_net_list_new, sis_net.node.c:758-791, and may have been used before).
    ERecv: cb_server_recv_after, sis_net.c:371-387, with _make_read_data, 676-707, and
    cb_socket_recv, sisdb_server.c:258-270: only while WORKING.
    EBad: _make_read_data, sis_net.c:714-722: status DISCONNECT, nothing else happens.
    EClose: cb_server_disconnect, sis_net.c:521-540: only a WORKING connection is reported to
    _cb_connect_close, sisdb_server.c:52-60; the context goes, sis_net.c:762-783. *)
Definition srv_step (logs : bool) (s : srv) (e : sevent) : option (srv * list tev) :=
  match e with
  | EOpen cid =>
    Some (mksrv (s_works s) (s_users s) (s_auth s) (s_access s) (zset (s_conns s) cid (s_next s, true))
                (s_queue s) (S (s_next s)), [])
  | ERecv cid r =>
    match zfind (s_conns s) cid with
    | Some (k, true) => Some (set_queue s (s_queue s ++ [(k, cid, r)]), [])
    | _ => Some (s, [])
    end
  | EProc =>
    match s_queue s with
    | [] => Some (s, [])
    | (k, cid, r) :: q => process logs (set_queue s q) k cid r
    end
  | EBad cid =>
    match zfind (s_conns s) cid with
    | Some (k, true) => Some (set_conns s (zset (s_conns s) cid (k, false)), [])
    | _ => Some (s, [])
    end
  | EClose cid =>
    match zfind (s_conns s) cid with
    | Some (k, true) =>
      let s' := set_conns s (zdel (s_conns s) cid) in
      Some (if s_auth s then set_access s' (zdel (s_access s') cid) else s', [])
    | Some (k, false) => Some (set_conns s (zdel (s_conns s) cid), [])
    | None => Some (s, [])
    end
  end.

Fixpoint srv_run (logs : nat -> bool) (n : nat) (s : srv) (es : list sevent) : option (srv * list tev) :=
  match es with
  | [] => Some (s, [])
  | e :: es' =>
    match srv_step (logs n) s e with
    | None => None
    | Some (s', t) =>
      match srv_run logs (S n) s' es' with Some (s2, t') => Some (s2, t ++ t') | None => None end
    end
  end.

(** after start-up, sisdb_server.c:202-209: users loaded, authentication on if there are any *)
Definition srv_start (works : list (str * list (str * Z))) (users : list (str * user)) : srv :=
  mksrv works users (match users with [] => false | _ => true end) [] [] [] 0.
